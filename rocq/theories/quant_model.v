(** * Model of multimodal/lib/vector_quantization.py, and of the construction of
    codebooks in multimodal/features/hac.py.

    Numbers are reals: rounding, underflow of exp, NaN and infinities are not
    modelled.  The functions of scipy and numpy.linalg (vq, kmeans2, svd) are
    arguments of the model.  A two dimensional array is given by its number of
    columns and the list of its rows, which all have this length. *)

From Coq Require Import List ZArith Reals Bool.
Import ListNotations.
From Verif Require Import Py hac_model.
Open Scope py_scope.
Local Open Scope R_scope.

Definition sum (l : list R) : R := fold_right Rplus 0 l.

(** /repo/multimodal/lib/vector_quantization.py:15-25 *)
Definition square_distances (vectors centroids : mat R) : result (mat R) :=
  py_assert (mcols vectors =? mcols centroids)%nat ;;;
  Ok (Mat (length (mrows centroids))
        (map (fun v => map (fun c => sum (map (fun p => Rsqr (fst p - snd p)) (combine v c)))
                           (mrows centroids))
             (mrows vectors))).

(** np.argmin and np.min of one row: the first of the smallest. *)
Fixpoint argmin_from (l : list R) (pos best : nat) (bestv : R) : nat * R :=
  match l with
  | [] => (best, bestv)
  | x :: l' => if Rlt_dec x bestv then argmin_from l' (S pos) pos x
               else argmin_from l' (S pos) best bestv
  end.
Definition argmin (l : list R) : result (nat * R) :=
  match l with [] => Err ValueError | x :: l' => Ok (argmin_from l' 1 0 x) end.

(** A reduction along axis 1 of an array without columns is refused whatever the
    number of rows. *)
Definition min_rows (m : mat R) : result (list (nat * R)) :=
  if (mcols m =? 0)%nat then Err ValueError else mapM argmin (mrows m).

(** vector_quantization.py:28-33 *)
Definition associate (vectors centroids : mat R) : result (list nat) :=
  dists <- square_distances vectors centroids ;;
  m <- min_rows dists ;;
  Ok (map fst m).

(** vector_quantization.py:12 *)
Definition EPSILON : R := / IZR 1000000000.

(** vector_quantization.py:36-48 *)
Definition soft_associate (vectors centroids : mat R) (alpha : R) : result (mat R) :=
  dists <- square_distances vectors centroids ;;
  min_dist <- min_rows dists ;;
  let weights := map (fun dm => map (fun d => exp (- alpha * d / (EPSILON + snd (snd dm)))) (fst dm))
                     (combine (mrows dists) min_dist) in
  Ok (Mat (mcols dists) (map (fun w => map (fun x => x / sum w) w) weights)).

(** np.eye(k)[c, :] for a list of indices; an index out of range is IndexError
    (the codes are not negative). *)
Definition eye_rows (k : nat) (c : list nat) : result (mat R) :=
  rows <- mapM (fun i => if (i <? k)%nat
                         then Ok (map (fun j => if (j =? i)%nat then 1 else 0) (seq 0 k))
                         else Err IndexError) c ;;
  Ok (Mat k rows).

Section Histos.
Variable vq : mat R -> mat R -> result (list nat).

(** vector_quantization.py:51-60; [soft] is None or the parameter alpha. *)
Definition get_histos (x cb : mat R) (soft : option R) : result (mat R) :=
  match soft with
  | None => c <- vq x cb ;; eye_rows (length (mrows cb)) c
  | Some alpha => soft_associate x cb alpha
  end.

(** ** Codebooks *)

(** data.mean(axis=0) *)
Definition mean_rows (m : mat R) : list R :=
  map (fun j => sum (map (fun r => nth j r 0) (mrows m)) / INR (length (mrows m)))
      (seq 0 (mcols m)).

(** Sum of two rows of equal lengths (rows of length 1 are not repeated here). *)
Definition row_add (a b : list R) : result (list R) :=
  if (length a =? length b)%nat then Ok (map (fun p => fst p + snd p) (combine a b))
  else Err ValueError.

(** Position of the first of the largest counts. *)
Fixpoint argmax_from (l : list nat) (pos best bestv : nat) : nat :=
  match l with
  | [] => best
  | x :: l' => if (bestv <? x)%nat then argmax_from l' (S pos) pos x
               else argmax_from l' (S pos) best bestv
  end.
Definition argmax (l : list nat) : result nat :=
  match l with [] => Err ValueError | x :: l' => Ok (argmax_from l' 1 0%nat x) end.

(** Singular values and right singular vectors. *)
Variable svd : mat R -> result (list R * list (list R)).
Variable kmeans2 : mat R -> mat R -> result (mat R).

(** One turn of the loop of hac.py:79-94, up to the call of kmeans2. *)
Definition split_largest (data centroids : mat R) (alpha : R) : result (mat R) :=
  quantized <- vq data centroids ;;
  counts <- bincount (map Z.of_nat quantized) (Z.of_nat (length (mrows centroids))) ;;
  h <- argmax counts ;;
  let associated := map snd (filter (fun qr => (fst qr =? h)%nat) (combine quantized (mrows data))) in
  '(s, v) <- svd (Mat (mcols data) associated) ;;
  v0 <- py_nth v 0 ;;
  s0 <- py_nth s 0 ;;
  let p := map (fun x => x * sqrt s0) v0 in
  c <- py_nth (mrows centroids) (Z.of_nat h) ;;
  p1 <- row_add c (map (fun x => alpha * x) p) ;;
  p2 <- row_add c (map (fun x => - (alpha * x)) p) ;;
  Ok (Mat (mcols centroids)
        (slice_to (mrows centroids) (Z.of_nat h) ++ slice_from (mrows centroids) (Z.of_nat h + 1)
         ++ [p1; p2])).

(** The loop of hac.py:79-97; [fuel] bounds the number of turns. *)
Fixpoint kmeans_loop (fuel : nat) (data centroids : mat R) (k : Z) (alpha : R) : result (mat R) :=
  if (Z.of_nat (length (mrows centroids)) <? k)%Z then
    match fuel with
    | O => Err Timeout
    | S fuel' =>
        cs <- split_largest data centroids alpha ;;
        cs' <- kmeans2 data cs ;;
        kmeans_loop fuel' data cs' k alpha
    end
  else Ok centroids.

(** hac.py:68-97 *)
Definition iterative_kmeans (fuel : nat) (data : mat R) (k : Z) (alpha : R) : result (mat R) :=
  kmeans_loop fuel data (Mat (mcols data) [mean_rows data]) k alpha.

Inductive mode := Raw | Iterative | OtherMode.
(** kmeans2(data, k) with random initial centroids. *)
Variable kmeans2_random : mat R -> Z -> result (mat R).

(** hac.py:100-107 *)
Definition build_codebook (fuel : nat) (data : mat R) (k : Z) (m : mode) : result (mat R) :=
  match m with
  | Raw => kmeans2_random data k
  | Iterative => iterative_kmeans fuel data k (/ 100)
  | OtherMode => Err ValueError
  end.
End Histos.
