(** * Model of multimodal/evaluation.py.

    Numpy arrays are lists of rows.  Distances are elements of any type with a
    strict comparison, so that the same theorems apply to every measure; NaN is
    not a value of such a type (see DESIGN.md).  np.average of a list of
    booleans is a rational, [None] standing for the nan (and RuntimeWarning)
    that numpy gives on an empty list. *)

From Coq Require Import List ZArith Arith Bool QArith.
Import ListNotations.
From Verif Require Import Py.
Open Scope py_scope.
Local Open Scope nat_scope.

(** np.average of booleans. *)
Definition average_bools (ok : list bool) : option Q :=
  match ok with
  | [] => None
  | _ => Some (inject_Z (Z.of_nat (length (filter (fun b => b) ok))) /
               inject_Z (Z.of_nat (length ok)))%Q
  end.

(** ** Labels given the number of true labels. *)

(** (-reco).argsort(): the sorting algorithm of numpy is not stable, so the
    outcome is an oracle, given the row of keys. *)
Definition eye_row (n k : nat) : list Z :=
  map (fun j => if j =? k then 1%Z else 0%Z) (seq 0 n).

(** Sum of rows of length [n] (sum(axis=0)). *)
Definition add_rows (a b : list Z) : list Z := map (fun p => (fst p + snd p)%Z) (combine a b).
Definition sum_rows (n : nat) (rows : list (list Z)) : list Z :=
  fold_left add_rows rows (repeat 0%Z n).

(** One iteration of the list comprehension (evaluation.py:17-18); indexing the
    n x n identity with an index >= n raises IndexError. *)
Definition top_indicator (idx : list nat) (nb_true : Z) (n : nat) : result (list Z) :=
  rows <- mapM (fun k => if k <? n then Ok (eye_row n k) else Err IndexError)
               (slice_to idx nb_true) ;;
  Ok (sum_rows n rows).

Definition Zlist_eqb (a b : list Z) : bool :=
  (length a =? length b) && forallb (fun p => (fst p =? snd p)%Z) (combine a b).

Definition sumZ (l : list Z) : Z := fold_left Z.add l 0%Z.

(** compare_labels_given_nb (evaluation.py:8-19) on two-dimensional inputs with
    integer labels; one-dimensional inputs are first promoted to one row
    (lines 9-11), which is the case of one-element lists here.  [n] is
    true_label_vect.shape[-1].  vstack of no row raises ValueError; reading row
    i of idx raises IndexError when reco has fewer rows. *)
Definition compare_labels_given_nb (argsort : list Q -> list nat)
    (n : nat) (reco : list (list Q)) (true_labels : list (list Z)) : result (list bool) :=
  let nb_true := map sumZ true_labels in
  let idx := map (fun r => argsort (map Qopp r)) reco in
  rows <- mapM (fun p => let '(i, nb) := p in
                 match nth_error idx i with
                 | Some ix => top_indicator ix nb n
                 | None => Err IndexError
                 end) (enumerate nb_true) ;;
  match rows with
  | [] => Err ValueError
  | _ => Ok (map (fun p => Zlist_eqb (fst p) (snd p)) (combine rows true_labels))
  end.

(** score_labels_given_nb (evaluation.py:22-24). *)
Definition score_labels_given_nb argsort n reco true_labels : result (option Q) :=
  ok <- compare_labels_given_nb argsort n reco true_labels ;;
  Ok (average_bools ok).

(** compare_labels_threshold (evaluation.py:27-28) on two-dimensional inputs of
    equal shape; for unequal shapes the comparison of arrays fails (ValueError
    in recent numpy; broadcasting of singleton axes is not modelled). *)
Definition bool_to_Z (b : bool) : Z := if b then 1%Z else 0%Z.
Definition compare_labels_threshold (reco : list (list Q)) (true_labels : list (list Z))
    (threshold : Q) : result (list bool) :=
  if negb (length reco =? length true_labels) then Err ValueError
  else mapM (fun p => let '(r, t) := p in
               if length r =? length t
               then Ok (forallb (fun q => (bool_to_Z (Qle_bool threshold (fst q)) =? snd q)%Z)
                                (combine r t))
               else Err ValueError)
            (combine reco true_labels).

Definition score_labels_threshold reco true_labels threshold : result (option Q) :=
  ok <- compare_labels_threshold reco true_labels threshold ;;
  Ok (average_bools ok).

(** ** chose_examples (evaluation.py:36-47).  [label_set] is the iteration order
    of the argument, or of set(labels) when it is None.  [start + 1] is stored
    instead of [start]. *)
Section Examples.
Context {L : Type} (eqb : L -> L -> bool).

Fixpoint chose_one (labels : list L) (l : L) (next number : nat) : result (list nat) :=
  match number with
  | 0 => Ok []
  | S number' =>
      start <- list_index eqb labels l next ;;
      rest <- chose_one labels l (S start) number' ;;
      Ok (start :: rest)
  end.

Definition chose_examples (labels label_set : list L) (number : nat) : result (list nat) :=
  foldM (fun out l => found <- chose_one labels l 0 number ;; Ok (out ++ found))
        label_set [].
End Examples.

(** ** Nearest neighbours. *)

Section Argmin.
Context {D : Type} (ltb : D -> D -> bool).

(** np.argmin of one row: first position of a minimum; ValueError on an empty
    row. *)
Fixpoint argmin_aux (best : D) (bi i : nat) (l : list D) : nat :=
  match l with
  | [] => bi
  | x :: l' => if ltb x best then argmin_aux x i (S i) l' else argmin_aux best bi (S i) l'
  end.
Definition argmin (l : list D) : result nat :=
  match l with
  | [] => Err ValueError
  | x :: l' => Ok (argmin_aux x 0 1 l')
  end.
End Argmin.

(** np.argmax of one row. *)
Definition argmax {D} (ltb : D -> D -> bool) (l : list D) : result nat :=
  argmin (fun x y => ltb y x) l.

Section NN.
Context {L D : Type} (eqb : L -> L -> bool) (ltb : D -> D -> bool).

(** A two-dimensional array of distances, with its shape. *)
Record dists := Dists { d_rows : list (list D); d_cols : nat }.

(** np.argmin(dists, axis=1): fails on an array with no column, even when it has
    no row. *)
Definition argmin_rows (d : dists) : result (list nat) :=
  if d_cols d =? 0 then Err ValueError else mapM (argmin ltb) (d_rows d).

Definition lookup (labels : list L) (m : nat) : result L :=
  match nth_error labels m with Some l => Ok l | None => Err IndexError end.

(** dists_to_found_labels (evaluation.py:75-78). *)
Definition dists_to_found_labels (d : dists) (ex_labels : list L) : result (list L) :=
  matching <- argmin_rows d ;;
  mapM (lookup ex_labels) matching.

(** found_labels_to_score (evaluation.py:81-84). *)
Definition found_labels_to_score (true_ found : list L) : option Q :=
  average_bools (map (fun p => eqb (fst p) (snd p)) (combine found true_)).

(** scores_from_dists (evaluation.py:62-72). *)
Definition scores_from_dists (d : dists) (true_0 : list L) (true_1 : option (list L))
  : result (option Q) :=
  true_1' <- match true_1 with
             | None => py_assert (length (d_rows d) =? d_cols d) ;;; Ok true_0
             | Some t => Ok t
             end ;;
  matching <- argmin_rows d ;;
  found <- mapM (lookup true_1') matching ;;
  Ok (average_bools (map (fun p => eqb (fst p) (snd p)) (combine found true_0))).

(** all_distances (evaluation.py:103-106): the broadcast measure is its value
    on each pair of rows; it may raise. *)
Context {Row : Type} (measure : Row -> Row -> result D).

Definition all_distances (reco ex : list Row) : result dists :=
  rows <- mapM (fun r => mapM (measure r) ex) reco ;;
  Ok (Dists rows (length ex)).

(** classify_NN (evaluation.py:109-116). *)
Definition classify_NN (reco ex : list Row) (ex_labels : list L) : result (list L) :=
  d <- all_distances reco ex ;;
  dists_to_found_labels d ex_labels.

(** evaluate_NN_label (evaluation.py:119-130). *)
Definition evaluate_NN_label (reco test : list Row) (true_labels test_labels : list L)
  : result (option Q) :=
  d <- all_distances reco test ;;
  scores_from_dists d true_labels (Some test_labels).
End NN.
Arguments dists D : clear implicits.
Arguments Dists {D} _ _.
Arguments d_rows {D} _.
Arguments d_cols {D} _.

(** evaluate_label_reco (evaluation.py:50-58): [acti] has [cols] columns. *)
Definition evaluate_label_reco {D} (ltb : D -> D -> bool) (acti : dists D)
    (true_labels : list Z) : result (option Q) :=
  best <- (if d_cols acti =? 0 then Err ValueError
           else mapM (argmax ltb) (d_rows acti)) ;;
  py_assert (length best =? length true_labels) ;;;
  Ok (average_bools (map (fun p => (Z.of_nat (fst p) =? snd p)%Z) (combine best true_labels))).

(** ** Confusion matrix. *)

Definition conf_get (conf : list (list Z)) (p : nat * nat) : Z :=
  nth (snd p) (nth (fst p) conf []) 0%Z.
Definition conf_set (conf : list (list Z)) (p : nat * nat) (x : Z) : list (list Z) :=
  list_set conf (fst p) (list_set (nth (fst p) conf []) (snd p) x).

(** Broadcasting of two index lists: equal lengths, or one of length one;
    otherwise IndexError. *)
Definition broadcast_pairs (a b : list Z) : result (list (Z * Z)) :=
  if length a =? length b then Ok (combine a b)
  else match a, b with
       | [x], _ => Ok (map (fun y => (x, y)) b)
       | _, [y] => Ok (map (fun x => (x, y)) a)
       | _, _ => Err IndexError
       end.

(** found_labels_to_confusion (evaluation.py:87-93).  "conf[true, found] += 1"
    reads all the entries, adds one to each value read, then writes them back in
    order; negative labels wrap around. *)
Definition found_labels_to_confusion (true_ found : list Z) (n_labels : nat)
  : result (list (list Z)) :=
  let conf := repeat (repeat 0%Z n_labels) n_labels in
  pairs <- broadcast_pairs true_ found ;;
  idx <- mapM (fun p => r <- norm_index n_labels (fst p) ;;
                        c <- norm_index n_labels (snd p) ;; Ok (r, c)) pairs ;;
  let values := map (conf_get conf) idx in
  Ok (fold_left (fun c q => conf_set c (fst q) (snd q + 1)%Z) (combine idx values) conf).
