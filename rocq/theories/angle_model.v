(** * Model of the angle histograms of multimodal/features/angle_histograms.py.

    Joint angles are modelled in transf_model.v.  Numbers are reals.  The
    functions of scipy (whiten, kmeans, vq) are arguments of the model.  A
    database is its marker names and the arrays of samples of its records.
    db_to_binned_hist_matrix is in binned_model.v. *)

From Coq Require Import List ZArith Reals Bool String.
Import ListNotations.
From Verif Require Import Py utils_model hac_model quant_model transf_model.
Open Scope py_scope.
Local Open Scope R_scope.

(** ** Stacking and unstacking *)

(** np.vstack: at least one array, equal numbers of columns. *)
Definition vstack {A} (x : list (mat A)) : result (mat A) :=
  match x with
  | [] => Err ValueError
  | a :: _ => if forallb (fun b => mcols b =? mcols a)%nat x
              then Ok (Mat (mcols a) (flat_map mrows x)) else Err ValueError
  end.

(** np.cumsum *)
Fixpoint cumsum_from (s : nat) (l : list nat) : list nat :=
  match l with [] => [] | n :: l' => (s + n)%nat :: cumsum_from (s + n)%nat l' end.
Definition cumsum (l : list nat) : list nat := cumsum_from 0 l.

(** /repo/multimodal/features/angle_histograms.py:158-163 *)
Definition compact_examples {A} (x : list (mat A)) : result (mat A * list nat) :=
  let idx := map (fun y => List.length (mrows y)) x in
  v <- vstack x ;;
  Ok (v, cumsum idx).

(** angle_histograms.py:166-168 *)
Definition un_compact_examples {A} (v : mat A) (idx : list nat) : list (mat A) :=
  map (fun ij => Mat (mcols v) (slice (mrows v) (Z.of_nat (fst ij)) (Z.of_nat (snd ij))))
      (combine (0%nat :: removelast idx) idx).

(** ** Iterables: a list, or an iterator, which gives its elements only once. *)
Inductive python := Python2 | Python3.
Inductive iterable (A : Type) := AsList (l : list A) | Once (l : list A).
Arguments AsList {A} _. Arguments Once {A} _.
Definition elements {A} (x : iterable A) : list A := match x with AsList l => l | Once l => l end.
(** What remains after a complete traversal. *)
Definition after {A} (x : iterable A) : iterable A :=
  match x with AsList l => AsList l | Once _ => Once [] end.
(** The value of a call of map on a list, the function having been applied. *)
Definition map_object {A} (v : python) (l : list A) : iterable A :=
  match v with Python2 => AsList l | Python3 => Once l end.
(** Subscripting and len: an iterator has none. *)
Definition as_sequence {A} (x : iterable A) : result (list A) :=
  match x with AsList l => Ok l | Once _ => Err TypeError end.

(** ** Angles and velocities *)
(** Rows of a two dimensional array, subtracted elementwise. *)
Definition row_sub (a b : list R) : list R := map (fun p => fst p - snd p) (combine a b).

(** angle_histograms.py:75-79 *)
Definition db_to_angles_and_vels (marker_names : list string) (records : list (list (list (list R))))
    (vel_delay : Z) (vel_padding : padding) : result (list (list (list R)) * list (list (list R))) :=
  angles <- db_to_list_of_angle_arrays marker_names records ;;
  vels <- mapM (fun angle => delayed_velocities row_sub (repeat 0 (List.length (hd [] angle)))
                               vel_delay angle vel_padding) angles ;;
  Ok (angles, vels).

(** angle_histograms.py:87-94 *)
Definition filter_values (v : python) (data : list (list (list R))) (bounds : R * R)
  : iterable (list (list R)) :=
  map_object v (map (map (map (fun x => Rmax (Rmin x (snd bounds)) (fst bounds)))) data).

(** ** Histograms *)
(** a[:, dof]; IndexError if some row is too short. *)
Definition column (a : list (list R)) (dof : nat) : result (list R) :=
  mapM (fun r => match nth_error r dof with Some x => Ok x | None => Err IndexError end) a.
(** np.hstack of two columns. *)
Definition two_columns (a v : list R) : result (mat R) :=
  if (List.length a =? List.length v)%nat
  then Ok (Mat 2 (map (fun p => [fst p; snd p]) (combine a v))) else Err ValueError.
(** h.sum(axis=0) *)
Definition sum_rows (m : mat R) : list R :=
  map (fun j => sum (map (fun r => nth j r 0) (mrows m))) (seq 0 (mcols m)).

(** The examples of one degree of freedom (angle_histograms.py:204-206). *)
Definition dof_data (angles vels : list (list (list R))) (dof : nat) : result (list (mat R)) :=
  mapM (fun av => a <- column (fst av) dof ;; v <- column (snd av) dof ;; two_columns a v)
       (combine angles vels).
(** One list of examples for each degree of freedom; [vels] is traversed again for
    each one (angle_histograms.py:204-207). *)
Fixpoint all_data (angles : list (list (list R))) (vels : iterable (list (list R))) (dofs : list nat)
  : result (list (list (mat R))) :=
  match dofs with
  | [] => Ok []
  | dof :: dofs' => d <- dof_data angles (elements vels) dof ;;
                    rest <- all_data angles (after vels) dofs' ;;
                    Ok (d :: rest)
  end.

Section VQ.
Variable whiten : mat R -> result (mat R).
(** kmeans(d, nb_bins, iter=20)[0] *)
Variable kmeans : mat R -> nat -> result (mat R).
Variable vq : mat R -> mat R -> result (list nat).

(** angle_histograms.py:214-223, from the stacked examples of each degree of
    freedom and the list that remains for the grouping step.  np.array of lists
    of unequal lengths, swapaxes of an array with less than two axes and a
    reshape to another size are ValueError; the test below is equivalent. *)
Definition group (nb_dofs nb_ex nb_bins : nat) (histos : list (mat R)) (compacted : list (mat R * list nat))
  : result (list (list R)) :=
  let histos_by_ex := map (fun hc => un_compact_examples (fst hc) (snd (snd hc))) (combine histos compacted) in
  let ex_histos := map (map sum_rows) histos_by_ex in
  if ((List.length ex_histos =? nb_dofs) && negb (nb_dofs =? 0) &&
      forallb (fun hs => (List.length hs =? nb_ex) && forallb (fun h => List.length h =? nb_bins) hs) ex_histos)%nat
  then
    let Xdata := map (fun e => flat_map (fun hs => nth e hs []) ex_histos) (seq 0 nb_ex) in
    Ok (map (fun row => map (fun x => x / sum row) row) Xdata)
  else Err ValueError.

(** angle_histograms.py:171-223.  The parameters vel_delay and vel_padding are not
    used by the code, which always passes 1 and 'zeros'.  [bounds] and [vel_bounds]
    are None or a pair.  Under Python 3 the stacking of the examples is lazy, and
    takes place while whiten is called: here all of it takes place before. *)
Definition db_to_VQ_hist_matrix (v : python) (marker_names : list string)
    (records : list (list (list (list R)))) (vel_delay : Z) (vel_padding : padding)
    (nb_bins : nat) (bounds vel_bounds : option (R * R)) (soft_vq : option R) : result (list (list R)) :=
  av <- db_to_angles_and_vels marker_names records 1 Zeros ;;
  let angles := match bounds with None => AsList (fst av) | Some b => filter_values v (fst av) b end in
  let vels := match vel_bounds with None => AsList (snd av) | Some b => filter_values v (snd av) b end in
  angles <- as_sequence angles ;;
  first <- py_nth angles 0 ;;
  let nb_dofs := List.length (hd [] first) in
  let nb_ex := List.length angles in
  data <- all_data angles vels (seq 0 nb_dofs) ;;
  done <- mapM compact_examples data ;;
  let compacted := map_object v done in
  white <- mapM (fun d => whiten (fst d)) (elements compacted) ;;
  centro <- mapM (fun d => kmeans d nb_bins) white ;;
  histos <- mapM (fun dc => get_histos vq (fst dc) (snd dc) soft_vq) (combine white centro) ;;
  group nb_dofs nb_ex nb_bins histos (elements (after compacted)).
End VQ.
