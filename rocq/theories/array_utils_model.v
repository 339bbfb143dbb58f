(** * Model of multimodal/lib/array_utils.py. *)

From Coq Require Import List ZArith Reals Bool Arith.
Import ListNotations.
From Verif Require Import Py nd_model sparse_model.
Open Scope py_scope.
Local Open Scope R_scope.

(** normalize_sum (array_utils.py:19-22). *)
Definition normalize_sum (a : nd) (axis : Z) (eps : R) : result nd :=
  if (Z.of_nat (ndim a) <=? axis)%Z then Err ValueError
  else
    s <- sum_axis a (Some axis) ;;
    e <- expand_dims s axis ;;
    map2 Rdiv a (map1 (fun v => eps + v) e).

(** A csc_matrix: the list of its columns, each a list of (row, value). *)
Record csc := Csc { nrow : nat; columns : list line }.
Definition csc_toarray (y : csc) : nd :=
  Nd [nrow y; length (columns y)] (fun idx => at_col (nth 0 idx 0%nat) (nth (nth 1 idx 0%nat) (columns y) [])).

(** x.tocsc(): column [j] collects the elements of the rows in order. *)
Definition tocsc (x : csr) : csc :=
  Csc (length (lines x))
      (map (fun j => concat (map (fun p => map (fun e => (fst p, snd e)) (filter (fun e => fst e =? j)%nat (snd p)))
                                 (enumerate (lines x))))
           (seq 0 (ncol x))).

(** x.sum(axis=0) and sums.nonzero()[0]. *)
Definition col_totals (n m : nat) (a : nd) : list R := map (fun j => rsum n (fun i => el a [i; j])) (seq 0 m).
Definition nonzero (l : list R) : list nat :=
  map fst (filter (fun p => negb (Req_bool (snd p) 0)) (enumerate l)).

(** normalize_features of a dense matrix (array_utils.py:25-40); the result of the
    function and X after the call.  y[:, ks] keeps the columns [ks]. *)
Definition normalize_features_dense (x : nd) : result nd :=
  match shape x with
  | [n; m] =>
      let sums := col_totals n m x in
      let y := fun i j => el x [i; j] / (1 * ind (Req_bool (nth j sums 0) 0) + nth j sums 0) in
      let ks := nonzero sums in
      Ok (Nd [n; length ks] (fun idx => y (nth 0 idx 0%nat) (nth (nth 1 idx 0%nat) ks 0%nat)))
  | _ => Err ValueError
  end.

(** normalize_features of a csr_matrix: eliminate_zeros changes the argument,
    which is the second component.  The quotient by a sum that is zero is not
    used: such columns are removed. *)
Definition normalize_features_sparse (x : csr) : csc * csr :=
  let sums := col_totals (length (lines x)) (ncol x) (toarray x) in
  let x := eliminate_zeros x in
  let x' := Csr (ncol x) (map (map (fun p => (fst p, snd p / nth (fst p) sums 0))) (lines x)) in
  let y := tocsc x' in
  (Csc (nrow y) (map (fun j => nth j (columns y) []) (nonzero sums)), x).

(** GrowingLILMatrix (array_utils.py:43-66): _shape, rows and data.  The rows
    are lists of the columns that are not zero, data has their values. *)
Record lil := Lil { lshape : nat * nat; lrows : list (list nat); ldata : list (list R) }.

Definition lil_new : lil := Lil (0, 0)%nat [[]] [[]].

(** sp.lil_matrix(row) of a list or of an array with one axis. *)
Definition lil_of_row (row : list R) : lil :=
  let nz := filter (fun p => negb (Req_bool (snd p) 0)) (enumerate row) in
  Lil (1, length row)%nat [map fst nz] [map snd nz].

(** add_row (array_utils.py:52-66). *)
Definition add_row (m : lil) (row : list R) : lil :=
  let s := lil_of_row row in
  if (fst (lshape m) =? 0)%nat && (snd (lshape m) =? 0)%nat then Lil (lshape s) (lrows s) (ldata s)
  else
    let nb_col := Nat.max (length row) (snd (lshape m)) in
    Lil (1 + fst (lshape m), nb_col)%nat
        (lrows m ++ firstn 1 (lrows s)) (ldata m ++ firstn 1 (ldata s)).

(** m.toarray(). *)
Definition lil_toarray (m : lil) : nd :=
  Nd [fst (lshape m); snd (lshape m)]
     (fun idx => at_col (nth 1 idx 0%nat)
        (combine (nth (nth 0 idx 0%nat) (lrows m) []) (nth (nth 0 idx 0%nat) (ldata m) []))).
