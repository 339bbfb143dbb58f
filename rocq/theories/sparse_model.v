(** * Sparse matrices (the part of scipy.sparse that is used by the code).

    A csr_matrix is the list of its rows, each of which is the list of its stored
    elements (column, value) in the order of the arrays indices and data.  As in
    scipy the columns of a row need not be sorted, a stored value may be zero and
    a column may be stored twice; indptr and the types of numbers are not
    modelled. *)

From Coq Require Import List ZArith Reals Bool Arith.
Import ListNotations.
From Verif Require Import Py nd_model.
Open Scope py_scope.
Local Open Scope R_scope.

Notation line := (list (nat * R)).
Record csr := Csr { ncol : nat; lines : list line }.

Definition csr_shape (x : csr) : list nat := [length (lines x); ncol x].

(** The element of a row at column [j]: stored values of the same column are
    added (csr_matrix.toarray). *)
Fixpoint at_col (j : nat) (l : line) : R :=
  match l with
  | [] => 0
  | (c, v) :: l' => if (c =? j)%nat then v + at_col j l' else at_col j l'
  end.
Definition toarray (x : csr) : nd :=
  Nd (csr_shape x) (fun idx => at_col (nth 1 idx 0%nat) (nth (nth 0 idx 0%nat) (lines x) [])).

(** x.data, as one list. *)
Definition data (x : csr) : list R := concat (map (map snd) (lines x)).

(** x.eliminate_zeros(): stored zeros are removed. *)
Definition eliminate_zeros (x : csr) : csr :=
  Csr (ncol x) (map (filter (fun p => negb (Req_bool (snd p) 0))) (lines x)).

(** sort_indices and sum_duplicates of one row. *)
Fixpoint put (c : nat) (v : R) (l : line) : line :=
  match l with
  | [] => [(c, v)]
  | (c', v') :: l' =>
      if (c <? c')%nat then (c, v) :: (c', v') :: l'
      else if (c =? c')%nat then (c, v + v') :: l'
      else (c', v') :: put c v l'
  end.
Definition canonical_line (l : line) : line := fold_right (fun p => put (fst p) (snd p)) [] l.

(** The conversion of a coo_matrix given by its elements row by row (tocsr), which
    ends by sum_duplicates. *)
Definition coo_tocsr (nc : nat) (rows : list line) : csr := Csr nc (map canonical_line rows).

(** Replacement of x.data, keeping the columns. *)
Fixpoint set_line (l : line) (d : list R) : line * list R :=
  match l, d with
  | (c, _) :: l', v :: d' => let '(r, rest) := set_line l' d' in ((c, v) :: r, rest)
  | _, _ => ([], d)
  end.
Fixpoint set_lines (ls : list line) (d : list R) : list line :=
  match ls with
  | [] => []
  | l :: ls' => let '(r, rest) := set_line l d in r :: set_lines ls' rest
  end.
Definition set_data (x : csr) (d : list R) : csr := Csr (ncol x) (set_lines (lines x) d).

(** Product of a sparse and a dense matrix, and of a dense and a sparse matrix;
    the results are dense. *)
Definition line_dot (l : line) (f : nat -> R) : R :=
  fold_right (fun p s => snd p * f (fst p) + s) 0 l.
Definition sparse_dense_dot (x : csr) (b : nd) : result nd :=
  match shape b with
  | [k; m] =>
      if (ncol x =? k)%nat then
        Ok (Nd [length (lines x); m]
               (fun idx => line_dot (nth (nth 0 idx 0%nat) (lines x) []) (fun c => el b [c; nth 1 idx 0%nat])))
      else Err ValueError
  | _ => Err ValueError
  end.
Definition dense_sparse_dot (a : nd) (x : csr) : result nd :=
  match shape a with
  | [n; k] =>
      if (k =? length (lines x))%nat then
        Ok (Nd [n; ncol x]
               (fun idx => rsum k (fun i => el a [nth 0 idx 0%nat; i] * at_col (nth 1 idx 0%nat) (nth i (lines x) []))))
      else Err ValueError
  | _ => Err ValueError
  end.

(** csr_matrix(a) of a dense matrix: the elements that are not zero. *)
Definition of_dense (n m : nat) (a : nd) : csr :=
  Csr m (map (fun i => filter (fun p => negb (Req_bool (snd p) 0)) (map (fun j => (j, el a [i; j])) (seq 0 m))) (seq 0 n)).

(** Data that is dense or sparse. *)
Inductive matrix := Dense (a : nd) | Sparse (x : csr).
Definition mshape (x : matrix) : list nat := match x with Dense a => shape a | Sparse s => csr_shape s end.
Definition mvalue (x : matrix) : nd := match x with Dense a => a | Sparse s => toarray s end.
