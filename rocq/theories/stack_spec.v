(** * What stacking and multiplying matrices mean, whatever their storage. *)

From Coq Require Import List Reals Arith.
Import ListNotations.
From Verif Require Import nd_model sparse_model.
Local Open Scope R_scope.

(** The sum of the values stored by a row in a column. *)
Definition at_column (j : nat) (l : list (nat * R)) : R :=
  fold_right Rplus 0 (map snd (filter (fun p => Nat.eqb (fst p) j) l)).

(** [reads x n m f]: x is a matrix with n rows and m columns with the elements f i j; a
    number is a matrix with one element and a list of numbers a row. *)
Inductive reads : matrix -> nat -> nat -> (nat -> nat -> R) -> Prop :=
| reads_number a : shape a = [] -> reads (Dense a) 1 1 (fun _ _ => el a [])
| reads_row a m : shape a = [m] -> reads (Dense a) 1 m (fun _ j => el a [j])
| reads_table a n m : shape a = [n; m] -> reads (Dense a) n m (fun i j => el a [i; j])
| reads_sparse s : (forall l c v, In l (lines s) -> In (c, v) l -> (c < ncol s)%nat) ->
    reads (Sparse s) (length (lines s)) (ncol s) (fun i j => at_column j (nth i (lines s) [])).

(** [is_matrix x n m f]: the same, for the result of a function, with two axes. *)
Definition is_matrix (x : matrix) (n m : nat) (f : nat -> nat -> R) : Prop :=
  match x with
  | Dense a => shape a = [n; m] /\ forall i j, (i < n)%nat -> (j < m)%nat -> el a [i; j] = f i j
  | Sparse s => length (lines s) = n /\ ncol s = m /\
      (forall l c v, In l (lines s) -> In (c, v) l -> (c < m)%nat) /\
      forall i j, (i < n)%nat -> (j < m)%nat -> at_column j (nth i (lines s) []) = f i j
  end.
Definition is_sparse (x : matrix) : Prop := exists s, x = Sparse s.

Definition sum_to (n : nat) (f : nat -> R) : R := fold_right Rplus 0 (map f (seq 0 n)).
(** Rows in the blocks before block number k. *)
Definition rows_before (k : nat) (ns : list nat) : nat := fold_right Nat.add 0%nat (firstn k ns).
(** A block with m columns: its number of rows and its elements. *)
Definition block : Type := nat * (nat -> nat -> R).
Definition gives (m : nat) (b : matrix) (r : block) : Prop := reads b (fst r) m (snd r).
Definition two_axes (x : matrix) : Prop := match x with Dense a => length (shape a) = 2%nat | Sparse _ => True end.
