(** * What "optimal assignment" means, independently of any algorithm.

    A cost table is a function [c i j] (cost of giving column j to row i). *)

From Coq Require Import List Arith QArith Permutation.
Import ListNotations.

(** Total cost of choosing column [s_i] for row [i]. *)
Fixpoint cost_from (c : nat -> nat -> Q) (i : nat) (s : list nat) : Q :=
  match s with
  | [] => 0
  | j :: s' => c i j + cost_from c (S i) s'
  end.
Definition cost (c : nat -> nat -> Q) (s : list nat) : Q := cost_from c 0 s.

(** [s] lists each of the columns [0..n-1] exactly once. *)
Definition is_permutation (n : nat) (s : list nat) : Prop :=
  Permutation s (seq 0 n).

Definition optimal_permutation (n : nat) (c : nat -> nat -> Q) (s : list nat) : Prop :=
  is_permutation n s /\
  forall s', is_permutation n s' -> cost c s <= cost c s'.

(** One column per row, no column twice. *)
Definition is_injection (n1 n2 : nat) (s : list nat) : Prop :=
  length s = n1 /\ NoDup s /\ (forall j, In j s -> (j < n2)%nat).

Definition optimal_injection (n1 n2 : nat) (c : nat -> nat -> Q) (s : list nat) : Prop :=
  is_injection n1 n2 s /\
  forall s', is_injection n1 n2 s' -> cost c s <= cost c s'.

(** Partial choices (more rows than columns): [None] means that the row gets no
    column. *)
Fixpoint partial_cost_from (c : nat -> nat -> Q) (i : nat) (r : list (option nat)) : Q :=
  match r with
  | [] => 0
  | Some j :: r' => c i j + partial_cost_from c (S i) r'
  | None :: r' => partial_cost_from c (S i) r'
  end.
Definition partial_cost (c : nat -> nat -> Q) (r : list (option nat)) : Q :=
  partial_cost_from c 0 r.

Definition columns_of (r : list (option nat)) : list nat :=
  flat_map (fun o => match o with Some j => [j] | None => [] end) r.

(** Every column is given to exactly one row. *)
Definition covers_columns (n1 n2 : nat) (r : list (option nat)) : Prop :=
  length r = n1 /\ Permutation (columns_of r) (seq 0 n2).

Definition optimal_partial (n1 n2 : nat) (c : nat -> nat -> Q) (r : list (option nat)) : Prop :=
  covers_columns n1 n2 r /\
  forall r', covers_columns n1 n2 r' -> partial_cost c r <= partial_cost c r'.

(** Entry of a table given as a list of rows. *)
Definition entry (rows : list (list Q)) (i j : nat) : Q := nth j (nth i rows []) 0.

(** [r] is the inverse of [s]: position j of [r] holds i iff position i of [s]
    holds j, and positions that are not a value of [s] hold None. *)
Definition inverse_of (s : list nat) (size : nat) (r : list (option nat)) : Prop :=
  length r = size /\
  (forall i j, nth_error r j = Some (Some i) <-> nth_error s i = Some j) /\
  (forall j, (j < size)%nat -> ~ In j s -> nth_error r j = Some None).
