(** * Nested lists changed at one level; parts of lists that are right. *)

From Coq Require Import List ZArith QArith.
Import ListNotations.
From Verif Require Import Py utils_model.
Local Open Scope nat_scope.

(** [y] has the nesting of [x] above level [k]; there each element is in relation
    with the element it replaces. *)
Inductive changed {A} (R : nested A -> nested A -> Prop) : nat -> nested A -> nested A -> Prop :=
| ch_here x y : R x y -> changed R 0 x y
| ch_list k xs ys : changed_all R k xs ys -> changed R (S k) (Node xs) (Node ys)
with changed_all {A} (R : nested A -> nested A -> Prop) : nat -> list (nested A) -> list (nested A) -> Prop :=
| ca_nil k : changed_all R k [] []
| ca_cons k x y xs ys : changed R k x y -> changed_all R k xs ys -> changed_all R k (x :: xs) (y :: ys).

(** [s] is the part of the rows of [rows] for which [right] holds. *)
Definition part_right {A} (right : A -> Prop) (rows : list A) (s : Q) : Prop :=
  exists marks, Forall2 (fun r (b : bool) => b = true <-> right r) rows marks /\
    (s == inject_Z (Z.of_nat (count_occ Bool.bool_dec marks true)) / inject_Z (Z.of_nat (length rows)))%Q.
