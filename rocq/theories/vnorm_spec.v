(** * Specification of lengths of vectors. *)

From Coq Require Import List Reals.
Import ListNotations.
From Verif Require Import nd_spec.
Local Open Scope R_scope.

(** The Euclidean norm of a list of numbers. *)
Definition norm (l : list R) : R := sqrt (lsum (map (fun x => x * x) l)).
(** [u] has the same direction as [v], and norm 1. *)
Definition direction (v u : list R) : Prop := norm u = 1 /\ v = map (Rmult (norm v)) u.
