(** * Specification of the functions of array_utils.py. *)

From Coq Require Import List ZArith Reals Bool Sorted.
Import ListNotations.
From Verif Require Import nd_model nd_spec.
Local Open Scope R_scope.

(** [r] has the columns of [x] that do not sum to zero, in order, each divided by
    its sum. *)
Definition features_of (x r : nd) : Prop :=
  exists ks : list nat, StronglySorted lt ks /\
    (forall j, In j ks <-> (j < nth 1 (shape x) 0)%nat /\ lsum (col x j) <> 0) /\
    shape r = [nth 0 (shape x) 0; length ks]%nat /\
    forall i q k, (i < nth 0 (shape x) 0)%nat -> nth_error ks q = Some k ->
      el r [i; q] = el x [i; k] / lsum (col x k).

(** The rows of different lengths, padded with zeros. *)
Definition longest (rows : list (list R)) : nat := list_max (map (@length R) rows).
Definition padded (rows : list (list R)) (r : nd) : Prop :=
  shape r = [length rows; longest rows] /\
  forall i row j, nth_error rows i = Some row -> (j < longest rows)%nat ->
    el r [i; j] = match nth_error row j with Some v => v | None => 0 end.
