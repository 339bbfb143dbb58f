(** * Specification of the association of frames to a window of labels. *)

From Coq Require Import List ZArith Bool.
Import ListNotations.

(** Labels [x] and [y] name the same group among [n]: the same label, or one of
    them negative and counted from the end as Python does. *)
Definition same_group (n : nat) (x y : Z) : Prop :=
  x = y \/ x = (y - Z.of_nat n)%Z \/ y = (x - Z.of_nat n)%Z.

(** Label [x] names group [k] among [n]. *)
Definition in_group (n k : nat) (x : Z) : bool :=
  ((x =? Z.of_nat k) || (x =? Z.of_nat k - Z.of_nat n))%Z.

(** How many labels name group [k]. *)
Definition group_size (n k : nat) (labels : list Z) : nat :=
  length (filter (in_group n k) labels).

(** Every group offers at least as many elements as are asked for, and every
    label asked for names a group. *)
Definition enough (n : nat) (offered asked : list Z) : Prop :=
  (forall x, In x asked -> (- Z.of_nat n <= x < Z.of_nat n)%Z) /\
  (forall k, (k < n)%nat -> (group_size n k asked <= group_size n k offered)%nat).
