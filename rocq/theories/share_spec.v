(** * Specification of the share of a modality in a dictionary. *)

From Coq Require Import List Reals Arith String.
Import ListNotations.
From Verif Require Import nd_model nmf_spec learner_model learner_spec.
Local Open Scope R_scope.

(** The sum of the part of row [t] of the dictionary [d] that belongs to the modality number
    [q]. *)
Definition share (l : learner) (d : nd) (q t : nat) : R :=
  sum_to (nth q (dims l) 0%nat) (fun j => el d [t; (list_sum (firstn q (dims l)) + j)%nat]).
