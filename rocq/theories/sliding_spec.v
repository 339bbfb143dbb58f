(** * Specification for the test records and the confusion matrix of the script. *)

From Coq Require Import List Arith Bool.
Import ListNotations.
From Verif Require Import experiment_model.

(** Among the samples before number [t], how many have the same label. *)
Definition earlier (labels : list nat) (t : nat) : nat :=
  length (filter (fun s => nth s labels 0 =? nth t labels 0) (seq 0 t)).

(** The sample tested under number [i] is the tuple number [t] of the pairing, of label [lab]. *)
Definition tested (p : prepared) (i t lab : nat) : Prop :=
  nth_error (p_others p) i = Some t /\ nth_error (p_labels_all p) t = Some lab.

(** How many times [a] of the first list is beside [b] of the second one. *)
Definition together (a b : nat) (l l' : list nat) : nat :=
  length (filter (fun p => (fst p =? a) && (snd p =? b)) (combine l l')).
Definition entry (m : list (list nat)) (a b : nat) : nat := nth b (nth a m []) 0.
