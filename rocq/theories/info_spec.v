(** * Specification of the information of coefficients about labels. *)

From Coq Require Import List Arith Reals QArith.
Import ListNotations.
From Verif Require Import munkres_spec words_spec.
Local Open Scope R_scope.

(** The values go from [lo] to [hi]; the interval of ten bins. *)
Definition extremes (values : list R) (lo hi : R) : Prop :=
  In lo values /\ In hi values /\ forall v, In v values -> lo <= v <= hi.
Definition interval (lo hi a b : R) : Prop := (lo < hi /\ a = lo /\ b = hi) \/ (lo = hi /\ a = lo - / 2 /\ b = hi + / 2).
(** Bin [k] of the interval: its beginning belongs to it, its end to the next one, if any. *)
Definition edge (a b : R) (k : nat) : R := a + (b - a) * (INR k / 10).
Definition in_bin (a b : R) (k : nat) (v : R) : Prop := edge a b k <= v /\ (v < edge a b (k + 1) \/ (k = 9%nat /\ v = b)).

(** Samples: their label and the value of the coefficient. *)
Definition of_label (l : nat) (s : nat * R) : Prop := fst s = l.
Definition other_label (l : nat) (s : nat * R) : Prop := fst s <> l.
Definition value_in (a b : R) (k : nat) (s : nat * R) : Prop := in_bin a b k (snd s).

(** The sum of the chosen elements, one in each row. *)
Definition gain (m : list (list Q)) (s : list nat) : Q := cost (entry m) s.
