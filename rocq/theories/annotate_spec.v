(** * Specification of the annotations of a plot. *)

From Coq Require Import List QArith String.
Import ListNotations.
Local Open Scope Q_scope.

(** [t] is the text of the annotation [a] = (text, (start, end)), in the middle of its span, at
    the height [y]. *)
Definition centred (y : Q) (a t : string * (Q * Q)) : Prop :=
  fst t = fst a /\ fst (snd t) - fst (snd a) == snd (snd a) - fst (snd t) /\ snd (snd t) == y.
