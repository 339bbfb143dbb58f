(** * What is expected of charts. *)

From Coq Require Import List Reals String Permutation.
Import ListNotations.
From Verif Require Import chart_model.
Local Open Scope string_scope.

(** The four sides of a frame, and the axis to which each belongs. *)
Definition is_side (s : string) : Prop := s = "top" \/ s = "bottom" \/ s = "left" \/ s = "right".
Definition belongs (s : string) (x : axis) : Prop :=
  match x with X => s = "top" \/ s = "bottom" | Y => s = "left" \/ s = "right" end.
(** A set is gone through in some order. *)
Definition some_order (ord : list string -> list string) : Prop := forall l, Permutation (ord l) l.

(** Ticks of an axis after sides [spines] were removed from axes [a]: none on an axis that
    is not logarithmic, else on a side that is left if there is one. *)
Definition ticks_after (a b : axes) (spines : list string) (x : axis) : Prop :=
  (is_log a x = false -> tick_side b x = "none") /\
  (is_log a x = true ->
    (forall s, belongs s x -> ~ In s spines -> belongs (tick_side b x) x /\ ~ In (tick_side b x) spines) /\
    ((forall s, belongs s x -> In s spines) -> tick_side b x = tick_side a x)).

(** Everything else is as it was. *)
Definition rest_kept (a b : axes) : Prop :=
  is_log b = is_log a /\ locations b = locations a /\ labels b = labels a /\ limits b = limits a /\ mesh b = mesh a.

(** The places are the middles of n cells of size 1. *)
Definition at_middles (l : list R) (n : nat) : Prop :=
  List.length l = n /\ forall k, (k < n)%nat -> nth k l 0%R = (INR k + / 2)%R.
