(** * Specification of importing the names of a module. *)

From Coq Require Import List String.
Import ListNotations.
Local Open Scope string_scope.

Definition starts (p s : string) : Prop := exists t, s = p ++ t.
(** The names that are imported: those that do not start with [ignore], all of them if it is
    empty. *)
Definition taken_name (ignore n : string) : Prop := ignore = "" \/ ~ starts ignore n.
(** [ys] are the elements of [xs] for which [P] holds, in order. *)
Inductive those {X} (P : X -> Prop) : list X -> list X -> Prop :=
| those_nil : those P [] []
| those_in x xs ys : P x -> those P xs ys -> those P (x :: xs) (x :: ys)
| those_out x xs ys : ~ P x -> those P xs ys -> those P (x :: xs) ys.
