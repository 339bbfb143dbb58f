(** * Specification of the text of a record. *)

From Coq Require Import List ZArith String Ascii.
Import ListNotations.
From Verif Require Import logger_model serial_model sound_model.
Local Open Scope string_scope.

(** Strings are written as they are. *)
Definition plain {Arr} (show : val Arr -> string) : Prop := forall s, show (VStr s) = s.
(** Lists with the same text are the same. *)
Definition faithful (show_list : list string -> string) : Prop := forall l l', show_list l = show_list l' -> l = l'.
(** The character [c] is not in [s]. *)
Definition lacks (c : ascii) (s : string) : Prop := ~ In c (list_ascii_of_string s).
(** [i] counts from the start of [l], or from its end. *)
Definition place {A} (l : list A) (i : Z) : Prop := (- Z.of_nat (List.length l) <= i < Z.of_nat (List.length l))%Z.
(** [x] is the element at this place. *)
Definition at_place {A} (l : list A) (i : Z) (x : A) : Prop :=
  ((0 <= i)%Z /\ nth_error l (Z.to_nat i) = Some x) \/
  ((i < 0)%Z /\ (- Z.of_nat (List.length l) <= i)%Z /\ nth_error l (Z.to_nat (Z.of_nat (List.length l) + i)) = Some x).
