(** * Specification of the statistics of words and labels. *)

From Coq Require Import List Arith Bool String Ascii.
Import ListNotations.
From Verif Require Import objects_spec.
Local Open Scope nat_scope.
Local Open Scope string_scope.

(** [t] is [s] in small letters. *)
Definition small (c d : ascii) : Prop :=
  (65 <= nat_of_ascii c <= 90 /\ nat_of_ascii d = nat_of_ascii c + 32) \/ (~ 65 <= nat_of_ascii c <= 90 /\ d = c).
Definition lowered (s t : string) : Prop := Forall2 small (list_ascii_of_string s) (list_ascii_of_string t).

(** [t] is [s] without the punctuation at both ends. *)
Definition punct (c : ascii) : Prop := In c ["."; "?"; "!"]%char.
Definition trimmed (s t : string) : Prop :=
  exists a b, s = a ++ t ++ b /\ chars punct a /\ chars punct b /\
    (forall c r, t = String c r -> ~ punct c) /\ (forall c r, t = r ++ String c "" -> ~ punct c).

(** The sentence contains the word. *)
Definition says (sentence w : string) : Prop :=
  exists t u ws, trimmed sentence t /\ lowered t u /\ words u ws /\ In w ws.

(** [n] elements of the list have the property. *)
Inductive counts {A} (P : A -> Prop) : list A -> nat -> Prop :=
| counts_nil : counts P [] 0
| counts_yes a l n : P a -> counts P l n -> counts P (a :: l) (S n)
| counts_no a l n : ~ P a -> counts P l n -> counts P (a :: l) n.

(** A record: its sentence and its label.  The word [w] and the label [l] are there, or not. *)
Definition both (w l : string) (r : string * string) : Prop := says (fst r) w /\ lowered (snd r) l.
Definition word_only (w l : string) (r : string * string) : Prop := says (fst r) w /\ ~ lowered (snd r) l.
Definition label_only (w l : string) (r : string * string) : Prop := ~ says (fst r) w /\ lowered (snd r) l.
Definition neither (w l : string) (r : string * string) : Prop := ~ says (fst r) w /\ ~ lowered (snd r) l.

(** Words in the order of the dictionary. *)
Definition before (a b : string) : Prop := String.compare a b = Lt.
