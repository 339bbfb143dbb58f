(** * Specification of the XML element of a record. *)

From Coq Require Import List ZArith String.
Import ListNotations.
From Verif Require Import Py logger_model sound_model dom_model.
Local Open Scope string_scope.

Section Spec.
Context {Arr : Type}.

(** The children with a name, in order. *)
Definition named (name : string) (n : node Arr) : list (node Arr) :=
  match n with
  | Text _ => []
  | Element _ _ cs => filter (fun c => match c with Element k _ _ => String.eqb k name | Text _ => false end) cs
  end.
(** [n] has the attribute [k] with value [v], and no other. *)
Definition only_attribute (n : node Arr) (k : string) (v : val Arr) : Prop := exists name cs, n = Element name [(k, v)] cs.
(** [n] has nothing but a text. *)
Definition only_text (n : node Arr) (s : string) : Prop := exists name, n = Element name [] [Text s].

(** The element of a record with this style, file, transcription and tags. *)
Definition element_of (style : val Arr) (audio trans : string) (tags : list string) (n : node Arr) : Prop :=
  only_attribute n "style" style /\ (exists a cs, n = Element "record" a cs /\ List.length cs = 2 + List.length tags) /\
  (exists e, named "audio" n = [e] /\ only_text e audio) /\
  (exists e, named "trans" n = [e] /\ only_text e trans) /\
  Forall2 (fun t e => only_attribute e "name" (VStr t)) tags (named "tag" n).
End Spec.
