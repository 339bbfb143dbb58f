(** * What motion databases have to keep. *)

From Coq Require Import List ZArith Arith Bool String Ascii.
Import ListNotations.
From Verif Require Import Py logger_model sound_spec motion_model.
Local Open Scope nat_scope.

(** Labels that JSON can write, and their text as keys. *)
Inductive label_text : label -> string -> Prop :=
| lt_int z : label_text (LInt z) (string_of_Z z)
| lt_str s : label_text (LStr s) s.
Definition plain_label (l : label) : Prop := exists t, label_text l t.
(** Descriptions read again: keys are strings, in the same order. *)
Inductive desc_image : descriptions -> descriptions -> Prop :=
| di_none : desc_image DNone DNone
| di_list l : desc_image (DList l) (DList l)
| di_dict d d' : Forall2 (fun x y => exists t, label_text (fst x) t /\ y = (LStr t, snd x)) d d' -> NoDup (map fst d') ->
    desc_image (DDict d) (DDict d').

(** Destinations: the current directory, the root, or a path with at most one slash
    at its end. *)
Definition destination (s : string) : Prop :=
  s = ""%string \/ s = "/"%string \/ directory s \/ exists d, directory d /\ s = (d ++ "/")%string.
(** A file name without directory. *)
Definition base_name (s : string) : Prop := ~ In slash (list_ascii_of_string s).

Section Spec.
Context {Arr : Type}.
(** The file chosen by export. *)
Definition file_of (d : motion_db Arr) (filename : option string) : string :=
  match filename with Some f => f | None => m_name d end.
Definition plain_db (d : motion_db Arr) : Prop :=
  (forall a ls l, In (a, ls) (m_records d) -> In l ls -> plain_label l) /\ exists ds, desc_image (m_desc d) ds.
Definition occurs (d : motion_db Arr) (l : label) : Prop := exists a ls, In (a, ls) (m_records d) /\ In l ls.
(** The order in which a set is listed. *)
Definition lists_labels (ord : list label -> list label) : Prop := forall s x, In x (ord s) <-> In x s.

(** The array written as text for an array. *)
Definition text_array (shape : Arr -> list nat) (reshape : Arr -> list nat -> Arr) (force_flat : bool) (a b : Arr) : Prop :=
  (exists n m, shape a = [n; m] /\ b = a) \/
  (force_flat = true /\ exists n m p rest, shape a = n :: m :: p :: rest /\ b = reshape a [n; fold_right Nat.mul 1 (m :: p :: rest)]).
End Spec.
