(** * Specification of the text printed about a motion database. *)

From Coq Require Import List ZArith String Ascii.
Import ListNotations.
From Verif Require Import logger_model motion_model.
Local Open Scope string_scope.

(** The text made of some lines, each with its end. *)
Fixpoint lines (l : list string) : string :=
  match l with
  | [] => ""
  | a :: l' => a ++ String "010" (lines l')
  end.
(** A text without end of line. *)
Definition one_line (s : string) : Prop := ~ In "010"%char (list_ascii_of_string s).

(** The sizes of one sample, as they are written after the T. *)
Fixpoint sizes (dims : list nat) : string :=
  match dims with
  | [] => ""
  | n :: dims' => ", " ++ string_of_nat n ++ sizes dims'
  end.
(** The lines that describe samples with these sizes, and these markers. *)
Definition description (dims : list nat) (markers : list string) : list string :=
  ("Each data example is a (T" ++ sizes dims ++ ") array.") ::
  "The second dimension corresponds to markers:" ::
  map (fun m => String "009" ("- " ++ m)) markers.
(** The line that counts the records. *)
Definition count_line (n : nat) (name : string) : string :=
  "Loaded " ++ string_of_nat n ++ " examples for ``" ++ name ++ "`` set.".
