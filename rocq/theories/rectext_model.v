(** * Model of the text of a record (multimodal/db/models/sound.py:37-46). *)

From Coq Require Import List ZArith Bool String.
Import ListNotations.
From Verif Require Import Py logger_model serial_model sound_model.
Open Scope py_scope.
Local Open Scope string_scope.

Section Text.
Context {Arr : Type}.
(** What format writes for a value, and for a list of strings. *)
Variable show : val Arr -> string.
Variable show_list : list string -> string.

(** __str__ and __repr__ (sound.py:37-46) *)
Definition record_str (d : database Arr) (r : record Arr) : result string :=
  names <- mapM (py_nth (d_tags d)) (r_tags r) ;;
  name <- py_nth (d_spkrs d) (r_spkr_id r) ;;
  Ok ("<""" ++ show (r_trans r) ++ """, " ++ show (r_audio r) ++ ", tags: " ++ show_list names ++ " (" ++ name ++ ")>").
End Text.
