(** * Model of the text printed about a sound database (multimodal/db/models/sound.py).

    A function gives the text it prints and its result; what is printed before an
    exception stays printed. *)

From Coq Require Import List ZArith Bool String Ascii.
Import ListNotations.
From Verif Require Import Py logger_model serial_model sound_model motioninfo_model.
Open Scope py_scope.
Local Open Scope string_scope.

Section Text.
Context {Arr : Type}.

(** __str__ (sound.py:179-181) *)
Definition db_str (d : database Arr) : string :=
  string_of_nat (size d) ++ " records for " ++ string_of_nat (List.length (d_records d)) ++ " speakers and " ++
  string_of_nat (List.length (d_tags d)) ++ " keywords".

(** print of one text *)
Definition print_line (s : string) : string := s ++ newline.

(** statistics (sound.py:199-209); [display] is not used. *)
Definition print_statistics (d : database Arr) : string * result unit :=
  let out := print_line "=======================" ++ print_line "* Database statistics *" ++ print_line "=======================" ++
             print_line (db_str d) in
  match join_objects (d_records d) with
  | Err e => (out, Err e)
  | Ok s =>
      let out := out ++ print_line ("Records by speaker: " ++ s) in
      match foldM (fun counts r => foldM (fun counts t => v <- py_nth counts t ;; py_set counts t (v + 1)%nat) (r_tags r) counts)
                  (all_records d) (map (fun _ => 0%nat) (d_tags d)) with
      | Err e => (out, Err e)
      | Ok _ =>
          match join_objects (d_tags d) with
          | Err e => (out, Err e)
          | Ok s => (out ++ print_line ("Records by keywords: " ++ s), Ok tt)
          end
      end
  end.
End Text.
