(** * Model of the text printed about a motion database
    (multimodal/db/models/kinect_motion.py).

    A function gives the text it prints and its result; what is printed before an
    exception stays printed. *)

From Coq Require Import List ZArith Bool String Ascii.
Import ListNotations.
From Verif Require Import Py logger_model serial_model sound_model figures_model motion_model.
Local Open Scope string_scope.

Definition newline : string := String (ascii_of_nat 10) "".
Definition tab : string := String (ascii_of_nat 9) "".

Section Info.
Context {Arr : Type}.
Variable shape : Arr -> list nat.

(** print_info (kinect_motion.py:222-227): get_data_dimension is called before anything is
    printed. *)
Definition print_info (d : motion_db Arr) : string * result unit :=
  match get_data_dimension shape d with
  | Err e => ("", Err e)
  | Ok dims =>
      ("Each data example is a (" ++ join_with ", " ("T" :: map string_of_nat dims) ++ ") array." ++ newline ++
       "The second dimension corresponds to markers:" ++ newline ++
       (tab ++ "- " ++ join_with (newline ++ tab ++ "- ") (m_markers d)) ++ newline, Ok tt)
  end.

(** load_from_npz (kinect_motion.py:229-261): lines 246-256 are those of [load_from_npz] of
    motion_model without verbose; then lines 257-261. *)
Definition load_printing (k : disk Arr) (location : string) (verbose : bool) : string * result (motion_db Arr) :=
  match load_from_npz shape k location false with
  | Err e => ("", Err e)
  | Ok db =>
      if verbose then
        let (text, r) := print_info db in
        ("Loaded " ++ string_of_nat (List.length (m_records db)) ++ " examples for ``" ++ m_name db ++ "`` set." ++ newline ++ text,
         match r with Ok _ => Ok db | Err e => Err e end)
      else ("", Ok db)
  end.
End Info.
