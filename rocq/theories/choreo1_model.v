(** * Model of the first choreography dataset (multimodal/db/choreo1.py).

    The disk is that of motion_model.v, arrays are opaque.  Labels and the names of
    markers are given back as they are in the JSON file.  Simplifications: a data-id which
    is neither an integer nor a string, and a value of records or marker-names which is
    neither a list nor a string, are refused with TypeError. *)

From Coq Require Import List ZArith Bool String.
Import ListNotations.
From Verif Require Import Py logger_model serial_model sound_model motion_model angle_model choreo2_model.
Open Scope py_scope.
Local Open Scope string_scope.

(** choreo1.py:62 *)
Definition DATASETS : list string := ["primitive"; "mixed_partial"; "mixed_full"].

Section Choreo1.
Variable Arr : Type.
Notation val := (logger_model.val Arr).
Notation disk := (motion_model.disk Arr).

(** choreo1.py:95-97 *)
Definition load_record (arch : list (string * Arr)) (r : val) : result (Arr * val) :=
  i <- item r "data-id" ;; i <- str_of_val i ;;
  a <- match dict_get String.eqb arch i with Some a => Ok a | None => Err KeyError end ;;
  ls <- item r "labels" ;; Ok (a, ls).
(** choreo1.py:65-104.  Line 103 applies % to what print gives: in Python 3 None, which
    refuses it; in Python 2 the parentheses belong to the printed text. *)
Definition load (v : python) (home : string) (k : disk) (dataset : string) (data_path : option string) : result (list Arr * list val * val) :=
  let data_path := or_default data_path (path_join (db_dir home) "choreo") in
  if existsb (String.eqb dataset) DATASETS then
    let filename := path_join data_path (dataset ++ ".json") in
    meta <- match dict_get String.eqb (k_json k) filename with
            | None => Err IOError | Some None => Err BadFile | Some (Some m) => Ok m end ;;
    df <- item meta "data-file" ;; df <- as_string df ;;
    arch <- match dict_get String.eqb (k_npz k) (path_join (dirname filename) df) with None => Err IOError | Some a => Ok a end ;;
    rs <- item meta "records" ;; rs <- iter rs ;;
    rs <- mapM (load_record arch) rs ;;
    name <- item meta "name" ;;
    markers <- item meta "marker-names" ;;
    ms <- iter markers ;; mapM (@as_string Arr) ms ;;;
    match v with
    | Python2 => Ok (map fst rs, map snd rs, markers)
    | Python3 => Err TypeError
    end
  else Err ValueError.
End Choreo1.
Arguments load_record {Arr}. Arguments load {Arr}.
