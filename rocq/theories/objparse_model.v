(** * The script that parses the objects dataset (multimodal/db/scripts/parse_objects) and
      the functions that load it (multimodal/db/objects.py:39-49, 100-110).

    [abspath] is os.path.abspath; [other] says which paths exist that are neither a JSON
    nor a mat file of the disk.  The prints are not modelled.  A directory that does not
    exist is not modelled: every file can be written. *)

From Coq Require Import List ZArith Bool String Reals QArith.
Import ListNotations.
From Verif Require Import Py utils_model logger_model serial_model sound_model nd_model motion_model objects_model choreo2_model download_model.
Open Scope py_scope.
Local Open Scope string_scope.

(** parse_objects:9-33 *)
Definition OBJ_NAMES : list (option string) :=
  fold_left (fun l kv => list_set l (fst kv) (Some (snd kv)))
    [(0, "hand"); (1, "blue octopus"); (2, "red pooh"); (3, "pink octopus"); (4, "yellow car"); (5, "blue and yellow whale");
     (6, "blue-eyes-green-yellow"); (7, "orange fish"); (8, "brown and white squirrel"); (9, "mouse?"); (10, "dark green and white cube");
     (11, "blue on red wagon"); (13, "white bottle"); (14, "ketchup bottle"); (16, "donkey"); (20, "pink moose"); (21, "orangina can");
     (25, "multicolor ball"); (26, "giraffe"); (27, "green car"); (28, "red hammer"); (29, "blue rake"); (30, "green spade"); (32, "light green box")]%nat
    (repeat None 33).
(** db/objects.py:24-35 *)
Definition DEFAULT_LABELS : list string :=
  ["blue octopus"; "red pooh"; "pink octopus"; "yellow car"; "blue and yellow whale"; "blue-eyes-green-yellow"; "orange fish";
   "brown and white squirrel"; "mouse?"; "dark green and white cube"].

Section Script.
Variable int_of : string -> result Z.
Variable time_of : string -> result Q.
Variable float_of : string -> result R.
Variable abspath : string -> string.
Variable other : string -> bool.

(** os.path.exists *)
Definition path_exists (k : odisk) (p : string) : bool :=
  match dict_get String.eqb (d_json k) p, dict_get String.eqb (d_mat k) p with None, None => other p | _, _ => true end.
(** parse_objects:7-8, 36-43.  [files] are the text files. *)
Definition run_parse_objects (home : string) (files : string -> option (list string)) (k : odisk) : odisk * result unit :=
  let db_file := objects_db_file home false in
  let source_file := path_join (dirname db_file) "stat_one_obj_no_hand" in
  if path_exists k db_file then (k, Ok tt)
  else
    match build_from int_of time_of float_of files source_file (Some OBJ_NAMES) with
    | Err e => (k, Err e)
    | Ok d => objects_model.save d k (abspath (dirname db_file)) (basename db_file)
    end.
End Script.

(** db/objects.py:46-49 *)
Definition load_objects (home : string) (k : odisk) (db_file : option string) : result object_db :=
  objects_model.load k (match db_file with Some p => p | None => objects_db_file home true end).
(** db/objects.py:107-110, with a database.  For a list of features whose matrices all are
    None the code gives an array of None; here it is an error. *)
Definition load_features (features : list string) (d : object_db) : result nd :=
  bs <- mapM (get_histos_matrix_by_frame d) features ;; hstack_values bs.
(** db/objects.py:100-104 *)
Definition load_features_and_labels (home : string) (k : odisk) (features : list string) (db_file : option string) :
    result (nd * list Z * option (list (option string))) :=
  d <- load_objects home k db_file ;;
  feats <- load_features features d ;;
  Ok (feats, map f_label (o_frames d), o_names d).
