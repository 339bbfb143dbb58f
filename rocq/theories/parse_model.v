(** * Scripts that write the descriptions of the sound corpora
      (multimodal/db/scripts/parse_acorns, multimodal/db/scripts/parse_vctk).

    The argument of the script is None or the directory to write to.  [abspath] is
    os.path.abspath.  The prints are not modelled; the change of sys.path has no effect
    here.  A directory that does not exist is not modelled: every file can be written. *)

From Coq Require Import List ZArith Bool String.
Import ListNotations.
From Verif Require Import Py utils_model logger_model serial_model sound_model acorns_model vctk_model.
Open Scope py_scope.
Local Open Scope string_scope.

Section Parse.
Variable Arr : Type.
Variable abspath : string -> string.
Notation files := (files Arr).
Notation database := (database Arr).

(** parse_acorns:21-23 *)
Definition acorns_root (db_dir : string) (year : Z) : string :=
  abspath (path_join (default_acorns_dir db_dir) ("ACORNS-English-Corpora-ev01/ACORNS-Y" ++ format_d year ++ "-ENG")).
(** parse_acorns:17-26, for the given years.  [xml] gives the parsed XML files of a
    speaker found under a root; the database of a year gets the identity [id year]. *)
Fixpoint parse_years (py3 : bool) (xml : string -> string -> list (result utterance)) (db_dir out_path : string) (id : Z -> nat)
    (years : list Z) (fs : files) : files * result unit :=
  match years with
  | [] => (fs, Ok tt)
  | year :: rest =>
      let out_file := path_join out_path (default_acorns_file year) in
      let root := acorns_root db_dir year in
      match from_ACORNS_root py3 (xml root) root year (DataBase (id year)) with
      | (_, Err e) => (fs, Err e)
      | (db, Ok _) =>
          match write_json db fs out_file with
          | (fs, Err e) => (fs, Err e)
          | (fs, Ok _) => parse_years py3 xml db_dir out_path id rest fs
          end
      end
  end.
(** parse_acorns *)
Definition run_parse_acorns (py3 : bool) (xml : string -> string -> list (result utterance)) (db_dir : string) (id : Z -> nat)
    (arg : option string) (fs : files) : files * result unit :=
  let out_path := match arg with Some p => p | None => default_acorns_dir db_dir end in
  parse_years py3 xml db_dir out_path id [1; 2]%Z fs.

(** db/vctk.py:25-27 *)
Definition default_vctk_dir (db_dir : string) : string := path_join db_dir "VCTK-Corpus".
(** parse_vctk; speakers='sound' is the default (db/models/vctk.py:57). *)
Definition run_parse_vctk (k : disk) (db_dir : string) (id : nat) (arg : option string) (fs : files) : files * result unit :=
  let out_path := match arg with Some p => p | None => default_vctk_dir db_dir end in
  let out_file := path_join out_path "VCTK.json" in
  match from_db_root k (abspath (default_vctk_dir db_dir)) "sound" (DataBase id) with
  | (_, Err e) => (fs, Err e)
  | (db, Ok _) => write_json db fs out_file
  end.
End Parse.
Arguments parse_years {Arr}. Arguments run_parse_acorns {Arr}. Arguments run_parse_vctk {Arr}.
