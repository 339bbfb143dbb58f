(** * Model of the ACORNS databases (multimodal/db/acorns.py, db/models/acorns.py).

    [py3] tells the version of Python: `raise(ValueError, "...")` raises ValueError
    in Python 2 and TypeError in Python 3.  Directories of CONFIG are arguments.
    Feature files are given by a function from paths to what
    loadmat(path)['hac'] gives; rows are opaque.  XML files are given by what is
    read from them.  Downloads are in download_model.v, codebooks in hacfeat_model.v. *)

From Coq Require Import List ZArith Bool QArith String Ascii.
Import ListNotations.
From Verif Require Import Py logger_model serial_model sound_model.
Local Open Scope nat_scope.
Open Scope py_scope.

(** raise(ValueError, "...") *)
Definition raise_tuple {A} (py3 : bool) : result A := Err (if py3 then TypeError else ValueError).

(** db/models/acorns.py:7-9 *)
Definition check_year (py3 : bool) (year : Z) : result unit :=
  if existsb (Z.eqb year) [1; 2]%Z then Ok tt else raise_tuple py3.
(** db/models/acorns.py:74-76 *)
Definition n_speakers (year : Z) : Z := if (year =? 1)%Z then 4 else 10.
(** Formats %d and {:d}, and %.2d and {:02d} of numbers that are not negative. *)
Definition format_d (z : Z) : string := string_of_Z z.
Definition format_02d (z : Z) : string :=
  if (0 <=? z)%Z && (z <? 10)%Z then ("0" ++ string_of_Z z)%string else string_of_Z z.
(** db/models/acorns.py:78-81 *)
Definition get_speakers (year : Z) : list string :=
  map (fun i => ("Speaker-" ++ format_02d (Z.of_nat i))%string) (seq 1 (Z.to_nat (n_speakers year))).
(** db/acorns.py:35-39 *)
Definition check_speaker (py3 : bool) (year speaker : Z) : result unit :=
  if (speaker <? 0)%Z || (n_speakers year <? speaker)%Z then raise_tuple py3 else Ok tt.

(** db/acorns.py:19-20 *)
Definition BLACKLIST_Y1 : list (list Z) := [[]; [176%Z]; []; []].
Definition BLACKLIST_Y2 : list (list Z) := repeat [] 10.
Definition blacklist_of (year : Z) : list (list Z) := if (year =? 1)%Z then BLACKLIST_Y1 else BLACKLIST_Y2.

(** l.pop(i), the list that remains. *)
Definition pop {A} (l : list A) (i : Z) : result (list A) :=
  k <- norm_index (List.length l) i ;; Ok (firstn k l ++ skipn (S k) l).
(** for r in bl: l.pop(r) *)
Definition pop_all {A} (bl : list Z) (l : list A) : result (list A) := foldM pop bl l.
(** The loop of db/acorns.py:51-54; zip stops at the shorter list and the other
    records are not changed. *)
Fixpoint pop_records {A} (recs : list (list A)) (bls : list (list Z)) : result (list (list A)) :=
  match recs, bls with
  | rs :: recs', bl :: bls' => rs' <- pop_all bl rs ;; rest <- pop_records recs' bls' ;; Ok (rs' :: rest)
  | _, _ => Ok recs
  end.

Section Acorns.
Variable Arr : Type.
Variable Row : Type.
Notation val := (val Arr).
Notation files := (files Arr).
Notation database := (database Arr).
Notation record := (record Arr).

Definition default_acorns_dir (db_dir : string) : string := path_join db_dir "ACORNS".
Definition default_acorns_file (year : Z) : string := ("Acorns_Y" ++ format_d year ++ ".json")%string.
(** db/acorns.py:42-55; the new database gets the identity [id]. *)
Definition load (py3 : bool) (fs : files) (db_dir : string) (id : nat) (year : Z) (db_file : option string)
    (blacklist : bool) : result database :=
  check_year py3 year ;;;
  let db_file := match db_file with Some f => f | None => path_join (default_acorns_dir db_dir) (default_acorns_file year) end in
  match load_from fs db_file true (DataBase id) with
  | (_, Err e) => Err e
  | (db, Ok _) =>
      if blacklist then rs <- pop_records (d_records db) (blacklist_of year) ;; Ok (with_records db rs)
      else Ok db
  end.

(** db/acorns.py:103-104 *)
Definition feature_file_name (year speaker : Z) : string :=
  ("acorns_HAC_Y" ++ format_d year ++ "_S" ++ format_02d (1 + speaker) ++ "_python.mat")%string.

(** db/acorns.py:107-121.  Simplification: the selection of an empty list of rows is
    a matrix without rows. *)
Definition load_features (py3 : bool) (mats : string -> result (list Row)) (feat_dir : string) (year speaker : Z)
    (blacklist : bool) : result (list Row) :=
  check_year py3 year ;;;
  check_speaker py3 year speaker ;;;
  X <- mats (path_join feat_dir (feature_file_name year speaker)) ;;
  if blacklist then
    bl <- py_nth (blacklist_of year) speaker ;;
    all_records <- pop_all bl (seq 0 (List.length X)) ;;
    mapM (fun i => py_nth X (Z.of_nat i)) all_records
  else Ok X.

(** db/acorns.py:95-100 *)
Definition load_features_and_labels (py3 : bool) (fs : files) (db_dir : string) (mats : string -> result (list Row))
    (feat_dir : string) (id : nat) (year speaker : Z) (blacklist : bool) (db_file : option string)
    : result (list Row * list (list Z) * list string) :=
  db <- load py3 fs db_dir id year db_file blacklist ;;
  rs <- py_nth (d_records db) speaker ;;
  let labels := map r_tags rs in
  Xsound <- load_features py3 mats feat_dir year speaker blacklist ;;
  py_assert (Nat.eqb (List.length Xsound) (List.length labels)) ;;;
  Ok (Xsound, labels, d_tags db).

(** Year1Loader (db/acorns.py:58-91): speaker, the cached database and the number of
    samples (db/models/loader.py:3-10). *)
Record year1 := mkYear1 { y_speaker : Z; y_db : option database; y_n_samples : option nat }.
Definition Year1 (speaker : Z) : year1 := mkYear1 speaker None None.
(** db/models/loader.py:6-10 *)
Definition check_samples (l : year1) (n : nat) : year1 * result unit :=
  match y_n_samples l with
  | None => (mkYear1 (y_speaker l) (y_db l) (Some n), Ok tt)
  | Some m => (l, py_assert (Nat.eqb m n))
  end.
(** What the loader reads: files, directories, version of Python. *)
Record place := mkPlace {
  p_py3 : bool; p_files : files; p_db_dir : string; p_mats : string -> result (list Row); p_feat_dir : string }.
(** db/acorns.py:67-71 *)
Definition get_db (p : place) (id : nat) (l : year1) : year1 * result database :=
  match y_db l with
  | Some db => (l, Ok db)
  | None =>
      match load (p_py3 p) (p_files p) (p_db_dir p) id 1 None true with
      | Ok db => (mkYear1 (y_speaker l) (Some db) (y_n_samples l), Ok db)
      | Err e => (l, Err e)
      end
  end.
(** db/acorns.py:77-80 *)
Definition get_data (p : place) (l : year1) : year1 * result (list Row) :=
  match load_features (p_py3 p) (p_mats p) (p_feat_dir p) 1 (y_speaker l) true with
  | Err e => (l, Err e)
  | Ok X =>
      match check_samples l (List.length X) with
      | (l', Ok _) => (l', Ok X)
      | (l', Err e) => (l', Err e)
      end
  end.
(** db/acorns.py:82-84, with the property records (73-75). *)
Definition get_labels (p : place) (id : nat) (l : year1) : year1 * result (list string) :=
  match get_db p id l with
  | (l, Err e) => (l, Err e)
  | (l, Ok db) =>
      match py_nth (d_records db) (y_speaker l) with
      | Err e => (l, Err e)
      | Ok rs =>
          match check_samples l (List.length rs) with
          | (l', Err e) => (l', Err e)
          | (l', Ok _) => (l', mapM (fun r => t <- py_nth (r_tags r) 0 ;; py_nth (d_tags db) t) rs)
          end
      end
  end.

(** ** The original files *)
(** What is read of an XML file (db/models/acorns.py:55-71): style, name of the audio
    file, words of the tags, transcription. *)
Record utterance := mkUtt { u_style : string; u_audio : string; u_tags : list string; u_trans : string }.
(** db/models/acorns.py:55-72.  [u] is the result of the parsing, which fails before
    any tag is added or after all of them (line 69): the second case is not
    distinguished. *)
Definition parse_record (speaker_id : nat) (u : result utterance) : action Arr record :=
  bindA (lift u) (fun u =>
  bindA (mapA (fun t d => get_tag_add d t) (u_tags u)) (fun ids d =>
  (d, Ok (mkRecord (d_id d) (Z.of_nat speaker_id) (VStr (u_audio u ++ ".wav")) (map Z.of_nat ids)
            (VStr (u_trans u)) (VStr (u_style u)))))).
(** db/models/acorns.py:46-52; [xml] gives the XML files of a speaker. *)
Definition add_speaker_files (xml : string -> list (result utterance)) (s : string) : action Arr unit :=
  bindA (fun d => add_speaker d s VNone) (fun spk_id =>
  iterA (fun u => bindA (parse_record spk_id u) (fun r d => add_record d r)) (xml s)).
(** db/models/acorns.py:38-53; [root] is the absolute path. *)
Definition from_ACORNS_root (py3 : bool) (xml : string -> list (result utterance)) (root : string) (year : Z) : action Arr unit :=
  bindA (lift (check_year py3 year)) (fun _ =>
  bindA (fun d => (with_root d (VStr root), Ok tt)) (fun _ =>
  bindA (iterA (add_speaker_files xml) (get_speakers year)) (fun _ => sort))).
End Acorns.

Arguments load {Arr}. Arguments load_features {Row}. Arguments load_features_and_labels {Arr Row}.
Arguments mkYear1 {Arr}. Arguments y_speaker {Arr}. Arguments y_db {Arr}. Arguments y_n_samples {Arr}.
Arguments Year1 {Arr}. Arguments check_samples {Arr}. Arguments mkPlace {Arr Row}. Arguments p_py3 {Arr Row}.
Arguments p_files {Arr Row}. Arguments p_db_dir {Arr Row}. Arguments p_mats {Arr Row}. Arguments p_feat_dir {Arr Row}.
Arguments get_db {Arr Row}. Arguments get_data {Arr Row}. Arguments get_labels {Arr Row}.
Arguments parse_record {Arr}. Arguments add_speaker_files {Arr}. Arguments from_ACORNS_root {Arr}.
