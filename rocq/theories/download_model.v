(** * Model of the downloads of datasets (multimodal/lib/net.py, the download functions of
    multimodal/db/choreo2.py, acorns.py and objects.py, and the script
    multimodal/db/scripts/download_dbs).

    The disk has files, whose contents are opaque, and directories, both identified by the
    text of their path.  [fetch] is what the server answers for an address: what is left
    in the file, if anything, and whether urlretrieve succeeds (an interrupted transfer leaves a
    part of the file and raises).  Addresses give the same answer each time. *)

From Coq Require Import List ZArith Bool String Ascii.
Import ListNotations.
From Verif Require Import Py logger_model sound_model motion_model choreo2_model.
From Verif Require acorns_model.
Open Scope py_scope.
Local Open Scope string_scope.

(** os.path.basename: the text after the last slash. *)
Fixpoint basename (s : string) : string :=
  match s with
  | EmptyString => EmptyString
  | String c s' => if existsb (Ascii.eqb "/"%char) (list_ascii_of_string s) then basename s' else s
  end.
(** os.path.splitext(name)[0] for a name without directory: the text before the last dot,
    or the name if nothing but dots is before the last dot. *)
Fixpoint before_last_dot (s : string) : option string :=
  match s with
  | EmptyString => None
  | String c s' =>
      match before_last_dot s' with
      | Some t => Some (String c t)
      | None => if Ascii.eqb c "."%char then Some EmptyString else None
      end
  end.
Definition splitext_root (name : string) : string :=
  match before_last_dot name with
  | Some r => if forallb (Ascii.eqb "."%char) (list_ascii_of_string r) then name else r
  | None => name
  end.

Section Download.
Variable F : Type.
Record store := mkStore { files : list (string * F); dirs : list string }.
Variable fetch : string -> option F * result unit.

Definition is_dir (k : store) (p : string) : bool := existsb (String.eqb p) (dirs k).
Definition is_file (k : store) (p : string) : bool := match dict_get String.eqb (files k) p with Some _ => true | None => false end.

(** net.py:8-18 *)
Definition check_destination_path (k : store) (path name : string) (overwrite : bool) : result string :=
  let file_path := path_join path name in
  if negb (is_dir k path) then Err IOError
  else if (is_file k file_path || is_dir k file_path) && negb overwrite then Err IOError
  else Ok file_path.
(** urllib.urlretrieve *)
Definition urlretrieve (k : store) (url p : string) : store * result unit :=
  if is_dir k p then (k, Err IOError) else
  let '(c, r) := fetch url in
  (match c with Some c => mkStore (dict_set String.eqb (files k) p c) (dirs k) | None => k end, r).
(** One step: the destination is checked, then the file is fetched. *)
Definition get_file (overwrite : bool) (k : store) (url path name : string) : store * result unit :=
  match check_destination_path k path name overwrite with
  | Err e => (k, Err e)
  | Ok p => urlretrieve k url p
  end.
(** Steps one after the other, until the first error. *)
Fixpoint get_files (overwrite : bool) (k : store) (l : list (string * string * string)) : store * result unit :=
  match l with
  | [] => (k, Ok tt)
  | (url, path, name) :: l' =>
      match get_file overwrite k url path name with
      | (k, Ok _) => get_files overwrite k l'
      | (k, Err e) => (k, Err e)
      end
  end.

(** choreo2.py:23 *)
Definition CHOREO2_SRC : string := "http://olivier.mangin.com/data/choreo2/".
(** choreo2.py:96-105 *)
Definition get_dest (home : string) (dest : option string) (extension : bool) : string * string :=
  let '(dest, name) := match dest with
                       | None => (dirname (default_db_file home), basename (default_db_file home))
                       | Some d => (d, "choreo2.json")
                       end in
  (dest, if extension then name else splitext_root name).
(** choreo2.py:108-112 *)
Definition choreo2_download_meta (home : string) (k : store) (dest : option string) (overwrite : bool) : store * result unit :=
  let '(dest, name) := get_dest home dest true in
  get_files overwrite k [(CHOREO2_SRC ++ name, dest, name)].
(** choreo2.py:115-123 *)
Definition choreo2_download (home : string) (k : store) (dest : option string) (overwrite : bool) : store * result unit :=
  let '(dest, name) := get_dest home dest false in
  get_files overwrite k [(CHOREO2_SRC ++ name ++ ".json", dest, name ++ ".json"); (CHOREO2_SRC ++ name ++ ".npz", dest, name ++ ".npz")].
(** choreo2.py:126-135 *)
Definition choreo2_download_with_features (home : string) (k : store) (meta_dest features_dest : option string) (overwrite : bool) : store * result unit :=
  match choreo2_download home k meta_dest overwrite with
  | (k, Err e) => (k, Err e)
  | (k, Ok _) =>
      let dest := or_default features_dest (feat_dir home) in
      get_files overwrite k [(CHOREO2_SRC ++ "choreo2_angle_hist.npz", dest, "choreo2_angle_hist.npz")]
  end.

(** acorns.py:22-23 *)
Definition ACORNS_SRC : string := "http://olivier.mangin.com/data/acorns-caregiver/".
Definition ALL_SPEAKERS : list (list Z) := [map Z.of_nat (seq 0 4); map Z.of_nat (seq 0 10)].
(** acorns.py:133-148 *)
Definition acorns_download_meta_and_features (home : string) (k : store) (year : Z) (meta_dest features_dest : option string) (overwrite : bool) : store * result unit :=
  let meta_dest := or_default meta_dest (acorns_model.default_acorns_dir (db_dir home)) in
  let meta_name := acorns_model.default_acorns_file year in
  match get_files overwrite k [(ACORNS_SRC ++ meta_name, meta_dest, meta_name)] with
  | (k, Err e) => (k, Err e)
  | (k, Ok _) =>
      let features_dest := or_default features_dest (feat_dir home) in
      match py_nth ALL_SPEAKERS (year - 1) with
      | Err e => (k, Err e)
      | Ok speakers =>
          get_files overwrite k (map (fun speaker => let name := acorns_model.feature_file_name year speaker in
                                                     (ACORNS_SRC ++ name, features_dest, name)) speakers)
      end
  end.

(** objects.py:36, 39-43 *)
Definition OBJECTS_SRC : string := "http://olivier.mangin.com/data/objects/".
Definition objects_db_file (home : string) (extension : bool) : string :=
  path_join (path_join (db_dir home) "objects") ("single_object_label" ++ if extension then ".json" else "").
(** objects.py:113-124 *)
Definition objects_download_meta_and_features (home : string) (k : store) (dest : option string) (overwrite : bool) : store * result unit :=
  let file_ := objects_db_file home false in
  let name := basename file_ in
  let dest := or_default dest (dirname file_) in
  get_files overwrite k [(OBJECTS_SRC ++ name ++ ".json", dest, name ++ ".json"); (OBJECTS_SRC ++ name ++ ".mat", dest, name ++ ".mat")].

(** db/scripts/download_dbs:13-15; the last call lacks the required argument dest. *)
Definition download_dbs (home : string) (k : store) : store * result unit :=
  match choreo2_download_with_features home k None None true with
  | (k, Err e) => (k, Err e)
  | (k, Ok _) =>
      match acorns_download_meta_and_features home k 1 None None true with
      | (k, Err e) => (k, Err e)
      | (k, Ok _) => (k, Err TypeError)
      end
  end.
End Download.
Arguments mkStore {F}. Arguments files {F}. Arguments dirs {F}. Arguments is_dir {F}. Arguments is_file {F}.
Arguments check_destination_path {F}. Arguments urlretrieve {F}. Arguments get_file {F}. Arguments get_files {F}.
Arguments choreo2_download_meta {F}. Arguments choreo2_download {F}. Arguments choreo2_download_with_features {F}.
Arguments acorns_download_meta_and_features {F}. Arguments objects_download_meta_and_features {F}. Arguments download_dbs {F}.
