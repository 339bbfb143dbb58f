(** * Model of the second choreography dataset (multimodal/db/choreo2.py), with the paths of
    multimodal/local.py and the counting of samples of multimodal/db/models/loader.py.

    Databases of motions and their files are those of motion_model.v, histograms those of
    angle_model.v.  An array is either the samples of a motion (time, marker, seven
    numbers) or the table of features; shape and reshape of motion_model.v are not used
    when a database is loaded without verbose.  A path that was given is the text of the
    path; the user directory [home] comes from the environment.  Downloads and
    printed text are not modelled here. *)

From Coq Require Import List ZArith Reals Bool String.
Import ListNotations.
From Verif Require Import Py logger_model sound_model motion_model hac_model quant_model transf_model angle_model.
From Verif Require utils_model objects_model.
Open Scope py_scope.
Local Open Scope nat_scope.
Local Open Scope string_scope.

Inductive array := Motion (x : list (list (list R))) | Features (x : list (list R)).
Definition shape_of (a : array) : list nat :=
  match a with
  | Motion x => [List.length x; List.length (hd [] x); List.length (hd [] (hd [] x))]
  | Features x => [List.length x; List.length (hd [] x)]
  end.
Notation disk := (disk array).
Notation db := (motion_db array).

(** ** Paths (local.py:10-17, choreo2.py:22-33)

    expanduser replaces "~" by the user directory without the slashes at its end. *)
Definition data_dir (home : string) : string := strip_slashes home ++ "/work/data/".
Definition db_dir (home : string) : string := path_join (data_dir home) "db".
Definition feat_dir (home : string) : string := path_join (data_dir home) "features".
Definition default_db_file (home : string) : string := path_join (path_join (db_dir home) "choreo2") "choreo2.json".
Definition get_default_feature_file (home : string) : string := path_join (feat_dir home) "choreo2_angle_hist.npz".

(** A path, or None for the default. *)
Definition or_default (p : option string) (d : string) : string := match p with Some p => p | None => d end.

(** os.path.exists *)
Definition has {V} (l : list (string * V)) (p : string) : bool := match dict_get String.eqb l p with Some _ => true | None => false end.
Definition exists_path (k : disk) (p : string) : bool :=
  has (k_json k) p || has (k_npz k) p || has (k_txt k) p || has (k_mat k) p || existsb (String.eqb p) (k_dirs k).

(** choreo2.py:38-41 *)
Definition load (home : string) (k : disk) (db_file : option string) (verbose : bool) : result db :=
  load_from_npz shape_of k (or_default db_file (default_db_file home)) verbose.
(** choreo2.py:71-74; a motion in place of the table of features is TypeError here. *)
Definition load_features (home : string) (k : disk) (feat_file : option string) : result (list (list R)) :=
  arch <- match dict_get String.eqb (k_npz k) (or_default feat_file (get_default_feature_file home)) with Some a => Ok a | None => Err IOError end ;;
  x <- match dict_get String.eqb arch "Xmotion" with Some a => Ok a | None => Err KeyError end ;;
  match x with Features x => Ok x | Motion _ => Err TypeError end.

(** The samples of the records; a table in their place is TypeError here. *)
Definition samples (d : db) : result (list (list (list (list R)))) :=
  mapM (fun r => match fst r with Motion x => Ok x | Features _ => Err TypeError end) (m_records d).
(** np.savez with one array (the name gets ".npz" unless it ends so). *)
Definition savez (k : disk) (file name : string) (a : array) : disk :=
  mkDisk (k_json k) (dict_set String.eqb (k_npz k) (npz_name file) [(name, a)]) (k_txt k) (k_mat k) (k_dirs k).

Section Build.
Variable whiten : mat R -> result (mat R).
Variable kmeans : mat R -> nat -> result (mat R).
Variable vq : mat R -> mat R -> result (list nat).
(** choreo2.py:77-93; [nb_bins] is 15 by default. *)
Definition build_features (v : python) (home : string) (k : disk) (db_file feat_file : option string) (force : bool) (nb_bins : nat) : disk * result unit :=
  let feat_file := or_default feat_file (get_default_feature_file home) in
  if exists_path k feat_file && negb force then (k, Err ValueError) else
  match (d <- load home k db_file false ;; rs <- samples d ;;
         db_to_VQ_hist_matrix whiten kmeans vq v (m_markers d) rs 10 utils_model.Zeros nb_bins None None None) with
  | Ok X => (savez k feat_file "Xmotion" (Features X), Ok tt)
  | Err e => (k, Err e)
  end.
End Build.

(** ** Choreo2Loader (choreo2.py:46-59): the state is n_samples. *)
Definition get_data (home : string) (k : disk) (s : option nat) : option nat * result (list (list R)) :=
  match load_features home k None with
  | Err e => (s, Err e)
  | Ok X => let '(s, r) := objects_model.check_n_samples s (List.length X) in (s, r ;;; Ok X)
  end.
(** motion_names[r[1][0]] *)
Definition motion_name (ds : descriptions) (r : array * list label) : result string :=
  l <- py_nth (snd r) 0 ;; describe ds l.
Definition get_labels (home : string) (k : disk) (s : option nat) : option nat * result (list string) :=
  match load home k None false with
  | Err e => (s, Err e)
  | Ok d =>
      let '(s, r) := objects_model.check_n_samples s (List.length (m_records d)) in
      (s, r ;;; mapM (motion_name (m_desc d)) (m_records d))
  end.

(** choreo2.py:63-68 *)
Definition load_features_and_labels (home : string) (k : disk) (db_file feat_file : option string) : result (list (list R) * list (list label) * descriptions) :=
  d <- load home k db_file false ;;
  X <- load_features home k feat_file ;;
  let labels := map snd (m_records d) in
  if Nat.eqb (List.length X) (List.length labels) then Ok (X, labels, m_desc d) else Err AssertionError.
