(** * Codebooks and features of sounds (multimodal/features/hac.py:100-147 and 199-201,
      db/acorns.py:124-130, db/vctk.py:41-44, db/scripts/build_codebook,
      db/scripts/build_acorns_features).

    Sounds, their coefficients, kmeans2 and vq are arguments of the model; hac is in
    hac_model, iterative_kmeans in quant_model (here it is an argument as well, since
    the mode in use is 'raw').  The prints are not modelled, and of a file .mat only
    the items 'codebooks' and 'hac' are ('mfcc_params' is not).  Files .mat and JSON
    files are kept apart: the script writes the first and reads the second. *)

From Coq Require Import List ZArith Bool String.
Import ListNotations.
From Verif Require Import Py utils_model logger_model serial_model sound_model hac_model angle_model acorns_model vctk_model.
Open Scope py_scope.
Local Open Scope string_scope.

Section Features.
Variable F : Type.
Variable zero : F.
Variable Sound : Type.
(** wavfile.read *)
Variable wavs : string -> result Sound.
Variable mfcc : Sound -> result (mat F).
Variable delta : mat F -> nat -> result (mat F).
Variable kmeans2 iterative_kmeans : mat F -> Z -> result (mat F).
Variable vq : mat F -> mat F -> result (list Z).

(** ** Codebooks *)
(** hac.py:100-107 *)
Definition build_codebook (data : mat F) (k : Z) (mode : string) : result (mat F) :=
  if String.eqb mode "raw" then kmeans2 data k
  else if String.eqb mode "iterative" then iterative_kmeans data k
  else Err ValueError.

(** hac.py:110-147 *)
Definition build_codebooks_from_list_of_wav (names : list string) (ks : list Z) (mode : string) : result (list (mat F)) :=
  mfccs <- mapM (fun w => s <- wavs w ;; mfcc s) names ;;
  data <- vstack (map (transpose zero) mfccs) ;;
  k <- py_nth ks 0 ;;
  cdb_mfcc <- build_codebook data k mode ;;
  ds <- mapM (fun m => delta m 1) mfccs ;;
  data <- vstack (map (transpose zero) ds) ;;
  k <- py_nth ks 1 ;;
  cdb_dmfcc <- build_codebook data k mode ;;
  dds <- mapM (fun m => delta m 2) mfccs ;;
  data <- vstack (map (transpose zero) dds) ;;
  k <- py_nth ks 2 ;;
  cdb_ddmfcc <- build_codebook data k mode ;;
  Ok [cdb_mfcc; cdb_dmfcc; cdb_ddmfcc].

Variable Arr : Type.
Notation files := (files Arr).
Notation database := (database Arr).
Notation record := (record Arr).

(** db/vctk.py:41-44 *)
Definition build_vctk_codebook (fs : files) (db_dir : string) (id : nat) (ks : list Z) : result (list (mat F)) :=
  db <- vctk_model.load fs db_dir id None ;;
  names <- codebook_files db ;;
  build_codebooks_from_list_of_wav names ks "raw".
(** get_audio_path of AcornsDB (models/sound.py:51-52, models/acorns.py:32). *)
Definition acorns_audio (d : database) (r : record) : result string := sound_model.get_audio_path "WAV" d r.
(** db/acorns.py:124-130; the paths are asked for after the two databases are loaded,
    those of the records of a database to this database. *)
Definition build_acorns_codebook (py3 : bool) (fs : files) (db_dir : string) (id : Z -> nat) (ks : list Z) : result (list (mat F)) :=
  db1 <- acorns_model.load py3 fs db_dir (id 1%Z) 1 None false ;;
  db2 <- acorns_model.load py3 fs db_dir (id 2%Z) 2 None false ;;
  names1 <- mapM (acorns_audio db1) (List.concat (d_records db1)) ;;
  names2 <- mapM (acorns_audio db2) (List.concat (d_records db2)) ;;
  build_codebooks_from_list_of_wav (names1 ++ names2) ks "raw".

(** ** Files .mat *)
(** A list of arrays becomes, in a file .mat, a list of cells; but arrays that all have
    the same shape become one array of numbers, of three dimensions, since numpy makes
    one array of them first.  Read and flattened (build_acorns_features:41), the first
    gives the arrays again and the second a list of numbers. *)
Inductive codebooks := Cells (l : list (mat F)) | Numbers (l : list F).
Definition shape (m : mat F) : nat * nat := (List.length (mrows m), mcols m).
Definition same_shapes (l : list (mat F)) : bool :=
  forallb (fun m => forallb (fun m' => (Nat.eqb (fst (shape m)) (fst (shape m')) && Nat.eqb (snd (shape m)) (snd (shape m')))%bool) l) l.
Definition stored (c : codebooks) : codebooks :=
  match c with
  | Cells l => if same_shapes l then Numbers (List.concat (List.concat (map (@mrows F) l))) else Cells l
  | Numbers l => Numbers l
  end.
(** The rows of counts of the item 'hac'. *)
Record mat_file := MatFile { m_codebooks : codebooks; m_hac : option (list (list nat)) }.
(** loadmat(...)['hac'], for acorns_model.load_features. *)
Definition hac_of (store : list (string * mat_file)) (path : string) : result (list (list nat)) :=
  match dict_get String.eqb store path with
  | None => Err IOError
  | Some f => match m_hac f with Some x => Ok x | None => Err KeyError end
  end.
Definition CODEBOOK_PATH (feat_dir : string) : string := path_join feat_dir "vctk_codebook.mat".
Definition KS : list Z := [150; 150; 100]%Z.

(** db/scripts/build_codebook *)
Definition run_build_codebook (fs : files) (db_dir feat_dir : string) (id : nat) (store : list (string * mat_file))
  : list (string * mat_file) * result unit :=
  match build_vctk_codebook fs db_dir id KS with
  | Err e => (store, Err e)
  | Ok cs => (dict_set String.eqb store (CODEBOOK_PATH feat_dir) (MatFile (stored (Cells cs)) None), Ok tt)
  end.

(** ** Features *)
(** hac.py:199-201, with the lags 5 and 2.  Numbers cannot be compared with vectors: vq
    raises ValueError. *)
Definition wav2hac (path : string) (c : codebooks) : result (list nat) :=
  s <- wavs path ;;
  match c with
  | Cells l => hac F zero vq Sound mfcc delta s l [5; 2]%Z
  | Numbers _ => m <- mfcc s ;; delta m 1 ;;; delta m 2 ;;; Err ValueError
  end.
(** scipy.sparse.vstack of matrices with one row. *)
Definition sp_vstack (rows : list (list nat)) : result (list (list nat)) :=
  match rows with
  | [] => Err ValueError
  | r :: _ => if forallb (fun r' => Nat.eqb (List.length r') (List.length r)) rows then Ok rows else Err ValueError
  end.
(** build_acorns_features:47-56: the speakers of one year. *)
Fixpoint save_speakers (feat_dir : string) (year : Z) (c : codebooks) (d : database) (speaker : Z) (records : list (list record))
    (store : list (string * mat_file)) : list (string * mat_file) * result unit :=
  match records with
  | [] => (store, Ok tt)
  | rs :: rest =>
      match hacs <- mapM (fun r => p <- acorns_audio d r ;; wav2hac p c) rs ;; sp_vstack hacs with
      | Err e => (store, Err e)
      | Ok hacs =>
          save_speakers feat_dir year c d (speaker + 1) rest
            (dict_set String.eqb store (path_join feat_dir (feature_file_name year speaker)) (MatFile (stored c) (Some hacs)))
      end
  end.
(** build_acorns_features:45-56 *)
Fixpoint save_years (py3 : bool) (fs : files) (db_dir feat_dir : string) (id : Z -> nat) (c : codebooks) (years : list Z)
    (store : list (string * mat_file)) : list (string * mat_file) * result unit :=
  match years with
  | [] => (store, Ok tt)
  | year :: rest =>
      match acorns_model.load py3 fs db_dir (id year) year None false with
      | Err e => (store, Err e)
      | Ok db =>
          match save_speakers feat_dir year c db 0 (d_records db) store with
          | (store, Err e) => (store, Err e)
          | (store, Ok _) => save_years py3 fs db_dir feat_dir id c rest store
          end
      end
  end.
(** db/scripts/build_acorns_features, where BUILD_CODEBOOK is False (line 33).  The file
    is read and its item flattened: [m_codebooks] is what results. *)
Definition run_build_acorns_features (py3 : bool) (fs : files) (db_dir feat_dir : string) (id : Z -> nat)
    (store : list (string * mat_file)) : list (string * mat_file) * result unit :=
  match dict_get String.eqb store (CODEBOOK_PATH feat_dir) with
  | None => (store, Err IOError)
  | Some f => save_years py3 fs db_dir feat_dir id (m_codebooks f) [1; 2]%Z store
  end.
End Features.

Arguments build_codebook {F}. Arguments build_codebooks_from_list_of_wav {F} _ {Sound}.
Arguments build_vctk_codebook {F} _ {Sound} _ _ _ _ _ {Arr}. Arguments build_acorns_codebook {F} _ {Sound} _ _ _ _ _ {Arr}.
Arguments acorns_audio {Arr}. Arguments Cells {F}. Arguments Numbers {F}. Arguments stored {F}. Arguments same_shapes {F}.
Arguments MatFile {F}. Arguments m_codebooks {F}. Arguments m_hac {F}. Arguments hac_of {F}. Arguments shape {F}.
Arguments run_build_codebook {F} _ {Sound} _ _ _ _ _ {Arr}. Arguments wav2hac {F} _ {Sound}.
Arguments save_speakers {F} _ {Sound} _ _ _ _ {Arr}. Arguments save_years {F} _ {Sound} _ _ _ _ {Arr}.
Arguments run_build_acorns_features {F} _ {Sound} _ _ _ _ {Arr}.
