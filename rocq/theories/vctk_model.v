(** * Model of the VCTK database (multimodal/db/models/vctk.py, db/vctk.py).

    The disk is given by what the functions of os and open return: [k_list] for os.listdir
    (None: OSError), [k_isdir], [k_isfile], [k_exists] for those of os.path, [k_text] for
    open(path).read() and [k_lines] for open(path).readlines() (None: IOError).  os.listdir
    gives no empty name.  OSError is IOError, as in Python 3. *)

From Coq Require Import List ZArith Bool String Ascii.
Import ListNotations.
From Verif Require Import Py logger_model serial_model sound_model objects_model words_model.
Local Open Scope string_scope.
Open Scope py_scope.

Record disk := Disk {
  k_list : string -> option (list string); k_isdir : string -> bool; k_isfile : string -> bool;
  k_exists : string -> bool; k_text : string -> option string; k_lines : string -> option (list string) }.

(** ** Strings *)
Fixpoint has (c : ascii) (s : string) : bool :=
  match s with "" => false | String a s' => Ascii.eqb a c || has c s' end.
(** s.split(c)[-1] and s.split(c)[0] *)
Fixpoint last_piece (c : ascii) (s : string) : string :=
  match s with
  | "" => ""
  | String a s' => if has c s' then last_piece c s' else if Ascii.eqb a c then s' else s
  end.
Fixpoint first_piece (c : ascii) (s : string) : string :=
  match s with "" => "" | String a s' => if Ascii.eqb a c then "" else String a (first_piece c s') end.
(** os.path.splitext(path)[-1]: leading dots of the name do not count. *)
Definition extension (path : string) : string :=
  let rest := lstrip "." (last_piece "/" path) in
  if has "." rest then String "." (last_piece "." rest) else "".

Section VCTK.
Variable Arr : Type.
Notation val := (val Arr).

(** _parse_speaker_info (vctk.py:9-17); the unpacking of less than four words raises
    ValueError. *)
Definition parse_speaker_info (line : string) : result (string * val) :=
  match split line with
  | id :: age :: genre :: accent :: region =>
      Ok (id, VDict [(KStr "age", VStr age); (KStr "genre", VStr genre); (KStr "accent", VStr accent);
                     (KStr "region", VStr (String.concat " " region))])
  | _ => Err ValueError
  end.

(** _files_in (vctk.py:20-29), os.listdir being done. *)
Definition files_in (k : disk) (dirname : string) (names : list string) (ext : string) : list string :=
  filter (fun path => k_isfile k path &&
            String.eqb (match lower (extension path) with "" => "" | String _ e => e end) ext)
         (map (path_join dirname) names).

(** _speaker_names_from (vctk.py:32-37). *)
Definition speaker_names_from (k : disk) (path : string) : result (list string) :=
  match k_list k path with
  | None => Err IOError
  | Some names =>
      Ok (flat_map (fun d => match d with String "p" s => [s] | _ => [] end)
                   (filter (fun p => k_isdir k (path_join path p)) names))
  end.

(** _records_list_from (vctk.py:40-45): the names are cut out of the whole paths. *)
Definition records_list_from (k : disk) (path ext : string) : list string :=
  match k_list k path with
  | None => []
  | Some names => map (fun f => first_piece "." (last_piece "_" f)) (files_in k path names ext)
  end.

(** _get_speaker_dir, get_wav_dir, get_txt_dir (vctk.py:104-113); WAV_DIR and TXT_DIR
    (vctk.py:50-51). *)
Definition get_speaker_dir (d : database Arr) (speaker_id : Z) : result string :=
  s <- py_nth (d_spkrs d) speaker_id ;; Ok ("p" ++ s).
Definition get_dir (kind : string) (d : database Arr) (speaker_id : Z) : result string :=
  s <- get_speaker_dir d speaker_id ;;
  root <- as_string (d_root d) ;;
  Ok (path_join (path_join root kind) s).
Definition get_wav_dir : database Arr -> Z -> result string := get_dir "wav48".
Definition get_txt_dir : database Arr -> Z -> result string := get_dir "txt".

(** _build_record (vctk.py:88-102). *)
Definition build_record (k : disk) (name : string) (speaker_id : nat) : action Arr unit := fun d =>
  bindA (lift (s <- get_speaker_dir d (Z.of_nat speaker_id) ;;
               txt <- get_txt_dir d (Z.of_nat speaker_id) ;;
               wav <- get_wav_dir d (Z.of_nat speaker_id) ;;
               let prefix := (s ++ "_" ++ name)%string in
               let transcription := match k_text k (path_join txt (prefix ++ ".txt")) with Some t => VStr t | None => VNone end in
               let audio := (prefix ++ ".wav")%string in
               let audio := if k_exists k (path_join wav audio) then VStr audio else VNone in
               Ok (mkRecord (d_id d) (Z.of_nat speaker_id) audio [] transcription (VStr "ADS"))))
        (fun r d => add_record d r) d.

(** _parse_speakers_info (vctk.py:115-118). *)
Definition parse_speakers_info (k : disk) (root : string) : result (list (string * val)) :=
  match k_lines k (path_join root "speaker-info.txt") with
  | None => Err IOError
  | Some lines =>
      l <- mapM parse_speaker_info lines ;;
      Ok (fold_left (fun d kv => dict_set String.eqb d (fst kv) (snd kv)) l [])
  end.

(** The loop of from_db_root (vctk.py:80-86). *)
Definition read_speaker (k : disk) (info : list (string * val)) (s : string) : action Arr unit :=
  bindA (fun d => add_speaker d s (match dict_get String.eqb info s with Some i => i | None => VNone end)) (fun spkr_id d =>
  bindA (lift (wav <- get_wav_dir d (Z.of_nat spkr_id) ;;
               txt <- get_txt_dir d (Z.of_nat spkr_id) ;;
               Ok (records_list_from k wav "wav", records_list_from k txt "txt")))
        (fun l => iterA (fun r => build_record k r spkr_id) (sort_strings (nodup string_dec (fst l ++ snd l)%list))) d).

(** from_db_root (vctk.py:58-86); [root] is the absolute path.  set(speakers_info.keys)
    raises TypeError: a method is not iterable. *)
Definition from_db_root (k : disk) (root speakers : string) : action Arr unit :=
  bindA (fun d => (with_root d (VStr root), Ok tt)) (fun _ =>
  bindA (lift (parse_speakers_info k root)) (fun info =>
  bindA (lift (speaker_names_from k (path_join root "wav48"))) (fun in_wav =>
  bindA (lift (speaker_names_from k (path_join root "txt"))) (fun in_txt =>
  bindA (lift (if String.eqb speakers "sound" then Ok in_wav
               else if String.eqb speakers "text" then Ok in_txt
               else if String.eqb speakers "info" then Ok (map fst info)
               else if String.eqb speakers "everything" then Err TypeError
               else Err ValueError))
        (fun l => iterA (read_speaker k info) (sort_strings l)))))).

(** load (db/vctk.py:25-38); load_from sorts by default.  The argument blacklist is not
    used by the code; the new database gets the identity [id]. *)
Definition load (fs : files Arr) (db_dir : string) (id : nat) (db_file : option string) : result (database Arr) :=
  let db_file := match db_file with Some f => f | None => path_join (path_join db_dir "VCTK-Corpus") "VCTK.json" end in
  match load_from fs db_file true (DataBase id) with
  | (_, Err e) => Err e
  | (db, Ok _) => Ok db
  end.

(** get_audio_path (sound.py:51-52) with this get_wav_dir. *)
Definition get_audio_path (d : database Arr) (r : record Arr) : result string :=
  w <- get_wav_dir d (r_spkr_id r) ;;
  a <- as_string (r_audio r) ;;
  Ok (path_join w a).
(** The names given to build_codebooks_from_list_of_wav (db/vctk.py:41-44); all_records
    (sound.py:179-180) is the concatenation of the lists of the speakers. *)
Definition codebook_files (d : database Arr) : result (list string) := mapM (get_audio_path d) (List.concat (d_records d)).
End VCTK.
Arguments parse_speaker_info {Arr}. Arguments get_dir {Arr}. Arguments get_wav_dir {Arr}. Arguments get_txt_dir {Arr}. Arguments get_speaker_dir {Arr}.
Arguments build_record {Arr}. Arguments parse_speakers_info {Arr}. Arguments read_speaker {Arr}. Arguments from_db_root {Arr}.
Arguments load {Arr}. Arguments get_audio_path {Arr}. Arguments codebook_files {Arr}.
