(** * The VCTK databases: construction, audio files, reading again (C97). *)

From Coq Require Import List ZArith Arith Bool String Ascii Sorted Lia.
Import ListNotations.
From Verif Require Import Py logger_model logger_spec serial_model serial_spec sound_model sound_spec objects_spec objects_proof words_spec
  vctk_model vctk_spec vctk_text vctk_proof.
Local Open Scope nat_scope.
Local Open Scope string_scope.

Section Props.
Context {Arr : Type}.
Notation database := (database Arr).
Notation record := (record Arr).

(** For the speakers with sound, with text or with information: the speakers asked for,
    sorted, what the file says about them, and one record for each name found among the
    sounds or the texts, sorted; the result can be saved. *)
Theorem C97_built : forall k root lines speakers id, well_formed k root lines ->
  speakers = "sound" \/ speakers = "text" \/ speakers = "info" ->
  exists d : database, from_db_root k root speakers (DataBase id) = (d, Ok tt) /\
    corpus k root lines speakers id d /\ savable d.
Proof. exact all_built. Qed.
(** The speakers who have everything, which the documentation names as default, cannot be
    asked for. *)
Theorem C97_everything_refuted : forall k root lines lw lt (d : database),
  k_lines k (path_join root "speaker-info.txt") = Some lines /\
  (forall l, In l lines -> exists s a g c region, words l (s :: a :: g :: c :: region)) /\
  k_list k (path_join root "wav48") = Some lw /\ k_list k (path_join root "txt") = Some lt ->
  exists d', from_db_root k root "everything" d = (d', Err TypeError).
Proof. exact everything. Qed.
Theorem C97_other : forall k root speakers lines lw lt (d : database),
  k_lines k (path_join root "speaker-info.txt") = Some lines /\
  (forall l, In l lines -> exists s a g c region, words l (s :: a :: g :: c :: region)) /\
  k_list k (path_join root "wav48") = Some lw /\ k_list k (path_join root "txt") = Some lt ->
  ~ In speakers ["sound"; "text"; "info"; "everything"] ->
  exists d', from_db_root k root speakers d = (d', Err ValueError).
Proof. exact other. Qed.
(** An empty line, or one with less than four words, anywhere in the file of speakers. *)
Theorem C97_bad_line : forall k root speakers lines l (d : database),
  k_lines k (path_join root "speaker-info.txt") = Some lines -> In l lines ->
  ~ (exists s a g c region, words l (s :: a :: g :: c :: region)) ->
  from_db_root k root speakers d = (with_root d (VStr root), Err ValueError).
Proof. exact bad_line. Qed.
Theorem C97_missing : forall k root speakers (d : database),
  (k_lines k (path_join root "speaker-info.txt") = None \/
   exists lines, k_lines k (path_join root "speaker-info.txt") = Some lines /\
     (forall l, In l lines -> exists s a g c region, words l (s :: a :: g :: c :: region)) /\
     (k_list k (path_join root "wav48") = None \/ k_list k (path_join root "txt") = None)) ->
  from_db_root k root speakers d = (with_root d (VStr root), Err IOError).
Proof. exact missing. Qed.

(** The names of the corpus are read as meant. *)
Theorem C97_name : forall dir s name ext r, lacks "_" name -> lacks "." name -> lacks "_" ext ->
  (record_name (dir ++ "p" ++ s ++ "_" ++ name ++ "." ++ ext) r <-> r = name).
Proof. exact usual_name. Qed.
Theorem C97_extension : forall dir s name ext ext', (dir = "" \/ exists d, dir = d ++ "/") ->
  lacks "/" s -> lacks "/" name -> lacks "/" ext -> lacks "." ext -> ext' <> "" ->
  (has_extension (dir ++ "p" ++ s ++ "_" ++ name ++ "." ++ ext) ext' <-> lowered ext ext').
Proof. exact usual_extension. Qed.

(** The path of the audio file of a record is that of a file that exists, unless the record
    has none. *)
Theorem C97_audio : forall k root lines speakers id (d : database) rs r, corpus k root lines speakers id d ->
  In rs (d_records d) -> In r rs ->
  (r_audio r = VNone /\ get_audio_path d r = Err TypeError) \/
  (exists a p, r_audio r = VStr a /\ get_audio_path d r = Ok p /\ k_exists k p = true).
Proof. exact audio_path. Qed.
(** The codebooks are made of all the sounds, or not at all. *)
Theorem C97_codebook : forall k root lines speakers id (d : database), corpus k root lines speakers id d ->
  ((forall rs r, In rs (d_records d) -> In r rs -> r_audio r <> VNone) -> exists files, codebook_files d = Ok files /\
     List.length files = List.length (List.concat (d_records d)) /\ forall f, In f files -> k_exists k f = true) /\
  (forall rs r, In rs (d_records d) -> In r rs -> r_audio r = VNone -> codebook_files d = Err TypeError).
Proof. exact codebook. Qed.
(** Saved and loaded: the same database, sorted; but a text without its sound, beside
    another record of the speaker, makes the loading fail. *)
Theorem C97_reload : forall (d : database) fs db_dir id f, savable d ->
  let name := match f with Some f => f | None => path_join (path_join db_dir "VCTK-Corpus") "VCTK.json" end in
  exists fs', write_json d fs name = (fs', Ok tt) /\
    (sortable d -> exists d', load fs' db_dir id f = Ok d' /\ d_id d' = id /\ consistent d' /\ same_database true d d') /\
    (forall rs r, In rs (d_records d) -> 2 <= List.length rs -> In r rs -> r_audio r = VNone -> load fs' db_dir id f = Err TypeError).
Proof. exact reload. Qed.
End Props.
Print Assumptions C97_built.
Print Assumptions C97_everything_refuted.
Print Assumptions C97_other.
Print Assumptions C97_bad_line.
Print Assumptions C97_missing.
Print Assumptions C97_name.
Print Assumptions C97_extension.
Print Assumptions C97_audio.
Print Assumptions C97_codebook.
Print Assumptions C97_reload.

(** ** Cases that meet the hypotheses *)
(** Two speakers with sounds; the first has a text without sound, the second no text at all,
    and the file speaks of the first one and has the usual first line. *)
Definition ex_files : list string :=
  ["/c/wav48/p225/p225_002.wav"; "/c/wav48/p225/p225_001.WAV"; "/c/wav48/p225/p225_001.wav"; "/c/txt/p225/p225_001.txt";
   "/c/txt/p225/p225_003.txt"; "/c/wav48/p315/p315_001.wav"; "/c/wav48/p315/notes"].
Definition ex_disk : disk := Disk
  (fun p => if String.eqb p "/c/wav48" then Some ["p315"; "p225"; "other"] else if String.eqb p "/c/txt" then Some ["p225"]
            else if String.eqb p "/c/wav48/p225" then Some ["p225_002.wav"; "p225_001.WAV"; "p225_001.wav"]
            else if String.eqb p "/c/txt/p225" then Some ["p225_001.txt"; "p225_003.txt"]
            else if String.eqb p "/c/wav48/p315" then Some ["p315_001.wav"; "notes"] else None)
  (fun p => existsb (String.eqb p) ["/c/wav48/p315"; "/c/wav48/p225"; "/c/wav48/other"; "/c/txt/p225"])
  (fun p => existsb (String.eqb p) ex_files) (fun p => existsb (String.eqb p) ex_files)
  (fun p => if String.eqb p "/c/txt/p225/p225_001.txt" then Some "Please call Stella." else
            if String.eqb p "/c/txt/p225/p225_003.txt" then Some "Six spoons." else None)
  (fun p => if String.eqb p "/c/speaker-info.txt" then
              Some ["ID  AGE  GENDER  ACCENTS  REGION"; "225  23  F    English    Southern  England"] else None).
Definition ex_db : database unit := fst (from_db_root ex_disk "/c" "sound" (DataBase 3)).
Example C97_ex : well_formed ex_disk "/c" ["ID  AGE  GENDER  ACCENTS  REGION"; "225  23  F    English    Southern  England"].
Proof.
  split; [reflexivity|]. split; [|split; eexists; (split; [reflexivity|]); repeat constructor; cbn; intuition discriminate].
  intros l [<-|[<-|[]]]; do 5 eexists; apply words_iff; vm_compute; reflexivity.
Qed.
Example C97_ex_built :
  d_spkrs ex_db = ["225"; "315"] /\ map (map r_audio) (d_records ex_db) = [[VStr "p225_001.wav"; VStr "p225_002.wav"; VNone]; [VStr "p315_001.wav"]] /\
  map (map r_trans) (d_records ex_db) = [[VStr "Please call Stella."; VNone; VStr "Six spoons."]; [VNone]] /\
  d_spkrs_info ex_db = [VDict [(KStr "age", VStr "23"); (KStr "genre", VStr "F"); (KStr "accent", VStr "English"); (KStr "region", VStr "Southern England")]; VNone].
Proof. vm_compute. auto. Qed.
(** The first line of the file is a speaker as any other. *)
Example C97_ex_header : d_spkrs (fst (from_db_root (Arr := unit) ex_disk "/c" "info" (DataBase 3))) = ["225"; "ID"].
Proof. reflexivity. Qed.
(** This database is saved, and cannot be loaded. *)
Example C97_ex_reload : match write_json ex_db [] "/d/VCTK-Corpus/VCTK.json" with
  | (fs, Ok _) => load fs "/d" 4 None = Err TypeError
  | _ => False end.
Proof. reflexivity. Qed.
Example C97_ex_audio : codebook_files ex_db = Err TypeError /\
  codebook_files (fst (from_db_root (Arr := unit) (Disk (k_list ex_disk) (k_isdir ex_disk) (fun p => negb (String.eqb p "/c/txt/p225/p225_003.txt") && k_isfile ex_disk p)
    (k_exists ex_disk) (k_text ex_disk) (k_lines ex_disk)) "/c" "sound" (DataBase 3))) =
  Ok ["/c/wav48/p225/p225_001.wav"; "/c/wav48/p225/p225_002.wav"; "/c/wav48/p315/p315_001.wav"].
Proof. vm_compute. auto. Qed.
Example C97_ex_name : record_name "/c/wav48/p225/p225_001.WAV" "001" /\ has_extension "/c/wav48/p225/p225_001.WAV" "wav".
Proof.
  split.
  - apply (proj2 (C97_name "/c/wav48/p225/" "225" "001" "WAV" "001" ltac:(cbv; intuition discriminate) ltac:(cbv; intuition discriminate) ltac:(cbv; intuition discriminate))).
    reflexivity.
  - apply (C97_extension "/c/wav48/p225/" "225" "001" "WAV" "wav"); try (cbv; intuition discriminate); try discriminate.
    + right. exists "/c/wav48/p225". reflexivity.
    + repeat constructor.
Qed.
