(** * The scripts that parse the sound corpora (C106). *)

From Coq Require Import List ZArith Arith Bool String Ascii Sorted Lia.
Import ListNotations.
From Verif Require Import Py logger_model serial_model sound_model sound_spec acorns_model acorns_spec words_spec words_model words_text
  objects_spec objects_proof vctk_model vctk_spec vctk_text vctk_proof parse_model parse_spec parse_proof.
Local Open Scope nat_scope.
Local Open Scope string_scope.

Section Props.
Context {Arr : Type}.
Variable abspath : string -> string.
Notation files := (files Arr).
Notation database := (database Arr).

(** When the XML files can be read, what is loaded afterwards for a year is what its XML
    files say; no other file changes. *)
Theorem C106_acorns : forall py3 xml utts db_dir id arg (fs : files),
  (forall year n s, acorns_year year n -> In s (get_speakers year) -> xml (abspath (corpus_of db_dir n)) s = map Ok (utts year s)) ->
  exists fs', run_parse_acorns abspath py3 xml db_dir id arg fs = (fs', Ok tt) /\
    (forall year n id', acorns_year year n -> exists d, acorns_model.load py3 fs' db_dir id' year (load_file db_dir arg n) false = Ok d /\
       described (utts year) year (abspath (corpus_of db_dir n)) id' d) /\
    forall p, p <> file_of db_dir arg "1" -> p <> file_of db_dir arg "2" -> dict_get String.eqb fs' p = dict_get String.eqb fs p.
Proof. exact (acorns_written abspath). Qed.
(** A file of the first year that cannot be read: nothing is written. *)
Theorem C106_acorns_first : forall py3 xml db_dir id arg (fs : files) s e,
  In s (get_speakers 1) -> In (Err e) (xml (abspath (corpus_of db_dir "1")) s) ->
  exists e', run_parse_acorns abspath py3 xml db_dir id arg fs = (fs, Err e').
Proof. exact (acorns_first abspath). Qed.
(** A file of the second year that cannot be read: the script fails, but the first year is
    there. *)
Theorem C106_acorns_second : forall py3 xml utts db_dir id arg (fs : files) s e,
  (forall s, In s (get_speakers 1) -> xml (abspath (corpus_of db_dir "1")) s = map Ok (utts s)) ->
  In s (get_speakers 2) -> In (Err e) (xml (abspath (corpus_of db_dir "2")) s) ->
  exists fs' e', run_parse_acorns abspath py3 xml db_dir id arg fs = (fs', Err e') /\
    (forall id', exists d, acorns_model.load py3 fs' db_dir id' 1 (load_file db_dir arg "1") false = Ok d /\
       described utts 1 (abspath (corpus_of db_dir "1")) id' d) /\
    forall p, p <> file_of db_dir arg "1" -> dict_get String.eqb fs' p = dict_get String.eqb fs p.
Proof. exact (acorns_second abspath). Qed.

(** The script for VCTK succeeds, but what it wrote can be loaded only if no text lacks its
    sound (unless it is the only record of its speaker). *)
Theorem C106_vctk : forall k lines db_dir id arg (fs : files),
  let root := abspath (path_join db_dir "VCTK-Corpus") in
  well_formed k root lines ->
  exists fs', run_parse_vctk abspath k db_dir id arg fs = (fs', Ok tt) /\
    (forall id', no_lone_text k root -> exists d, vctk_model.load fs' db_dir id' (vctk_arg db_dir arg) = Ok d /\ catalogue k root lines id' d) /\
    (forall id' s name name', has_directory k (path_join root "wav48") s -> of_speaker k root s name -> of_speaker k root s name' -> name <> name' ->
       k_exists k (sound_of root s name) = false -> vctk_model.load fs' db_dir id' (vctk_arg db_dir arg) = Err TypeError) /\
    forall p, p <> vctk_file db_dir arg -> dict_get String.eqb fs' p = dict_get String.eqb fs p.
Proof. intros k lines db_dir id arg fs root W. exact (vctk_written abspath k lines db_dir id arg fs W). Qed.
(** The codebook of the loaded database is made of exactly the sounds of the corpus. *)
Theorem C106_vctk_sounds : forall k root lines id (d : database), catalogue k root lines id d ->
  (forall s name, has_directory k (path_join root "wav48") s -> of_speaker k root s name -> k_exists k (sound_of root s name) = true) ->
  exists l, codebook_files d = Ok l /\ List.length l = List.length (List.concat (d_records d)) /\
    forall f, In f l <-> exists s name, has_directory k (path_join root "wav48") s /\ of_speaker k root s name /\ f = sound_of root s name.
Proof. exact catalogue_sounds. Qed.
(** Without a readable file of speakers nothing is written. *)
Theorem C106_vctk_missing : forall k db_dir id arg (fs : files),
  let root := abspath (path_join db_dir "VCTK-Corpus") in
  (k_lines k (path_join root "speaker-info.txt") = None -> run_parse_vctk abspath k db_dir id arg fs = (fs, Err IOError)) /\
  (forall lines l, k_lines k (path_join root "speaker-info.txt") = Some lines -> In l lines ->
     ~ (exists s a g c region, words l (s :: a :: g :: c :: region)) -> run_parse_vctk abspath k db_dir id arg fs = (fs, Err ValueError)).
Proof. exact (vctk_stops abspath). Qed.
End Props.
Print Assumptions C106_acorns.
Print Assumptions C106_acorns_first.
Print Assumptions C106_acorns_second.
Print Assumptions C106_vctk.
Print Assumptions C106_vctk_sounds.
Print Assumptions C106_vctk_missing.

(** ** Cases that meet the hypotheses *)
Definition ex_utts (year : Z) (s : string) : list utterance :=
  if String.eqb s "Speaker-02" then [mkUtt "ADS" ("b" ++ format_d year) ["car"; "dog"] "a car"; mkUtt "IDS" "a" ["dog"] ""] else [].
Definition ex_xml (root s : string) : list (result utterance) :=
  map Ok (ex_utts (if String.eqb root "/d/ACORNS/ACORNS-English-Corpora-ev01/ACORNS-Y1-ENG" then 1 else 2) s).
Example C106_ex : forall year n s, acorns_year year n -> In s (get_speakers year) -> ex_xml (corpus_of "/d" n) s = map Ok (ex_utts year s).
Proof. intros year n s [(-> & ->)|(-> & ->)] _; reflexivity. Qed.
Example C106_ex_run : match run_parse_acorns (Arr := unit) (fun p => p) true ex_xml "/d" Z.to_nat (Some "/tmp") [] with
  | (fs, Ok _) => map fst fs = ["/tmp/Acorns_Y1.json"; "/tmp/Acorns_Y2.json"] /\
      match acorns_model.load true fs "/d" 7 2 (Some "/tmp/Acorns_Y2.json") false with
      | Ok d => nth_error (d_records d) 1 = Some [mkRecord 7 1 (VStr "a.wav") [1%Z] (VStr "") (VStr "IDS"); mkRecord 7 1 (VStr "b2.wav") [0; 1]%Z (VStr "a car") (VStr "ADS")]
      | Err _ => False end
  | _ => False end.
Proof. vm_compute. auto. Qed.
Example C106_ex_second : match run_parse_acorns (Arr := unit) (fun p => p) true
    (fun root s => if String.eqb root "/d/ACORNS/ACORNS-English-Corpora-ev01/ACORNS-Y2-ENG" then [Err KeyError] else ex_xml root s) "/d" Z.to_nat None [] with
  | (fs, Err _) => map fst fs = ["/d/ACORNS/Acorns_Y1.json"]
  | _ => False end.
Proof. vm_compute. auto. Qed.

(** Two speakers, every record with its sound. *)
Definition ex_names : list string := ["/c/VCTK-Corpus/wav48/p225/p225_002.wav"; "/c/VCTK-Corpus/wav48/p225/p225_001.wav";
  "/c/VCTK-Corpus/txt/p225/p225_001.txt"; "/c/VCTK-Corpus/wav48/p315/p315_001.wav"].
Definition ex_disk : disk := Disk
  (fun p => if String.eqb p "/c/VCTK-Corpus/wav48" then Some ["p315"; "p225"] else if String.eqb p "/c/VCTK-Corpus/txt" then Some ["p225"]
            else if String.eqb p "/c/VCTK-Corpus/wav48/p225" then Some ["p225_002.wav"; "p225_001.wav"]
            else if String.eqb p "/c/VCTK-Corpus/txt/p225" then Some ["p225_001.txt"]
            else if String.eqb p "/c/VCTK-Corpus/wav48/p315" then Some ["p315_001.wav"] else None)
  (fun p => existsb (String.eqb p) ["/c/VCTK-Corpus/wav48/p315"; "/c/VCTK-Corpus/wav48/p225"; "/c/VCTK-Corpus/txt/p225"])
  (fun p => existsb (String.eqb p) ex_names) (fun p => existsb (String.eqb p) ex_names)
  (fun p => if String.eqb p "/c/VCTK-Corpus/txt/p225/p225_001.txt" then Some "Please call Stella." else None)
  (fun p => if String.eqb p "/c/VCTK-Corpus/speaker-info.txt" then
              Some ["ID  AGE  GENDER  ACCENTS  REGION"; "225  23  F    English    Southern  England"] else None).
Example C106_ex_formed : well_formed ex_disk "/c/VCTK-Corpus" ["ID  AGE  GENDER  ACCENTS  REGION"; "225  23  F    English    Southern  England"].
Proof.
  split; [reflexivity|]. split; [|split; eexists; (split; [reflexivity|]); repeat constructor; cbn; intuition discriminate].
  intros l [<-|[<-|[]]]; do 5 eexists; apply words_iff; vm_compute; reflexivity.
Qed.
Example C106_ex_complete : forall s name, has_directory ex_disk "/c/VCTK-Corpus/wav48" s -> of_speaker ex_disk "/c/VCTK-Corpus" s name ->
  k_exists ex_disk (sound_of "/c/VCTK-Corpus" s name) = true.
Proof.
  intros s name (names & E & I & _) O. assert (G : s = "315" \/ s = "225").
  { cbn in E. injection E as <-. destruct I as [I|[I|[]]]; injection I as <-; auto. }
  clear -G O. unfold of_speaker in O. rewrite <- !records_from in O by discriminate.
  destruct G as [-> | ->]; vm_compute in O; intuition subst; reflexivity.
Qed.
Example C106_ex_lone : no_lone_text ex_disk "/c/VCTK-Corpus".
Proof. intros s H. left. intros name O. apply C106_ex_complete; assumption. Qed.
Example C106_ex_vctk : match run_parse_vctk (Arr := unit) (fun p => p) ex_disk "/c" 3 None [] with
  | (fs, Ok _) => match vctk_model.load fs "/c" 4 None with
                  | Ok d => codebook_files d = Ok ["/c/VCTK-Corpus/wav48/p225/p225_001.wav"; "/c/VCTK-Corpus/wav48/p225/p225_002.wav";
                                                   "/c/VCTK-Corpus/wav48/p315/p315_001.wav"]
                  | Err _ => False end
  | _ => False end.
Proof. vm_compute. reflexivity. Qed.
