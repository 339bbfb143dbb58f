(** * Proofs on the scripts that parse the corpora. *)

From Coq Require Import List ZArith Arith Bool String Sorted Permutation Lia.
Import ListNotations.
From Verif Require Import Py Py_proof logger_model logger_spec serial_model serial_spec serial_proof sound_model sound_spec sound_proof sound_file
  objects_spec words_spec objects_read acorns_model acorns_spec acorns_proof acorns_load acorns_root vctk_model vctk_spec vctk_proof motion_proof parse_model parse_spec.
Local Open Scope nat_scope.
Local Open Scope string_scope.

Section Proofs.
Context {Arr : Type}.
Notation record := (record Arr).
Notation database := (database Arr).
Notation files := (files Arr).

(** ** Sorting twice *)
Definition rewrite_to (k id : nat) (r : record) : record := mkRecord id (Z.of_nat k) (r_audio r) (r_tags r) (r_trans r) (r_style r).
Lemma str_image s v : @json_image Arr (VStr s) v -> v = VStr s.
Proof. inversion 1. reflexivity. Qed.
Lemma sorted_map k id : forall rs : list record, StronglySorted (fun a b => ~ sound_spec.before b a) rs ->
  StronglySorted (fun a b => ~ sound_spec.before b a) (map (rewrite_to k id) rs).
Proof.
  induction 1 as [|r rs S IH F]; cbn [map]; constructor; [exact IH|]. apply Forall_forall. intros x I. apply in_map_iff in I. destruct I as (y & <- & I).
  rewrite Forall_forall in F. intros (s & s' & A & B & C). apply (F y I). exists s, s'. auto.
Qed.
Lemma filter_rewrite k id s (rs : list record) : filter (has_name s) (map (rewrite_to k id) rs) = map (rewrite_to k id) (filter (has_name s) rs).
Proof. induction rs as [|r rs IH]; cbn [map filter]; [reflexivity|]. change (has_name s (rewrite_to k id r)) with (has_name s r). rewrite IH. destruct (has_name s r); reflexivity. Qed.
Lemma sorted_twice k id (read rs rs' : list record) : stably_sorted read rs -> stably_sorted (map (rewrite_to k id) rs) rs' ->
  stably_sorted (map (rewrite_to k id) read) rs'.
Proof.
  intros (P & S & F) (P' & S' & F'). split; [|split; [exact S'|]].
  - eapply Permutation_trans; [apply Permutation_map, P|exact P'].
  - intros s. rewrite F', !filter_rewrite, F. reflexivity.
Qed.
Definition worded (r : record) : Prop := (exists s, r_trans r = VStr s) /\ (exists s, r_style r = VStr s).
Lemma read_again k id (rs read : list record) : Forall worded rs -> Forall2 (same_record k id) rs read -> read = map (rewrite_to k id) rs.
Proof.
  intros W F. revert W. induction F as [|r r' rs read (A & B & C & D & E & G) _ IH]; intros W; [reflexivity|]. inversion W as [|? ? ((s & T) & (s' & T')) W']; subst.
  cbn [map]. f_equal; [|auto]. rewrite T in E. rewrite T' in G. apply str_image in E. apply str_image in G. destruct r'; cbn in *. unfold rewrite_to. congruence.
Qed.
Lemma made_worded (d : database) k us read : Forall2 (made_of d k) us read -> Forall worded read.
Proof. induction 1 as [|u r us read (_ & _ & _ & T & S & _) _ IH]; constructor; [split; eauto|exact IH]. Qed.

(** ** ACORNS *)
Lemma described_again utts year root id id' (d d' : database) : described utts year root id d -> d_id d' = id' -> same_database true d d' ->
  described utts year root id' d'.
Proof.
  intros (_ & RT & SP & LN & K & T) I (RT' & TG & SP' & _ & LN' & K'). split; [exact I|]. rewrite RT in RT'. split; [exact (str_image _ _ RT')|].
  split; [congruence|]. split; [congruence|]. split; [|rewrite TG; exact T]. intros k s N.
  destruct (K k s N) as (read & rs & A & B & C). destruct (K' k rs A) as (again & rs' & A' & B' & C'). rewrite I in B'.
  assert (W : Forall worded rs). { apply Forall_forall. intros r J. pose proof (made_worded d k _ _ B) as W. rewrite Forall_forall in W. apply W. destruct C as (P & _). eapply Permutation_in; [apply Permutation_sym, P|exact J]. }
  rewrite (read_again k id' rs again W B') in C'. exists (map (rewrite_to k id') read), rs'. split; [exact A'|]. split; [|eapply sorted_twice; eassumption].
  clear -B TG I. induction B as [|u r us read (_ & _ & A & B & C & D) _ IH]; cbn [map]; constructor; [|exact IH].
  unfold made_of, rewrite_to. cbn [r_db r_spkr_id r_audio r_trans r_style r_tags]. rewrite TG. auto 10.
Qed.

Variable abspath : string -> string.
Lemma roots db_dir year n : acorns_year year n -> acorns_root abspath db_dir year = abspath (corpus_of db_dir n) /\
  (year = 1%Z \/ year = 2%Z) /\ format_d year = n.
Proof. intros [(-> & ->)|(-> & ->)]; split; [reflexivity| |reflexivity|]; auto. Qed.
Lemma written_name (d : database) fs name : savable d -> exists v, write_json d fs name = (dict_set String.eqb fs name (Some v), Ok tt).
Proof.
  intros SV. destruct (sound_file.loaded d fs name 0 SV) as (fs' & _ & _ & W & _). unfold write_json in *. destruct (to_data d) as [data|e]; [|discriminate].
  destruct (json_rt data) as [v|e]; [|discriminate]. eauto.
Qed.
Lemma load_same (fs fs' : files) py3 db_dir id year n arg : acorns_year year n ->
  dict_get String.eqb fs (file_of db_dir arg n) = dict_get String.eqb fs' (file_of db_dir arg n) ->
  acorns_model.load py3 fs db_dir id year (load_file db_dir arg n) false = acorns_model.load py3 fs' db_dir id year (load_file db_dir arg n) false.
Proof.
  intros Y E. destruct (roots db_dir year n Y) as (_ & _ & F). unfold acorns_model.load, load_file.
  assert (G : match match arg with Some _ => Some (file_of db_dir arg n) | None => None end with Some f => f | None => path_join (default_acorns_dir db_dir) (default_acorns_file year) end = file_of db_dir arg n).
  { destruct arg; [reflexivity|]. unfold default_acorns_file. rewrite F. reflexivity. }
  rewrite G. unfold load_from. rewrite E. reflexivity.
Qed.
(** One year. *)
Lemma one_year py3 xml utts db_dir id arg year n (fs : files) : acorns_year year n ->
  (forall s, In s (get_speakers year) -> xml (abspath (corpus_of db_dir n)) s = map Ok (utts s)) ->
  exists fs', (forall rest, parse_years abspath py3 xml db_dir (match arg with Some p => p | None => default_acorns_dir db_dir end) id (year :: rest) fs =
                 parse_years abspath py3 xml db_dir (match arg with Some p => p | None => default_acorns_dir db_dir end) id rest fs') /\
    (forall id', exists d, acorns_model.load py3 fs' db_dir id' year (load_file db_dir arg n) false = Ok d /\ described utts year (abspath (corpus_of db_dir n)) id' d) /\
    forall p, p <> file_of db_dir arg n -> dict_get String.eqb fs' p = dict_get String.eqb fs p.
Proof.
  intros Y X. destruct (roots db_dir year n Y) as (R & HY & F).
  destruct (from_root (Arr := Arr) py3 (xml (abspath (corpus_of db_dir n))) utts (abspath (corpus_of db_dir n)) year (id year) HY X) as (d & E & SV & SO & DS).
  set (name := file_of db_dir arg n).
  assert (NM : path_join (match arg with Some p => p | None => default_acorns_dir db_dir end) (default_acorns_file year) = name).
  { unfold name, file_of, default_acorns_file, default_acorns_dir. rewrite F. reflexivity. }
  destruct (written_name d fs name SV) as (v & W). exists (dict_set String.eqb fs name (Some v)). split; [|split].
  - intros rest. cbn [parse_years]. rewrite R, E, NM, W. reflexivity.
  - intros id'. destruct (loaded_back py3 d fs db_dir id' year (load_file db_dir arg n) HY SV SO) as (fs' & d' & W' & L & I & _ & SD).
    assert (NM' : match load_file db_dir arg n with Some f => f | None => path_join (path_join db_dir "ACORNS") ("Acorns_Y" ++ format_d year ++ ".json") end = name).
    { unfold load_file, name, file_of. rewrite F. destruct arg; reflexivity. }
    rewrite NM', W in W'. injection W' as <-. exists d'. split; [exact L|]. eapply described_again; [exact DS|exact I|exact SD].
  - intros p N. rewrite sget_set. destruct (String.eqb_spec name p) as [->|_]; [congruence|reflexivity].
Qed.
Lemma files_apart db_dir arg : file_of db_dir arg "1" <> file_of db_dir arg "2".
Proof. intros E. apply join_cancel in E; [discriminate|reflexivity|reflexivity]. Qed.

Lemma acorns_written py3 xml utts db_dir id arg (fs : files) :
  (forall year n s, acorns_year year n -> In s (get_speakers year) -> xml (abspath (corpus_of db_dir n)) s = map Ok (utts year s)) ->
  exists fs', run_parse_acorns abspath py3 xml db_dir id arg fs = (fs', Ok tt) /\
    (forall year n id', acorns_year year n -> exists d, acorns_model.load py3 fs' db_dir id' year (load_file db_dir arg n) false = Ok d /\
       described (utts year) year (abspath (corpus_of db_dir n)) id' d) /\
    forall p, p <> file_of db_dir arg "1" -> p <> file_of db_dir arg "2" -> dict_get String.eqb fs' p = dict_get String.eqb fs p.
Proof.
  intros X. assert (Y1 : acorns_year 1 "1") by (left; auto). assert (Y2 : acorns_year 2 "2") by (right; auto).
  destruct (one_year py3 xml (utts 1%Z) db_dir id arg 1 "1" fs Y1 (fun s => X 1%Z "1" s Y1)) as (f1 & E1 & L1 & K1).
  destruct (one_year py3 xml (utts 2%Z) db_dir id arg 2 "2" f1 Y2 (fun s => X 2%Z "2" s Y2)) as (f2 & E2 & L2 & K2).
  exists f2. split; [unfold run_parse_acorns; rewrite E1, E2; reflexivity|]. split.
  - intros year n id' [(-> & ->)|(-> & ->)]; [|apply L2]. destruct (L1 id') as (d & L & D). exists d. split; [|exact D]. rewrite <- L.
    apply load_same; [exact Y1|]. apply K2, files_apart.
  - intros p A B. rewrite K2, K1; auto.
Qed.

(** An XML file that cannot be read. *)
Lemma iter_fails {A} (f : A -> action Arr unit) x l : (forall d, exists d' e, f x d = (d', Err e)) -> In x l ->
  forall d, exists d' e, iterA f l d = (d', Err e).
Proof.
  intros H. induction l as [|y l IH]; intros I d; [destruct I|]. cbn [iterA]. unfold bindA at 1.
  destruct (f y d) as [d1 [z|e]] eqn:E; [|eauto]. destruct I as [->|I]; [|apply (IH I)]. destruct (H d) as (d' & e & G). congruence.
Qed.
Lemma bad_xml py3 xml root year id s e : In s (get_speakers year) -> In (Err e) (xml s) ->
  exists (d : database) e', from_ACORNS_root py3 xml root year (DataBase id) = (d, Err e').
Proof.
  intros I J. unfold from_ACORNS_root. unfold bindA at 1. unfold lift. destruct (check_year py3 year); [|eauto]. unfold bindA at 1. unfold bindA at 1.
  destruct (iter_fails (add_speaker_files xml) s (get_speakers year)) with (d := with_root (@DataBase Arr id) (VStr root)) as (d' & e' & G); [|exact I|rewrite G; eauto].
  intros d. unfold add_speaker_files. unfold bindA at 1. destruct (add_speaker d s VNone) as [d1 [i|x]]; [|eauto].
  apply (iter_fails _ (Err e)); [|exact J]. intros d2. unfold parse_record, bindA, lift. eauto.
Qed.
Lemma acorns_first py3 xml db_dir id arg (fs : files) s e : In s (get_speakers 1) -> In (Err e) (xml (abspath (corpus_of db_dir "1")) s) ->
  exists e', run_parse_acorns abspath py3 xml db_dir id arg fs = (fs, Err e').
Proof.
  intros I J. destruct (roots db_dir 1 "1" ltac:(left; auto)) as (R & _ & _). destruct (bad_xml py3 _ (abspath (corpus_of db_dir "1")) 1 (id 1%Z) s e I J) as (d & e' & E).
  exists e'. unfold run_parse_acorns. cbn [parse_years]. rewrite R, E. reflexivity.
Qed.
Lemma acorns_second py3 xml utts db_dir id arg (fs : files) s e :
  (forall s, In s (get_speakers 1) -> xml (abspath (corpus_of db_dir "1")) s = map Ok (utts s)) ->
  In s (get_speakers 2) -> In (Err e) (xml (abspath (corpus_of db_dir "2")) s) ->
  exists fs' e', run_parse_acorns abspath py3 xml db_dir id arg fs = (fs', Err e') /\
    (forall id', exists d, acorns_model.load py3 fs' db_dir id' 1 (load_file db_dir arg "1") false = Ok d /\
       described utts 1 (abspath (corpus_of db_dir "1")) id' d) /\
    forall p, p <> file_of db_dir arg "1" -> dict_get String.eqb fs' p = dict_get String.eqb fs p.
Proof.
  intros X I J. assert (Y1 : acorns_year 1 "1") by (left; auto). destruct (one_year py3 xml utts db_dir id arg 1 "1" fs Y1 X) as (f1 & E1 & L1 & K1).
  destruct (roots db_dir 2 "2" ltac:(right; auto)) as (R & _ & _). destruct (bad_xml py3 _ (abspath (corpus_of db_dir "2")) 2 (id 2%Z) s e I J) as (d & e' & E).
  exists f1, e'. split; [|split; [exact L1|exact K1]]. unfold run_parse_acorns. rewrite E1. cbn [parse_years]. rewrite R, E. reflexivity.
Qed.

(** ** VCTK *)
Lemma info_same lines s (v v' : val Arr) : info_of lines s v -> json_image v v' -> v' = v.
Proof.
  intros [(a & l & b & age & genre & accent & region & _ & _ & _ & ->)|(_ & ->)] J; [|inversion J; reflexivity].
  inversion J as [| | | | | | |? ? D N]; subst. repeat match goal with H : dict_images (_ :: _) _ |- _ => inversion H; clear H; subst end.
  match goal with H : dict_images [] _ |- _ => inversion H; subst end.
  repeat match goal with H : key_text (KStr _) _ |- _ => inversion H; clear H; subst end.
  repeat match goal with H : json_image (VStr _) _ |- _ => apply str_image in H; subst end. reflexivity.
Qed.
Lemma built_same k root id id' i s name (r r' : record) : built k root id i s name r -> same_record i id' r r' -> built k root id' i s name r'.
Proof.
  intros (_ & _ & T & ST & A1 & A2 & T1 & T2) (I & SI & A & TG & TR & SY). rewrite ST in SY. apply str_image in SY.
  split; [exact I|]. split; [exact SI|]. split; [congruence|]. split; [exact SY|].
  split; [intros E; rewrite A; auto|]. split; [intros E; rewrite A; auto|]. split.
  - intros t E. rewrite (T1 t E) in TR. exact (str_image _ _ TR).
  - intros E. rewrite (T2 E) in TR. inversion TR. reflexivity.
Qed.
Lemma sortedNoDup l : StronglySorted words_spec.before l -> NoDup l.
Proof.
  induction 1 as [|x l S IH F]; constructor; [|exact IH]. intros I. rewrite Forall_forall in F. specialize (F x I). unfold words_spec.before in F.
  clear -F. induction x as [|c x IH]; cbn [String.compare] in F; [discriminate|]. unfold Ascii.compare in F. rewrite N.compare_refl in F. auto.
Qed.
Lemma corpus_again k root lines id id' (d d' : database) : corpus k root lines "sound" id d -> d_id d' = id' -> same_database true d d' ->
  catalogue k root lines id' d'.
Proof.
  intros (_ & RT & TG & SS & SW & IN & LN & K) I (RT' & TG' & SP' & IN' & LN' & K'). split; [exact I|]. rewrite RT in RT'. split; [exact (str_image _ _ RT')|].
  split; [congruence|]. rewrite SP'. split; [exact SS|]. split.
  { intros s. rewrite SW. unfold wanted. intuition discriminate. }
  split.
  { clear -IN IN'. revert IN'. generalize (d_spkrs_info d'). induction IN as [|s v ss vs A _ IH]; intros l F; inversion F as [|? ? ? ? B F']; subst; constructor; [|auto].
    rewrite (info_same _ _ _ _ A B). exact A. }
  split; [congruence|]. intros i s N. destruct (K i s N) as (names & rs & A & B & C & D). destruct (K' i rs A) as (read & rs' & A' & B' & (P & S & _)).
  rewrite I in B'.
  assert (F : Forall2 (fun r name => built k root id' i s name r) read names).
  { clear -D B'. revert read B'. induction D as [|n r names rs X _ IH]; intros read F; inversion F as [|? ? ? ? Y F']; subst; constructor; [|auto]. eapply built_same; eassumption. }
  destruct (Permutation_Forall2 P F) as (names' & P' & F'). exists names', rs'. split; [exact A'|].
  split; [eapply Permutation_NoDup; [exact P'|apply sortedNoDup, B]|]. split.
  { intros name. unfold of_speaker. rewrite <- C. split; apply Permutation_in; [apply Permutation_sym|]; exact P'. }
  split; [|exact S]. clear -F'. induction F'; constructor; auto.
Qed.
Lemma corpus_sortable k root lines id (d : database) : corpus k root lines "sound" id d -> no_lone_text k root -> sortable d.
Proof.
  intros (_ & RT & TG & SS & SW & IN & LN & K) NL rs J. apply In_nth_error in J. destruct J as (i & J).
  assert (LI : i < List.length (d_records d)) by (apply nth_error_Some; congruence).
  destruct (nth_error (d_spkrs d) i) as [s|] eqn:N; [|apply nth_error_None in N; lia].
  destruct (K i s N) as (names & rs' & A & B & C & D). assert (rs' = rs) by congruence. subst rs'.
  assert (HD : has_directory k (path_join root "wav48") s). { apply nth_error_In, SW in N. destruct N as [(_ & H)|[(H & _)|(H & _)]]; [exact H|discriminate|discriminate]. }
  destruct (NL s HD) as [H|H].
  - right. intros r I. clear -D C H I. assert (forall n, In n names -> of_speaker k root s n) by (intros n G; apply C, G). clear C.
    induction D as [|n x names rs (_ & _ & _ & _ & A1 & _) _ IH]; [destruct I|]. destruct I as [<-|I]; [|apply IH; [exact I|intros m G; apply H0; right; exact G]].
    eexists. apply A1. apply H, H0. left. reflexivity.
  - left. rewrite <- (objects_read.Forall2_length' D). apply sortedNoDup in B. destruct names as [|a [|b names]]; cbn [List.length]; [lia|lia|]. exfalso.
    inversion B as [|? ? NI _]; subst. apply NI. left. symmetry. apply H; apply C; cbn; auto.
Qed.
(** The sounds of the codebook. *)
Lemma catalogue_dir (d : database) root i s : d_root d = VStr root -> nth_error (d_spkrs d) i = Some s ->
  vctk_model.get_wav_dir d (Z.of_nat i) = Ok (path_join (path_join root "wav48") ("p" ++ s)).
Proof. intros RT N. unfold vctk_model.get_wav_dir. exact (dir_of d root "wav48" i s RT N). Qed.
Lemma catalogue_sounds k root lines id (d : database) : catalogue k root lines id d ->
  (forall s name, has_directory k (path_join root "wav48") s -> of_speaker k root s name -> k_exists k (sound_of root s name) = true) ->
  exists l, codebook_files d = Ok l /\ List.length l = List.length (List.concat (d_records d)) /\
    forall f, In f l <-> exists s name, has_directory k (path_join root "wav48") s /\ of_speaker k root s name /\ f = sound_of root s name.
Proof.
  intros (I & RT & _ & _ & SW & _ & LN & K) A.
  assert (R1 : forall r, In r (List.concat (d_records d)) -> exists s name, has_directory k (path_join root "wav48") s /\ of_speaker k root s name /\
    vctk_model.get_audio_path d r = Ok (sound_of root s name)).
  { intros r J. apply in_concat in J. destruct J as (rs & J & IR). apply In_nth_error in J. destruct J as (i & J).
    assert (LI : i < List.length (d_records d)) by (apply nth_error_Some; congruence).
    destruct (nth_error (d_spkrs d) i) as [s|] eqn:N; [|apply nth_error_None in N; lia].
    destruct (K i s N) as (names & rs' & G & _ & C & D & _). assert (rs' = rs) by congruence. subst rs'.
    pose proof (proj1 (SW s) (nth_error_In _ _ N)) as HD. exists s.
    assert (B : exists name, In name names /\ built k root id i s name r).
    { clear -D IR. induction D as [|n x names rs X _ IH]; [destruct IR|]. destruct IR as [<-|IR]; [exists n; split; [left; reflexivity|exact X]|].
      destruct (IH IR) as (m & P & Q). exists m. split; [right; exact P|exact Q]. }
    destruct B as (name & IN & (_ & SI & _ & _ & A1 & _)). exists name. split; [exact HD|]. split; [apply C, IN|].
    unfold vctk_model.get_audio_path. rewrite SI, (catalogue_dir d root i s RT N). cbn [bind]. rewrite A1; [reflexivity|]. apply (A s name HD), C, IN. }
  assert (R2 : forall s name, has_directory k (path_join root "wav48") s -> of_speaker k root s name -> exists r, In r (List.concat (d_records d)) /\
    vctk_model.get_audio_path d r = Ok (sound_of root s name)).
  { intros s name HD OS. pose proof (proj2 (SW s) HD) as J. apply In_nth_error in J. destruct J as (i & N). destruct (K i s N) as (names & rs & G & _ & C & D & _).
    assert (B : exists r, In r rs /\ built k root id i s name r).
    { apply C in OS. clear -D OS. induction D as [|n x names rs X _ IH]; [destruct OS|]. destruct OS as [->|OS]; [exists x; split; [left; reflexivity|exact X]|].
      destruct (IH OS) as (m & P & Q). exists m. split; [right; exact P|exact Q]. }
    destruct B as (r & IR & (_ & SI & _ & _ & A1 & _)). exists r. split; [apply in_concat; exists rs; split; [eapply nth_error_In; exact G|exact IR]|].
    unfold vctk_model.get_audio_path. rewrite SI, (catalogue_dir d root i s RT N). cbn [bind]. rewrite A1; [reflexivity|]. apply (A s name HD OS). }
  unfold codebook_files.
  assert (M : exists l, mapM (vctk_model.get_audio_path d) (List.concat (d_records d)) = Ok l /\ Forall2 (fun r f => vctk_model.get_audio_path d r = Ok f) (List.concat (d_records d)) l).
  { clear -R1. induction (List.concat (d_records d)) as [|r l IH]; [exists []; split; [reflexivity|constructor]|]. destruct (R1 r (or_introl eq_refl)) as (s & n & _ & _ & E).
    destruct IH as (fl & M & F); [intros x J; apply R1; right; exact J|]. exists (sound_of root s n :: fl). cbn [mapM]. rewrite E. cbn [bind]. rewrite M. split; [reflexivity|constructor; assumption]. }
  destruct M as (l & M & F). exists l. split; [exact M|]. split; [symmetry; exact (objects_read.Forall2_length' F)|]. intros f. split.
  - intros J. assert (G : exists r, In r (List.concat (d_records d)) /\ vctk_model.get_audio_path d r = Ok f).
    { clear -F J. induction F as [|r x rs l X _ IH]; [destruct J|]. destruct J as [->|J]; [exists r; split; [left; reflexivity|exact X]|].
      destruct (IH J) as (m & P & Q). exists m. split; [right; exact P|exact Q]. }
    destruct G as (r & IR & E). destruct (R1 r IR) as (s & name & HD & OS & E'). exists s, name. split; [exact HD|]. split; [exact OS|congruence].
  - intros (s & name & HD & OS & ->). destruct (R2 s name HD OS) as (r & IR & E). clear -F IR E.
    induction F as [|x y rs l X _ IH]; [destruct IR|]. destruct IR as [->|IR]; [left; congruence|right; auto].
Qed.
Lemma vctk_written k lines db_dir id arg (fs : files) : well_formed k (abspath (path_join db_dir "VCTK-Corpus")) lines ->
  let root := abspath (path_join db_dir "VCTK-Corpus") in
  exists fs', run_parse_vctk abspath k db_dir id arg fs = (fs', Ok tt) /\
    (forall id', no_lone_text k root -> exists d, vctk_model.load fs' db_dir id' (vctk_arg db_dir arg) = Ok d /\ catalogue k root lines id' d) /\
    (forall id' s name name', has_directory k (path_join root "wav48") s -> of_speaker k root s name -> of_speaker k root s name' -> name <> name' ->
       k_exists k (sound_of root s name) = false -> vctk_model.load fs' db_dir id' (vctk_arg db_dir arg) = Err TypeError) /\
    forall p, p <> vctk_file db_dir arg -> dict_get String.eqb fs' p = dict_get String.eqb fs p.
Proof.
  intros WF root. destruct (all_built (Arr := Arr) k root lines "sound" id WF ltac:(auto)) as (d & E & CO & SV).
  set (name := vctk_file db_dir arg). destruct (written_name d fs name SV) as (v & W). set (fs' := dict_set String.eqb fs name (Some v)) in *.
  assert (NM : match vctk_arg db_dir arg with Some f => f | None => path_join (path_join db_dir "VCTK-Corpus") "VCTK.json" end = name).
  { unfold vctk_arg, name, vctk_file. destruct arg; reflexivity. }
  assert (RL : forall id', (sortable d -> exists d', vctk_model.load fs' db_dir id' (vctk_arg db_dir arg) = Ok d' /\ d_id d' = id' /\ consistent d' /\ same_database true d d') /\
    (forall rs r, In rs (d_records d) -> 2 <= List.length rs -> In r rs -> r_audio r = VNone -> vctk_model.load fs' db_dir id' (vctk_arg db_dir arg) = Err TypeError)).
  { intros id'. destruct (reload d fs db_dir id' (vctk_arg db_dir arg) SV) as (fs2 & W2 & H). rewrite NM, W in W2. injection W2 as <-. exact H. }
  assert (OK : forall id', no_lone_text k root -> exists d, vctk_model.load fs' db_dir id' (vctk_arg db_dir arg) = Ok d /\ catalogue k root lines id' d).
  { intros id' NL. destruct (proj1 (RL id') (corpus_sortable _ _ _ _ _ CO NL)) as (d' & L & I & _ & SD). exists d'. split; [exact L|]. eapply corpus_again; eassumption. }
  exists fs'. split; [|split; [exact OK|split]].
  - unfold run_parse_vctk. fold root. unfold default_vctk_dir. fold root. rewrite E. exact W.
  - intros id' s a b HD A B AB X. destruct CO as (_ & _ & _ & _ & SW & _ & LN & K). assert (I : In s (d_spkrs d)) by (apply SW; left; auto).
    apply In_nth_error in I. destruct I as (i & I). destruct (K i s I) as (names & rs & N & SS & C & D).
    assert (IA : In a names) by (apply C, A). assert (IB : In b names) by (apply C, B).
    assert (R : exists r, In r rs /\ r_audio r = VNone).
    { clear -IA D X. induction D as [|n x names rs (_ & _ & _ & _ & _ & A2 & _) _ IH]; [destruct IA|]. destruct IA as [->|IA].
      - exists x. split; [left; reflexivity|]. apply A2, X.
      - destruct (IH IA) as (r & G & H). exists r. split; [right; exact G|exact H]. }
    destruct R as (r & IR & AR). eapply (proj2 (RL id')); [eapply nth_error_In; exact N| |exact IR|exact AR]. rewrite <- (objects_read.Forall2_length' D).
    destruct names as [|x [|y names]]; cbn [List.length]; [destruct IA| |lia]. destruct IA as [->|[]], IB as [->|[]]. congruence.
  - intros p N. unfold fs'. rewrite sget_set. destruct (String.eqb_spec name p) as [->|_]; [congruence|reflexivity].
Qed.
Lemma vctk_stops k db_dir id arg (fs : files) : let root := abspath (path_join db_dir "VCTK-Corpus") in
  (k_lines k (path_join root "speaker-info.txt") = None -> run_parse_vctk abspath k db_dir id arg fs = (fs, Err IOError)) /\
  (forall lines l, k_lines k (path_join root "speaker-info.txt") = Some lines -> In l lines ->
     ~ (exists s a g c region, words l (s :: a :: g :: c :: region)) -> run_parse_vctk abspath k db_dir id arg fs = (fs, Err ValueError)).
Proof.
  intros root. unfold run_parse_vctk, default_vctk_dir. fold root. split.
  - intros H. rewrite missing; [reflexivity|left; exact H].
  - intros lines l L I N. rewrite (bad_line _ _ _ lines l _ L I N). reflexivity.
Qed.
End Proofs.
