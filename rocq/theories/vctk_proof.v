(** * Proofs on the VCTK databases. *)

From Coq Require Import List ZArith Arith Bool String Ascii Sorted Permutation Lia.
Import ListNotations.
From Verif Require Import Py Py_proof logger_model logger_spec serial_model serial_spec sound_model sound_spec sound_proof sound_file
  acorns_proof acorns_root objects_model objects_spec objects_proof words_model words_spec words_text vctk_model vctk_spec vctk_text.
Local Open Scope nat_scope.
Local Open Scope string_scope.

(** ** Speakers of a directory *)
Lemma p_inj a b : "p" ++ a = "p" ++ b -> a = b.
Proof. cbn [append]. congruence. Qed.
Definition without_p (d : string) : list string := match d with String "p" s => [s] | _ => [] end.
Lemma without_p_spec d s : In s (without_p d) <-> d = "p" ++ s.
Proof.
  split.
  - destruct d as [|[[|] [|] [|] [|] [|] [|] [|] [|]] d]; cbn [without_p In]; try (intros []; fail). intros [<-|[]]. reflexivity.
  - intros ->. left. reflexivity.
Qed.
Lemma without_p_one d : without_p d = [] \/ exists s, without_p d = [s] /\ d = "p" ++ s.
Proof.
  destruct (without_p d) as [|s l] eqn:E; [auto|]. right. exists s. assert (I : In s (without_p d)) by (rewrite E; left; reflexivity).
  apply without_p_spec in I. subst d. cbn in E. injection E as <-. auto.
Qed.
Lemma without_p_nodup l : NoDup l -> NoDup (flat_map without_p l).
Proof.
  induction 1 as [|d l N _ IH]; cbn [flat_map]; [constructor|]. destruct (without_p_one d) as [->|(s & -> & ->)]; [exact IH|].
  cbn [app]. constructor; [|exact IH]. intros I. apply in_flat_map in I. destruct I as (d' & I & J). apply without_p_spec in J. congruence.
Qed.
Lemma names_from k dir names : k_list k dir = Some names -> exists l, speaker_names_from k dir = Ok l /\
  (forall s, In s l <-> has_directory k dir s) /\ (NoDup names -> NoDup l).
Proof.
  intros E. unfold speaker_names_from. rewrite E. eexists. split; [reflexivity|]. fold without_p. split.
  - intros s. rewrite in_flat_map. split.
    + intros (d & I & J). apply without_p_spec in J. subst d. apply filter_In in I. exists names. tauto.
    + intros (ns & E' & I & D). assert (ns = names) by congruence. subst ns. exists ("p" ++ s). split; [apply filter_In; auto|apply without_p_spec; reflexivity].
  - intros N. apply without_p_nodup, NoDup_filter, N.
Qed.

(** ** Records of a directory *)
Lemma records_from k dir ext r : ext <> "" -> In r (records_list_from k dir ext) <-> listed k dir ext r.
Proof.
  intros NE. unfold records_list_from, listed. destruct (k_list k dir) as [names|] eqn:E.
  - rewrite in_map_iff. unfold files_in. split.
    + intros (f & <- & I). apply filter_In in I. destruct I as (I & H). apply in_map_iff in I. destruct I as (n & <- & I).
      apply andb_prop in H. destruct H as (H1 & H2). apply String.eqb_eq in H2. fold (drop_first (lower (extension (path_join dir n)))) in H2.
      apply (extension_spec _ _ NE) in H2. exists names, n. rewrite record_name_spec. auto.
    + intros (ns & n & E' & I & H1 & H2 & H3). assert (ns = names) by congruence. subst ns. apply record_name_spec in H3. exists (path_join dir n).
      split; [congruence|]. apply filter_In. split; [apply in_map, I|]. rewrite H1. cbn [andb]. apply String.eqb_eq.
      fold (drop_first (lower (extension (path_join dir n)))). apply (extension_spec _ _ NE), H2.
  - split; [intros []|]. intros (ns & n & E' & _). discriminate.
Qed.

Section VCTK.
Context {Arr : Type}.
Notation database := (database Arr).
Notation record := (record Arr).
Notation val := (val Arr).

(** ** Speakers of the file *)
Definition parsed (line : string) : string * val :=
  match split line with
  | id :: age :: genre :: accent :: region =>
      (id, VDict [(KStr "age", VStr age); (KStr "genre", VStr genre); (KStr "accent", VStr accent);
                  (KStr "region", VStr (String.concat " " region))])
  | _ => ("", VNone)
  end.
Definition four (line : string) : Prop := exists s a g c region, words line (s :: a :: g :: c :: region).
Lemma parse_four l : four l -> parse_speaker_info l = Ok (parsed l).
Proof. intros (s & a & g & c & rg & W). apply words_iff in W. unfold parse_speaker_info, parsed. rewrite W. reflexivity. Qed.
Lemma parse_not l : ~ four l -> @parse_speaker_info Arr l = Err ValueError.
Proof.
  intros N. unfold parse_speaker_info. destruct (split l) as [|s [|a [|g [|c rg]]]] eqn:E; try reflexivity.
  exfalso. apply N. exists s, a, g, c, rg. apply words_iff, E.
Qed.
Lemma parse_all lines : (forall l, In l lines -> four l) -> mapM (@parse_speaker_info Arr) lines = Ok (map parsed lines).
Proof.
  induction lines as [|l lines IH]; intros H; cbn [mapM map]; [reflexivity|]. rewrite (parse_four l (H l (or_introl eq_refl))). cbn [bind].
  rewrite IH by (intros; apply H; right; assumption). reflexivity.
Qed.
Lemma parse_bad lines l : In l lines -> ~ four l -> mapM (@parse_speaker_info Arr) lines = Err ValueError.
Proof.
  induction lines as [|x lines IH]; intros I N; [destruct I|]. cbn [mapM]. destruct (split x) eqn:S.
  - rewrite (parse_not x); [reflexivity|]. intros (s & a & g & c & rg & W). apply words_iff in W. congruence.
  - destruct (@parse_speaker_info Arr x) as [v|e] eqn:E.
    + cbn [bind]. destruct I as [->|I]; [rewrite (parse_not l N) in E; discriminate|]. rewrite (IH I N). reflexivity.
    + unfold parse_speaker_info in E. destruct (split x) as [|? [|? [|? [|? ?]]]]; cbn [bind]; congruence.
Qed.
Definition table (lines : list string) : list (string * val) := fold_left (fun d kv => dict_set String.eqb d (fst kv) (snd kv)) (map parsed lines) [].
Lemma table_snoc lines l : table (lines ++ [l])%list = dict_set String.eqb (table lines) (fst (parsed l)) (snd (parsed l)).
Proof. unfold table. rewrite map_app, fold_left_app. reflexivity. Qed.
Lemma about_parsed s l : four l -> about s l <-> fst (parsed l) = s.
Proof.
  intros (s' & a & g & c & rg & W). apply words_iff in W. unfold parsed. rewrite W. cbn [fst]. split.
  - intros (ws & W'). apply words_iff in W'. congruence.
  - intros <-. exists (a :: g :: c :: rg). apply words_iff, W.
Qed.
Lemma table_info lines s : (forall l, In l lines -> four l) ->
  info_of lines s (match dict_get String.eqb (table lines) s with Some i => i | None => VNone end).
Proof.
  induction lines as [|l lines IH] using rev_ind; intros H; [right; split; [intros l []|reflexivity]|].
  assert (FL : four l) by (apply H, in_or_app; right; left; reflexivity).
  rewrite table_snoc, sget_set. destruct (String.eqb_spec (fst (parsed l)) s) as [E|N].
  - left. destruct FL as (s' & a & g & c & rg & W). exists lines, l, [], a, g, c, rg. assert (W' := W). apply words_iff in W'. unfold parsed in E |- *. rewrite W' in E |- *.
    cbn [fst snd] in E |- *. subst s'. split; [reflexivity|]. split; [exact W|]. split; [intros l' []|reflexivity].
  - destruct IH as [(a & x & b & age & g & c & rg & E & W & NB & V)|(NB & V)]; [intros; apply H, in_or_app; auto| |].
    + left. exists a, x, (b ++ [l])%list, age, g, c, rg. split; [rewrite E, <- app_assoc; reflexivity|]. split; [exact W|]. split; [|exact V].
      intros l' I. apply in_app_or in I. destruct I as [I|[<-|[]]]; [auto|]. intros A. apply (about_parsed s l FL) in A. contradiction.
    + right. split; [|exact V]. intros l' I. apply in_app_or in I. destruct I as [I|[<-|[]]]; [auto|]. intros A. apply (about_parsed s l FL) in A. contradiction.
Qed.
Lemma set_in {V} (d : list (string * V)) k v x : In x (map fst (dict_set String.eqb d k v)) <-> x = k \/ In x (map fst d).
Proof.
  induction d as [|(a, y) d IH]; cbn [dict_set map fst In]; [intuition|]. destruct (String.eqb_spec a k) as [->|N]; cbn [map fst In]; [intuition|]. rewrite IH. intuition.
Qed.
Lemma set_nodup {V} (d : list (string * V)) k v : NoDup (map fst d) -> NoDup (map fst (dict_set String.eqb d k v)).
Proof.
  induction d as [|(a, y) d IH]; cbn [dict_set map fst]; intros H; [repeat constructor; intros []|]. inversion H as [|? ? N H']; subst.
  destruct (String.eqb_spec a k) as [->|NE]; cbn [map fst]; constructor; auto. intros I. apply set_in in I. destruct I as [->|I]; contradiction.
Qed.
Lemma table_keys lines : (forall l, In l lines -> four l) -> NoDup (map fst (table lines)) /\
  forall s, In s (map fst (table lines)) <-> exists l, In l lines /\ about s l.
Proof.
  induction lines as [|l lines IH] using rev_ind; intros H; [split; [constructor|]; intros s; split; [intros []|intros (l & [] & _)]|].
  assert (FL : four l) by (apply H, in_or_app; right; left; reflexivity). destruct IH as (ND & K); [intros; apply H, in_or_app; auto|].
  rewrite table_snoc. split; [apply set_nodup, ND|]. intros s. rewrite set_in, K. split.
  - intros [->|(x & I & A)]; [exists l; split; [apply in_or_app; right; left; reflexivity|apply about_parsed; auto]|exists x; split; [apply in_or_app; auto|exact A]].
  - intros (x & I & A). apply in_app_or in I. destruct I as [I|[<-|[]]]; [right; eauto|left]. symmetry. apply about_parsed; assumption.
Qed.

(** ** Records *)
Lemma nth_py {A} (l : list A) i x : nth_error l i = Some x -> py_nth l (Z.of_nat i) = Ok x.
Proof.
  intros E. unfold py_nth. rewrite norm_index_nonneg. assert (i < List.length l) by (apply nth_error_Some; congruence).
  rewrite (proj2 (Nat.ltb_lt _ _) H). cbn [bind]. rewrite E. reflexivity.
Qed.
Lemma dir_of (d : database) root kind i s : d_root d = VStr root -> nth_error (d_spkrs d) i = Some s ->
  get_dir kind d (Z.of_nat i) = Ok (path_join (path_join root kind) ("p" ++ s)).
Proof. intros R E. unfold get_dir, get_speaker_dir. rewrite (nth_py _ _ _ E). cbn [bind]. rewrite R. reflexivity. Qed.
Lemma one_record k root s (d : database) R l name : consistent d -> d_root d = VStr root -> nth_error (d_spkrs d) (List.length R) = Some s ->
  d_records d = (R ++ [l])%list -> exists r, build_record k name (List.length R) d = (with_records d (R ++ [l ++ [r]])%list, Ok tt) /\
  built k root (d_id d) (List.length R) s name r.
Proof.
  intros C RT N E. set (file := "p" ++ s ++ "_" ++ name).
  set (wav := path_join (path_join (path_join root "wav48") ("p" ++ s)) (file ++ ".wav")).
  set (txt := path_join (path_join (path_join root "txt") ("p" ++ s)) (file ++ ".txt")).
  exists (mkRecord (d_id d) (Z.of_nat (List.length R)) (if k_exists k wav then VStr (file ++ ".wav") else VNone) []
    (match k_text k txt with Some t => VStr t | None => VNone end) (VStr "ADS")). split.
  - unfold build_record, bindA, lift. unfold get_txt_dir, get_wav_dir. rewrite !(dir_of d root _ _ s RT N). unfold get_speaker_dir. rewrite (nth_py _ _ _ N).
    cbn [bind]. unfold add_record. cbn [r_db r_tags existsb]. rewrite Nat.eqb_refl. cbn [negb].
    unfold append_record, py_nth, py_set. rewrite E, app_length. cbn [r_spkr_id List.length]. rewrite norm_index_nonneg.
    replace (List.length R <? List.length R + 1)%nat with true by (symmetry; apply Nat.ltb_lt; lia). cbn [bind].
    rewrite nth_error_app2, Nat.sub_diag by lia. cbn [nth_error bind]. rewrite list_set_last. reflexivity.
  - unfold built. fold file. fold wav. fold txt. cbn [r_db r_spkr_id r_tags r_style r_audio r_trans]. do 4 (split; [reflexivity|]).
    split; [intros ->; reflexivity|]. split; [intros ->; reflexivity|]. split; [intros t ->; reflexivity|intros ->; reflexivity].
Qed.
Lemma all_records k root s names : forall (d : database) R l, consistent d -> d_root d = VStr root -> nth_error (d_spkrs d) (List.length R) = Some s ->
  d_records d = (R ++ [l])%list -> exists rs, iterA (fun r => build_record k r (List.length R)) names d = (with_records d (R ++ [l ++ rs])%list, Ok tt) /\
  consistent (with_records d (R ++ [l ++ rs])%list) /\ Forall2 (built k root (d_id d) (List.length R) s) names rs.
Proof.
  induction names as [|n names IH]; intros d R l C RT N E; cbn [iterA].
  - exists []. rewrite app_nil_r, <- E. destruct d; cbn in *. auto.
  - destruct (one_record k root s d R l n C RT N E) as (r & B & S).
    assert (C1 : consistent (with_records d (R ++ [l ++ [r]])%list)).
    { destruct C as (A1 & A2 & A3 & L1 & L2 & B1). rewrite E in L1, B1. rewrite app_length in L1. cbn [List.length] in L1.
      repeat (split; [try assumption; cbn [with_records d_records d_spkrs d_spkrs_info]; rewrite ?app_length; cbn [List.length]; try lia|]).
      intros rs x I J. cbn [with_records d_records d_id] in *. apply in_app_or in I. destruct I as [I|[<-|[]]]; [apply (B1 rs); [apply in_or_app; auto|exact J]|].
      apply in_app_or in J. destruct J as [J|[<-|[]]]; [apply (B1 l); [apply in_or_app; right; left; reflexivity|exact J]|apply S]. }
    destruct (IH (with_records d (R ++ [l ++ [r]])%list) R (l ++ [r])%list C1 RT N eq_refl) as (rs & E2 & C2 & F2).
    exists (r :: rs). rewrite <- app_assoc in E2, C2. cbn [app] in E2, C2. split; [eapply bind_step; [exact B|exact E2]|]. split; [exact C2|].
    constructor; [exact S|exact F2].
Qed.

(** ** Speakers *)
Definition files_of (k : disk) (root s : string) : list string :=
  sort_strings (nodup string_dec (records_list_from k (path_join (path_join root "wav48") ("p" ++ s)) "wav" ++
                                  records_list_from k (path_join (path_join root "txt") ("p" ++ s)) "txt")%list).
Lemma files_of_ok k root s : StronglySorted before (files_of k root s) /\
  forall r, In r (files_of k root s) <-> listed k (path_join (path_join root "wav48") ("p" ++ s)) "wav" r \/
                                         listed k (path_join (path_join root "txt") ("p" ++ s)) "txt" r.
Proof.
  split; [apply sort_sorted, NoDup_nodup|]. intros r. unfold files_of. rewrite sort_in, nodup_In, in_app_iff, !records_from by discriminate. reflexivity.
Qed.
Definition looked_up (info : list (string * val)) (s : string) : val := match dict_get String.eqb info s with Some i => i | None => VNone end.
Lemma all_speakers k root info ss : forall d : database, consistent d -> d_root d = VStr root -> NoDup (d_spkrs d ++ ss)%list -> exists d' recs,
  iterA (read_speaker k info) ss d = (d', Ok tt) /\ consistent d' /\ d_id d' = d_id d /\ d_root d' = VStr root /\ d_tags d' = d_tags d /\
  d_spkrs d' = (d_spkrs d ++ ss)%list /\ d_spkrs_info d' = (d_spkrs_info d ++ map (looked_up info) ss)%list /\
  d_records d' = (d_records d ++ recs)%list /\ List.length recs = List.length ss /\
  forall j s, nth_error ss j = Some s -> exists rs, nth_error recs j = Some rs /\
    Forall2 (built k root (d_id d) (List.length (d_records d) + j) s) (files_of k root s) rs.
Proof.
  induction ss as [|s ss IH]; intros d C RT ND; cbn [iterA].
  - exists d, []. cbn [map]. rewrite !app_nil_r. split; [reflexivity|]. repeat (split; [first [assumption|reflexivity]|]). intros [|j] s; discriminate.
  - assert (N : ~ In s (d_spkrs d)) by (apply NoDup_remove_2 in ND; intros I; apply ND, in_or_app; auto).
    destruct (add_speaker_new d s (looked_up info s) C N) as (d1 & E1 & C1 & (I1 & _) & T1 & _ & RT1 & S1 & F1 & R1).
    assert (LR : List.length (d_records d) = List.length (d_spkrs d)) by apply C.
    assert (N1 : nth_error (d_spkrs d1) (List.length (d_records d)) = Some s) by (rewrite S1, LR, nth_error_app2, Nat.sub_diag by lia; reflexivity).
    assert (RT1' : d_root d1 = VStr root) by congruence.
    destruct (all_records k root s (files_of k root s) d1 (d_records d) [] C1 RT1' N1 R1) as (rs & E2 & C2 & F2).
    set (d2 := with_records d1 (d_records d ++ [[] ++ rs])%list) in *.
    destruct (IH d2 C2) as (d3 & recs & E3 & C3 & I3 & RT3 & T3 & S3 & F3 & R3 & L3 & K3).
    { exact RT1'. }
    { cbn [d2 with_records d_spkrs]. rewrite S1, <- app_assoc. exact ND. }
    cbn [d2 with_records d_id d_root d_tags d_spkrs d_spkrs_info d_records app] in *.
    exists d3, (rs :: recs). split.
    + eapply bind_step; [|exact E3]. unfold read_speaker. eapply bind_step; [exact E1|].
      rewrite <- LR. eapply bind_step; [unfold lift, get_wav_dir, get_txt_dir; rewrite !(dir_of d1 root _ _ s RT1' N1); reflexivity|exact E2].
    + split; [exact C3|]. split; [congruence|]. split; [exact RT3|]. split; [congruence|].
      split; [rewrite S3, S1, <- app_assoc; reflexivity|]. split; [rewrite F3, F1, <- app_assoc; reflexivity|].
      split; [rewrite R3, <- app_assoc; reflexivity|]. split; [cbn; lia|].
      intros [|j] x; cbn [nth_error].
      * intros [= <-]. exists rs. rewrite Nat.add_0_r, <- I1. auto.
      * intros H. destruct (K3 j x H) as (rd & A & B). exists rd. split; [exact A|]. rewrite app_length, I1 in B. cbn [List.length] in B.
        replace (List.length (d_records d) + S j) with (List.length (d_records d) + 1 + j) by lia. exact B.
Qed.

(** ** The whole *)
Definition start (k : disk) (root : string) (lines lw lt : list string) : Prop :=
  k_lines k (path_join root "speaker-info.txt") = Some lines /\ (forall l, In l lines -> four l) /\
  k_list k (path_join root "wav48") = Some lw /\ k_list k (path_join root "txt") = Some lt.
Lemma begin k root speakers lines lw lt (d : database) z : start k root lines lw lt ->
  (forall in_wav in_txt, speaker_names_from k (path_join root "wav48") = Ok in_wav -> speaker_names_from k (path_join root "txt") = Ok in_txt ->
    bindA (lift (if String.eqb speakers "sound" then Ok in_wav
               else if String.eqb speakers "text" then Ok in_txt
               else if String.eqb speakers "info" then Ok (map fst (table lines))
               else if String.eqb speakers "everything" then Err TypeError
               else Err ValueError))
        (fun l => iterA (read_speaker k (table lines)) (sort_strings l)) (with_root d (VStr root)) = z) ->
  from_db_root k root speakers d = z.
Proof.
  intros (L & F & W & T) H. destruct (names_from k _ _ W) as (iw & EW & _). destruct (names_from k _ _ T) as (it & ET & _).
  unfold from_db_root. eapply bind_step; [reflexivity|].
  eapply bind_step; [unfold lift, parse_speakers_info; rewrite L, (parse_all lines F); reflexivity|].
  eapply bind_step; [unfold lift; rewrite EW; reflexivity|]. eapply bind_step; [unfold lift; rewrite ET; reflexivity|].
  apply H; assumption.
Qed.
Lemma well_start k root lines : well_formed k root lines -> exists lw lt, start k root lines lw lt /\ NoDup lw /\ NoDup lt.
Proof. intros (L & F & (lw & W & NW) & (lt & T & NT)). exists lw, lt. repeat split; assumption. Qed.
Lemma info_writable lines s (v : val) : info_of lines s v -> writable v.
Proof.
  intros [(a & l & b & age & g & c & rg & _ & _ & _ & ->)|(_ & ->)]; [|eexists; constructor].
  eexists. constructor; [repeat constructor|cbn; repeat constructor; cbn; intuition discriminate].
Qed.
Lemma built_good k root id i s name (r : record) n : built k root id i s name r -> good_record n r.
Proof.
  intros (_ & _ & T & S & A1 & A2 & T1 & T2). unfold good_record. rewrite T, S. split; [intros t []|]. split; [|split; [|eexists; constructor]].
  - destruct (k_exists k _) eqn:E; [right; eexists; exact (A1 eq_refl)|left; exact (A2 eq_refl)].
  - destruct (k_text k _) as [t|] eqn:E; [rewrite (T1 t eq_refl)|rewrite (T2 eq_refl)]; eexists; constructor.
Qed.
Lemma all_built k root lines speakers id : well_formed k root lines -> speakers = "sound" \/ speakers = "text" \/ speakers = "info" ->
  exists d : database, from_db_root k root speakers (DataBase id) = (d, Ok tt) /\ corpus k root lines speakers id d /\ savable d.
Proof.
  intros WF SP. destruct (well_start k root lines WF) as (lw & lt & ST & NW & NT). pose proof ST as (L & F & W & T).
  destruct (names_from k _ _ W) as (iw & EW & SW & NDW). destruct (names_from k _ _ T) as (it & ET & STX & NDT). destruct (table_keys lines F) as (NDI & KI).
  specialize (NDW NW). specialize (NDT NT).
  set (chosen := if String.eqb speakers "sound" then iw else if String.eqb speakers "text" then it else map fst (table lines)).
  assert (NC : NoDup chosen) by (unfold chosen; destruct (String.eqb speakers "sound"); [exact NDW|]; destruct (String.eqb speakers "text"); assumption).
  assert (IC : forall s, In s chosen <-> wanted k root lines speakers s).
  { intros s. unfold chosen, wanted. destruct SP as [-> | [-> | ->]]; cbn [String.eqb Ascii.eqb Bool.eqb]; [rewrite SW|rewrite STX|rewrite KI]; intuition discriminate. }
  assert (C0 : consistent (with_root (DataBase id) (VStr root) : database)) by exact (new_consistent id).
  destruct (all_speakers k root (table lines) (sort_strings chosen) (with_root (DataBase id) (VStr root)) C0 eq_refl) as
    (d & recs & E & C & I & RT & TG & S & INF & R & LN & K).
  { apply sort_nodup, NC. }
  cbn [with_root DataBase d_id d_root d_tags d_spkrs d_spkrs_info d_records app List.length plus] in *.
  exists d. split; [|split].
  - apply (begin k root speakers lines lw lt _ _ ST). intros iw' it' EW' ET'. assert (iw' = iw) by congruence. assert (it' = it) by congruence. subst iw' it'.
    eapply bind_step; [|exact E]. unfold lift, chosen. destruct SP as [-> | [-> | ->]]; reflexivity.
  - split; [exact I|]. split; [exact RT|]. split; [exact TG|]. rewrite S, INF, R. split; [apply sort_sorted, NC|].
    split; [intros s; rewrite sort_in; apply IC|]. split.
    + clear -F. induction (sort_strings chosen); cbn [map]; constructor; [|assumption]. apply table_info, F.
    + split; [exact LN|]. intros i s N. destruct (K i s N) as (rs & N' & B). destruct (files_of_ok k root s) as (A1 & A2).
      exists (files_of k root s), rs. auto.
  - split; [exact C|]. split; [rewrite RT; eexists; constructor|]. split.
    + rewrite INF. apply Forall_forall. intros v J. apply in_map_iff in J. destruct J as (s & <- & _). eapply info_writable. apply table_info, F.
    + apply Forall_forall. intros rs J. rewrite R in J. apply In_nth_error in J. destruct J as (i & J).
      assert (LI : i < List.length recs) by (apply nth_error_Some; congruence).
      destruct (nth_error (sort_strings chosen) i) as [s|] eqn:N; [|apply nth_error_None in N; lia].
      destruct (K i s N) as (rs' & N' & B). assert (rs' = rs) by congruence. subst rs'. clear -B.
      induction B; constructor; [eapply built_good; eassumption|assumption].
Qed.
Lemma everything k root lines lw lt (d : database) : start k root lines lw lt -> exists d', from_db_root k root "everything" d = (d', Err TypeError).
Proof. intros ST. eexists. apply (begin k root "everything" lines lw lt _ _ ST). intros iw it _ _. reflexivity. Qed.
Lemma other k root speakers lines lw lt (d : database) : start k root lines lw lt -> ~ In speakers ["sound"; "text"; "info"; "everything"] ->
  exists d', from_db_root k root speakers d = (d', Err ValueError).
Proof.
  intros ST N. eexists. apply (begin k root speakers lines lw lt _ _ ST). intros iw it _ _.
  repeat match goal with |- context [String.eqb speakers ?x] => destruct (String.eqb_spec speakers x); [exfalso; apply N; subst; cbn; tauto|] end. reflexivity.
Qed.
Lemma bad_line k root speakers lines l (d : database) : k_lines k (path_join root "speaker-info.txt") = Some lines -> In l lines -> ~ four l ->
  from_db_root k root speakers d = (with_root d (VStr root), Err ValueError).
Proof.
  intros L I N. unfold from_db_root, bindA, lift, parse_speakers_info. rewrite L, (parse_bad lines l I N). reflexivity.
Qed.
Lemma missing k root speakers (d : database) :
  (k_lines k (path_join root "speaker-info.txt") = None \/
   exists lines, k_lines k (path_join root "speaker-info.txt") = Some lines /\ (forall l, In l lines -> four l) /\
     (k_list k (path_join root "wav48") = None \/ k_list k (path_join root "txt") = None)) ->
  from_db_root k root speakers d = (with_root d (VStr root), Err IOError).
Proof.
  intros H. unfold from_db_root, bindA, lift, parse_speakers_info. destruct H as [->|(lines & -> & F & H)]; [reflexivity|]. rewrite (parse_all lines F). cbn [bind].
  unfold speaker_names_from. destruct (k_list k (path_join root "wav48")); [|reflexivity]. destruct H as [H| ->]; [discriminate|reflexivity].
Qed.

(** ** Audio files *)
Lemma record_at k root lines speakers id (d : database) rs r : corpus k root lines speakers id d -> In rs (d_records d) -> In r rs ->
  exists i s name, nth_error (d_spkrs d) i = Some s /\ built k root id i s name r.
Proof.
  intros (_ & _ & _ & _ & _ & _ & LN & K) I J. apply In_nth_error in I. destruct I as (i & I).
  assert (LI : i < List.length (d_records d)) by (apply nth_error_Some; congruence).
  destruct (nth_error (d_spkrs d) i) as [s|] eqn:N; [|apply nth_error_None in N; lia].
  destruct (K i s N) as (names & rs' & N' & _ & _ & B). assert (rs' = rs) by congruence. subst rs'. clear -B J N.
  exists i, s. induction B as [|n x names rs B _ IH]; [destruct J|]. destruct J as [<-|J]; [exists n; auto|auto].
Qed.
Lemma audio_path k root lines speakers id (d : database) rs r : corpus k root lines speakers id d -> In rs (d_records d) -> In r rs ->
  (r_audio r = VNone /\ get_audio_path d r = Err TypeError) \/
  (exists a p, r_audio r = VStr a /\ get_audio_path d r = Ok p /\ k_exists k p = true).
Proof.
  intros CO I J. destruct (record_at k root lines speakers id d rs r CO I J) as (i & s & name & N & B). destruct CO as (_ & RT & _).
  destruct B as (_ & SI & _ & _ & A1 & A2 & _). unfold get_audio_path. rewrite SI. unfold get_wav_dir. rewrite (dir_of d root _ _ s RT N). cbn [bind].
  destruct (k_exists k _) eqn:E.
  - right. rewrite (A1 eq_refl). eexists _, _. split; [reflexivity|]. split; [reflexivity|exact E].
  - left. rewrite (A2 eq_refl). split; reflexivity.
Qed.
Lemma codebook k root lines speakers id (d : database) : corpus k root lines speakers id d ->
  ((forall rs r, In rs (d_records d) -> In r rs -> r_audio r <> VNone) -> exists files, codebook_files d = Ok files /\
     List.length files = List.length (List.concat (d_records d)) /\ forall f, In f files -> k_exists k f = true) /\
  (forall rs r, In rs (d_records d) -> In r rs -> r_audio r = VNone -> codebook_files d = Err TypeError).
Proof.
  intros CO. assert (H : forall r, In r (List.concat (d_records d)) -> (r_audio r = VNone /\ get_audio_path d r = Err TypeError) \/
    (exists a p, r_audio r = VStr a /\ get_audio_path d r = Ok p /\ k_exists k p = true)).
  { intros r I. apply in_concat in I. destruct I as (rs & I & J). eapply audio_path; eassumption. }
  split.
  - intros A. assert (A' : forall r, In r (List.concat (d_records d)) -> r_audio r <> VNone) by (intros r I; apply in_concat in I; destruct I as (rs & I & J); eauto).
    unfold codebook_files. clear A CO. induction (List.concat (d_records d)) as [|r l IH]; cbn [mapM]; [exists []; cbn; intuition|].
    destruct (H r (or_introl eq_refl)) as [(X & _)|(a & p & X & E & EX)]; [exfalso; apply (A' r); [left; reflexivity|exact X]|].
    destruct IH as (fs & E' & LN & F); [intros; apply H; right; assumption|intros; apply A'; right; assumption|].
    exists (p :: fs). rewrite E. cbn [bind]. rewrite E'. split; [reflexivity|]. split; [cbn; lia|]. intros f [<-|I]; auto.
  - intros rs r I J A. assert (INF : In r (List.concat (d_records d))) by (apply in_concat; eauto). unfold codebook_files. clear I J CO.
    induction (List.concat (d_records d)) as [|x l IH]; [destruct INF|]. cbn [mapM].
    destruct (H x (or_introl eq_refl)) as [(_ & ->)|(a & p & X & -> & _)]; [reflexivity|]. cbn [bind].
    destruct INF as [->|INF]; [congruence|]. rewrite IH; [reflexivity|intros; apply H; right; assumption|exact INF].
Qed.

(** ** Reading again *)
Lemma reload (d : database) fs db_dir id f : savable d ->
  let name := match f with Some f => f | None => path_join (path_join db_dir "VCTK-Corpus") "VCTK.json" end in
  exists fs', write_json d fs name = (fs', Ok tt) /\
    (sortable d -> exists d', load fs' db_dir id f = Ok d' /\ d_id d' = id /\ consistent d' /\ same_database true d d') /\
    (forall rs r, In rs (d_records d) -> 2 <= List.length rs -> In r rs -> r_audio r = VNone -> load fs' db_dir id f = Err TypeError).
Proof.
  intros SV name. destruct (loaded d fs name id SV) as (fs' & _ & _ & W & _). exists fs'. split; [exact W|]. unfold load. fold name. split.
  - intros SO. destruct (round_trip d fs name id true SV (fun _ => SO)) as (fs2 & d' & W2 & L & H). assert (fs2 = fs') by congruence. subst fs2.
    exists d'. rewrite L. auto.
  - intros rs r I LN J A. destruct (not_sorted d fs name id rs r SV I LN J A) as (fs2 & d' & W2 & L). assert (fs2 = fs') by congruence. subst fs2.
    rewrite L. reflexivity.
Qed.
End VCTK.
