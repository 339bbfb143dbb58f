(** * Proofs on the loaders of ACORNS. *)

From Coq Require Import List ZArith Arith Bool String Ascii Sorted Lia.
Import ListNotations.
From Verif Require Import Py Py_proof logger_model serial_model sound_model sound_spec sound_proof sound_file acorns_model acorns_spec acorns_proof.
Local Open Scope nat_scope.

Lemma pop_records_ok {A} : forall (recs : list (list A)) bls,
  (forall k rs bl, nth_error recs k = Some rs -> nth_error bls k = Some bl -> exists rs', pop_all bl rs = Ok rs') ->
  exists recs', pop_records recs bls = Ok recs' /\
    forall k rs bl, nth_error recs k = Some rs -> nth_error bls k = Some bl -> exists rs', pop_all bl rs = Ok rs' /\ nth_error recs' k = Some rs'.
Proof.
  induction recs as [|rs recs IH]; intros bls H.
  - exists []. split; [reflexivity|]. intros [|k]; discriminate.
  - destruct bls as [|bl bls]; [exists (rs :: recs); split; [reflexivity|intros [|k] ? ? _; discriminate]|].
    destruct (H 0 rs bl eq_refl eq_refl) as (rs' & E). destruct (IH bls) as (recs' & E' & K); [intros k; exact (H (S k))|].
    exists (rs' :: recs'). cbn [pop_records]. rewrite E. cbn [bind]. rewrite E'. split; [reflexivity|].
    intros [|k] r b; cbn [nth_error]; [|apply K]. intros [= <-] [= <-]. eauto.
Qed.

Section Load.
Context {Arr Row : Type}.
Notation database := (database Arr).
Notation record := (record Arr).
Notation files := (files Arr).

Lemma load_black py3 (fs : files) dir id year f d : load py3 fs dir id year f false = Ok d ->
  load py3 fs dir id year f true = bind (pop_records (d_records d) (blacklist_of year)) (fun rs => Ok (with_records d rs)).
Proof.
  unfold load. destruct (check_year py3 year) as [u|e]; cbn [bind]; [|discriminate].
  match goal with |- context [load_from ?a ?b ?c ?e] => destruct (load_from a b c e) as (db, [x|e']) end; [|discriminate].
  intros [= <-]. reflexivity.
Qed.
(** All speakers have enough records. *)
Definition all_enough (year : Z) (d : database) : Prop :=
  forall k rs, nth_error (d_records d) k = Some rs -> enough year (Z.of_nat k) (List.length rs).
Lemma load_ok py3 (fs : files) dir id year f d : load py3 fs dir id year f false = Ok d -> all_enough year d ->
  exists recs, load py3 fs dir id year f true = Ok (with_records d recs) /\
  forall k rs, (Z.of_nat k < n_speakers year)%Z -> nth_error (d_records d) k = Some rs ->
    exists rs', pop_all (map Z.of_nat (bad_list year (Z.of_nat k))) rs = Ok rs' /\ nth_error recs k = Some rs'.
Proof.
  intros L H. rewrite (load_black _ _ _ _ _ _ _ L).
  assert (B : forall k bl, nth_error (blacklist_of year) k = Some bl -> (Z.of_nat k < n_speakers year)%Z).
  { intros k bl E. rewrite <- blacklist_length. apply inj_lt, nth_error_Some. congruence. }
  destruct (pop_records_ok (d_records d) (blacklist_of year)) as (recs & E & K).
  - intros k rs bl R E. rewrite (blacklist_at year k (B _ _ E)) in E. injection E as <-.
    destruct (remove_bad year (Z.of_nat k) rs (H k rs R)) as (_ & l' & P & _). eauto.
  - exists recs. rewrite E. split; [reflexivity|]. intros k rs LK R. apply (K k rs _ R). apply blacklist_at, LK.
Qed.
Lemma load_short py3 (fs : files) dir id f d rs : load py3 fs dir id 1 f false = Ok d -> nth_error (d_records d) 1 = Some rs ->
  List.length rs <= 176 -> load py3 fs dir id 1 f true = Err IndexError.
Proof.
  intros L R H. rewrite (load_black _ _ _ _ _ _ _ L). destruct (d_records d) as [|r0 [|r1 recs]]; try discriminate. injection R as ->.
  cbn [blacklist_of Z.eqb Pos.eqb]. unfold BLACKLIST_Y1. cbn [pop_records]. unfold pop_all at 1. cbn [foldM bind].
  rewrite (remove_short rs H). reflexivity.
Qed.

Lemma py_nth_at {A} (l : list A) k x : nth_error l k = Some x -> py_nth l (Z.of_nat k) = Ok x.
Proof.
  intros E. assert (L : k < List.length l) by (apply nth_error_Some; congruence). unfold py_nth. rewrite norm_index_nonneg.
  apply Nat.ltb_lt in L. rewrite L. cbn [bind]. rewrite E. reflexivity.
Qed.
Lemma select (X : list Row) idx Y : picks idx X Y -> mapM (fun i => py_nth X (Z.of_nat i)) idx = Ok Y.
Proof.
  induction 1 as [|i y idx Y E _ IH]; cbn [mapM]; [reflexivity|]. rewrite (py_nth_at X i y E). cbn [bind]. rewrite IH. reflexivity.
Qed.
Lemma features_ok py3 (mats : string -> result (list Row)) dir year k X : year = 1%Z \/ year = 2%Z -> (Z.of_nat k < n_speakers year)%Z ->
  mats (path_join dir (feature_file_name year (Z.of_nat k))) = Ok X -> enough year (Z.of_nat k) (List.length X) ->
  exists idx Y, load_features py3 mats dir year (Z.of_nat k) true = Ok Y /\
    pop_all (map Z.of_nat (bad_list year (Z.of_nat k))) (seq 0 (List.length X)) = Ok idx /\
    good_positions year (Z.of_nat k) (List.length X) idx /\ picks idx X Y.
Proof.
  intros HY HK HX HE. unfold load_features. rewrite (proj1 (year_checked py3 year) HY). cbn [bind].
  rewrite (proj1 (speaker_checked py3 year (Z.of_nat k))) by lia. cbn [bind]. rewrite HX. cbn [bind].
  rewrite (py_nth_at _ _ _ (blacklist_at year k HK)). cbn [bind].
  destruct (remove_bad year (Z.of_nat k) X HE) as (idx & Y & P & G & PK).
  destruct (remove_bad year (Z.of_nat k) (seq 0 (List.length X))) as (_ & idx' & P' & _); [rewrite seq_length; exact HE|].
  pose proof (picks_self X) as PS. destruct (pop_all_related _ (map Z.of_nat (bad_list year (Z.of_nat k))) _ _ PS) as [(a & b & E1 & E2 & F)|(E1 & _)];
    [|rewrite E1 in P'; discriminate].
  rewrite E1 in P'. injection P' as ->. rewrite E1. cbn [bind]. exists idx', b. split; [apply select, F|]. split; [reflexivity|]. split; [|exact F].
  destruct (pop_decreasing (bad_list year (Z.of_nat k)) (List.length X) [] (bad_list_sorted _ _) (bad_list_enough _ _ _ HE)) as (i2 & E3 & I3).
  rewrite app_nil_r, E1 in E3. injection E3 as <-. split; [apply (pop_all_sorted _ _ _ (seq_increasing 0 _) E1)|].
  intros i. rewrite I3, bad_list_in. cbn. tauto.
Qed.
Lemma last_speaker py3 (mats : string -> result (list Row)) dir year : year = 1%Z \/ year = 2%Z ->
  check_speaker py3 year (n_speakers year) = Ok tt /\
  (forall X, mats (path_join dir (feature_file_name year (n_speakers year))) = Ok X ->
    load_features py3 mats dir year (n_speakers year) false = Ok X /\
    load_features py3 mats dir year (n_speakers year) true = Err IndexError) /\
  (forall Y, load_features py3 mats dir year (n_speakers year) true <> Ok Y).
Proof.
  intros HY. assert (C : check_speaker py3 year (n_speakers year) = Ok tt).
  { apply speaker_checked. destruct (n_speakers_cases year) as [(_ & ->)|(_ & ->)]; lia. }
  assert (B : py_nth (blacklist_of year) (n_speakers year) = Err IndexError).
  { rewrite <- blacklist_length. unfold py_nth. rewrite norm_index_nonneg, Nat.ltb_irrefl. reflexivity. }
  split; [exact C|]. unfold load_features. rewrite (proj1 (year_checked py3 year) HY), C. cbn [bind]. split.
  - intros X E. rewrite E. cbn [bind]. rewrite B. auto.
  - intros Y. destruct (mats _); cbn [bind]; [rewrite B|]; discriminate.
Qed.

(** ** Year1Loader *)
Lemma F2_compose {A} (rs rs' : list A) idx : picks idx rs rs' -> forall x, In x rs' -> exists i, In i idx /\ nth_error rs i = Some x.
Proof. induction 1 as [|i y idx l E _ IH]; intros x I; [destruct I|]. destruct I as [<-|I]; [exists i; cbn; auto|]. destruct (IH x I) as (j & J & K). exists j. cbn. auto. Qed.
Lemma labels_ok (d : database) rs' : (forall r, In r rs' -> exists lab, label_of d r lab) ->
  exists labs, mapM (fun r => bind (py_nth (r_tags r) 0) (fun t => py_nth (d_tags d) t)) rs' = Ok labs /\ Forall2 (label_of d) rs' labs.
Proof.
  induction rs' as [|r rs' IH]; intros H; cbn [mapM]; [exists []; auto|].
  destruct (H r (or_introl eq_refl)) as (lab & t & rest & T & N). destruct IH as (labs & E & F); [intros x I; apply H; cbn; auto|].
  exists (lab :: labs). split; [|constructor; [exists t, rest; auto|exact F]].
  rewrite T. cbn [py_nth]. replace (py_nth (Z.of_nat t :: rest) 0) with (Ok (Z.of_nat t)) by (symmetry; exact (py_nth_at (Z.of_nat t :: rest) 0 _ eq_refl)).
  cbn [bind]. rewrite (py_nth_at _ _ _ N). cbn [bind]. rewrite E. reflexivity.
Qed.
Lemma F2_join {A B} (rs rs' : list A) idx (Q : A -> B -> Prop) ys : picks idx rs rs' -> Forall2 Q rs' ys ->
  Forall2 (fun i y => exists x, nth_error rs i = Some x /\ Q x y) idx ys.
Proof.
  intros P. revert ys. induction P as [|i x idx l E _ IH]; intros ys F; inversion F; subst; constructor; [eauto|auto].
Qed.
Lemma picks_length {A} idx (l l' : list A) : picks idx l l' -> List.length l' = List.length idx.
Proof. intros P. symmetry. exact (F2_len _ _ _ P). Qed.

(** What the loader uses, when the files are there. *)
Lemma pieces (p : place Arr Row) id d k rs X :
  load (p_py3 p) (p_files p) (p_db_dir p) id 1 None false = Ok d ->
  (forall rs1, nth_error (d_records d) 1 = Some rs1 -> 176 < List.length rs1) ->
  k < 4 -> nth_error (d_records d) k = Some rs ->
  p_mats p (path_join (p_feat_dir p) (feature_file_name 1 (Z.of_nat k))) = Ok X -> enough 1 (Z.of_nat k) (List.length X) ->
  exists recs idx idx' rs' Y, load (p_py3 p) (p_files p) (p_db_dir p) id 1 None true = Ok (with_records d recs) /\
    nth_error recs k = Some rs' /\ load_features (p_py3 p) (p_mats p) (p_feat_dir p) 1 (Z.of_nat k) true = Ok Y /\
    good_positions 1 (Z.of_nat k) (List.length rs) idx /\ picks idx rs rs' /\
    pop_all (map Z.of_nat (bad_list 1 (Z.of_nat k))) (seq 0 (List.length rs)) = Ok idx /\
    pop_all (map Z.of_nat (bad_list 1 (Z.of_nat k))) (seq 0 (List.length X)) = Ok idx' /\ picks idx' X Y.
Proof.
  intros L H1 HK R M HE.
  assert (AE : all_enough 1 d).
  { intros j r E _ J. assert (j = 1) by lia. subst j. apply (H1 r E). }
  destruct (load_ok _ _ _ _ _ _ _ L AE) as (recs & LT & K). destruct (K k rs) as (rs' & P & N); [cbn; lia|exact R|].
  destruct (features_ok (p_py3 p) (p_mats p) (p_feat_dir p) 1 k X) as (idx' & Y & F & P' & _ & PK'); [auto|cbn; lia|exact M|exact HE|].
  pose proof (picks_self rs) as PS. destruct (pop_all_related _ (map Z.of_nat (bad_list 1 (Z.of_nat k))) _ _ PS) as [(a & b & E1 & E2 & FF)|(_ & E2)];
    rewrite E2 in P; [|discriminate]. injection P as ->.
  exists recs, a, idx', rs', Y. do 3 (split; [assumption|]). split; [|auto].
  destruct (pop_decreasing (bad_list 1 (Z.of_nat k)) (List.length rs) [] (bad_list_sorted _ _) (bad_list_enough _ _ _ (AE k rs R))) as (i2 & E3 & I3).
  rewrite app_nil_r, E1 in E3. injection E3 as <-. split; [apply (pop_all_sorted _ _ _ (seq_increasing 0 _) E1)|].
  intros i. rewrite I3, bad_list_in. cbn. tauto.
Qed.

Lemma aligned (p : place Arr Row) id d k rs X :
  load (p_py3 p) (p_files p) (p_db_dir p) id 1 None false = Ok d ->
  (forall rs1, nth_error (d_records d) 1 = Some rs1 -> 176 < List.length rs1) ->
  k < 4 -> nth_error (d_records d) k = Some rs ->
  p_mats p (path_join (p_feat_dir p) (feature_file_name 1 (Z.of_nat k))) = Ok X -> List.length X = List.length rs ->
  (forall i r, nth_error rs i = Some r -> ~ bad 1 (Z.of_nat k) i -> exists lab, label_of d r lab) ->
  exists idx Y labs l1 l2 l3 l4,
    get_data p (Year1 (Z.of_nat k)) = (l1, Ok Y) /\ get_labels p id l1 = (l2, Ok labs) /\
    get_labels p id (Year1 (Z.of_nat k)) = (l3, Ok labs) /\ get_data p l3 = (l4, Ok Y) /\
    good_positions 1 (Z.of_nat k) (List.length rs) idx /\ picks idx X Y /\
    Forall2 (fun i lab => exists r, nth_error rs i = Some r /\ label_of d r lab) idx labs.
Proof.
  intros L H1 HK R M EL HL.
  assert (HE : enough 1 (Z.of_nat k) (List.length X)).
  { intros _ K. rewrite EL. assert (k = 1) by lia. subst k. apply (H1 rs R). }
  destruct (pieces p id d k rs X L H1 HK R M HE) as (recs & idx & idx' & rs' & Y & LT & N & F & G & P & E & E' & P').
  rewrite EL, E in E'. injection E' as <-.
  destruct (labels_ok d rs') as (labs & ML & FL).
  { intros r I. destruct (F2_compose _ _ _ P r I) as (i & II & NI). apply (HL i r NI). apply (proj2 G i), II. }
  assert (LN : List.length rs' = List.length Y) by (rewrite (picks_length _ _ _ P), (picks_length _ _ _ P'); reflexivity).
  set (s := Z.of_nat k) in *. set (n := List.length Y) in *. set (d' := with_records d recs) in *.
  assert (N' : py_nth (d_records d') s = Ok rs') by exact (py_nth_at _ _ _ N).
  assert (ML' : mapM (fun r => bind (py_nth (r_tags r) 0) (fun t => py_nth (d_tags d') t)) rs' = Ok labs) by exact ML.
  exists idx, Y, labs, (mkYear1 s None (Some n)), (mkYear1 s (Some d') (Some n)), (mkYear1 s (Some d') (Some n)), (mkYear1 s (Some d') (Some n)).
  split; [unfold get_data; cbn [Year1 y_speaker]; rewrite F; reflexivity|].
  split; [unfold get_labels, get_db; cbn [y_db y_speaker y_n_samples]; rewrite LT; cbn [y_speaker]; rewrite N';
          cbn [check_samples y_n_samples]; rewrite LN; unfold py_assert; rewrite Nat.eqb_refl, ML'; reflexivity|].
  split; [unfold get_labels, get_db; cbn [Year1 y_db y_speaker y_n_samples]; rewrite LT; cbn [y_speaker]; rewrite N';
          unfold check_samples; cbn [y_n_samples y_speaker y_db]; rewrite LN, ML'; reflexivity|].
  split; [unfold get_data; cbn [y_speaker]; rewrite F; cbn [check_samples y_n_samples]; unfold n, py_assert; rewrite Nat.eqb_refl; reflexivity|].
  split; [exact G|]. split; [exact P'|]. exact (F2_join _ _ _ _ _ P FL).
Qed.

Lemma kept_count year s n idx : enough year s n -> pop_all (map Z.of_nat (bad_list year s)) (seq 0 n) = Ok idx ->
  List.length idx = n - List.length (bad_list year s).
Proof.
  unfold enough, bad_list. destruct (Z.eqb_spec year 1), (Z.eqb_spec s 1); cbn [andb map]; intros H;
    try (unfold pop_all; cbn [foldM]; intros [= <-]; rewrite seq_length; cbn; lia).
  assert (L : 176 < n) by auto. unfold pop_all. cbn [foldM].
  rewrite pop_at by (rewrite seq_length; exact L). cbn [bind]. intros E.
  assert (E' : idx = firstn 176 (seq 0 n) ++ skipn 177 (seq 0 n)) by congruence. subst idx.
  rewrite app_length, firstn_length, skipn_length, seq_length. cbn [List.length]. lia.
Qed.
Lemma mismatch (p : place Arr Row) id d k rs X :
  load (p_py3 p) (p_files p) (p_db_dir p) id 1 None false = Ok d ->
  (forall rs1, nth_error (d_records d) 1 = Some rs1 -> 176 < List.length rs1) ->
  k < 4 -> nth_error (d_records d) k = Some rs ->
  p_mats p (path_join (p_feat_dir p) (feature_file_name 1 (Z.of_nat k))) = Ok X -> enough 1 (Z.of_nat k) (List.length X) ->
  List.length X <> List.length rs ->
  snd (get_labels p id (fst (get_data p (Year1 (Z.of_nat k))))) = Err AssertionError /\
  snd (get_data p (fst (get_labels p id (Year1 (Z.of_nat k))))) = Err AssertionError.
Proof.
  intros L H1 HK R M HE NL.
  destruct (pieces p id d k rs X L H1 HK R M HE) as (recs & idx & idx' & rs' & Y & LT & N & F & G & P & E & E' & P').
  assert (HR : enough 1 (Z.of_nat k) (List.length rs)) by (intros _ K; assert (k = 1) by lia; subst k; apply (H1 rs R)).
  assert (LN : List.length rs' <> List.length Y).
  { rewrite (picks_length _ _ _ P), (picks_length _ _ _ P'), (kept_count _ _ _ _ HR E), (kept_count _ _ _ _ HE E').
    pose proof (bad_list_enough _ _ _ HR) as F1. pose proof (bad_list_enough _ _ _ HE) as F2. unfold bad_list in *.
    destruct (_ && _); cbn [List.length]; [|lia]. inversion F1; inversion F2; subst. lia. }
  set (s := Z.of_nat k) in *. set (d' := with_records d recs) in *.
  assert (N' : py_nth (d_records d') s = Ok rs') by exact (py_nth_at _ _ _ N).
  split.
  - unfold get_data, Year1. cbn [y_speaker]. rewrite F. unfold check_samples at 1. cbn [y_n_samples y_speaker y_db fst].
    unfold get_labels, get_db. cbn [y_db y_speaker y_n_samples]. rewrite LT. cbn [y_speaker]. rewrite N'.
    unfold check_samples. cbn [y_n_samples]. unfold py_assert. destruct (Nat.eqb_spec (List.length Y) (List.length rs')); [congruence|]. reflexivity.
  - unfold get_labels, get_db, Year1. cbn [y_db y_speaker y_n_samples]. rewrite LT. cbn [y_speaker]. rewrite N'.
    unfold check_samples. cbn [y_n_samples y_db y_speaker fst].
    unfold get_data. cbn [y_speaker]. rewrite F. unfold check_samples. cbn [y_n_samples]. unfold py_assert.
    destruct (Nat.eqb_spec (List.length rs') (List.length Y)); [congruence|]. reflexivity.
Qed.

Lemma features_and_labels py3 (fs : files) dbdir (mats : string -> result (list Row)) dir id year f d k rs X : year = 1%Z \/ year = 2%Z ->
  load py3 fs dbdir id year f false = Ok d ->
  (year = 1%Z -> forall rs1, nth_error (d_records d) 1 = Some rs1 -> 176 < List.length rs1) ->
  (Z.of_nat k < n_speakers year)%Z -> nth_error (d_records d) k = Some rs ->
  mats (path_join dir (feature_file_name year (Z.of_nat k))) = Ok X -> List.length X = List.length rs ->
  load_features_and_labels py3 fs dbdir mats dir id year (Z.of_nat k) false f = Ok (X, map r_tags rs, d_tags d) /\
  exists idx Y labels, load_features_and_labels py3 fs dbdir mats dir id year (Z.of_nat k) true f = Ok (Y, labels, d_tags d) /\
    good_positions year (Z.of_nat k) (List.length rs) idx /\ picks idx X Y /\ picks idx (map r_tags rs) labels.
Proof.
  intros HY L H1 HK R M EL. split.
  - unfold load_features_and_labels. rewrite L. cbn [bind]. rewrite (py_nth_at _ _ _ R). cbn [bind]. unfold load_features.
    rewrite (proj1 (year_checked py3 year) HY). cbn [bind]. rewrite (proj1 (speaker_checked py3 year (Z.of_nat k))) by lia. cbn [bind].
    rewrite M. cbn [bind]. rewrite map_length, EL. unfold py_assert. rewrite Nat.eqb_refl. reflexivity.
  - assert (AE : all_enough year d) by (intros j r E Y1 J; assert (j = 1) by lia; subst j; exact (H1 Y1 r E)).
    assert (HE : enough year (Z.of_nat k) (List.length X)) by (rewrite EL; exact (AE k rs R)).
    destruct (load_ok _ _ _ _ _ _ _ L AE) as (recs & LT & K). destruct (K k rs HK R) as (rs' & P & N).
    destruct (features_ok py3 mats dir year k X HY HK M HE) as (idx & Y & F & E1 & G & PK).
    pose proof (picks_self rs) as PS. destruct (pop_all_related _ (map Z.of_nat (bad_list year (Z.of_nat k))) _ _ PS) as [(a & b & E2 & E3 & FF)|(_ & E3)];
      rewrite E3 in P; [|discriminate]. injection P as ->. rewrite <- EL, E1 in E2. injection E2 as <-.
    exists idx, Y, (map r_tags rs'). split; [|split; [rewrite <- EL; exact G|split; [exact PK|]]].
    + unfold load_features_and_labels. rewrite LT. cbn [bind with_records d_records]. rewrite (py_nth_at _ _ _ N). cbn [bind]. rewrite F. cbn [bind].
      rewrite map_length, (picks_length _ _ _ PK), (picks_length _ _ _ FF). unfold py_assert. rewrite Nat.eqb_refl. reflexivity.
    + unfold picks in *. clear -FF. induction FF as [|i r idx l E _ IH]; cbn [map]; constructor; [|exact IH]. rewrite nth_error_map, E. reflexivity.
Qed.

Lemma loaded_back py3 (d : database) (fs : files) dbdir id year f : year = 1%Z \/ year = 2%Z -> savable d -> sortable d ->
  let name := match f with Some f => f | None => path_join (path_join dbdir "ACORNS"%string) ("Acorns_Y" ++ format_d year ++ ".json")%string end in
  exists fs' d', write_json d fs name = (fs', Ok tt) /\ load py3 fs' dbdir id year f false = Ok d' /\
    d_id d' = id /\ consistent d' /\ same_database true d d'.
Proof.
  intros Y S SO name. destruct (sound_file.round_trip d fs name id true S (fun _ => SO)) as (fs' & d' & W & L & H). exists fs', d'. split; [exact W|]. split; [|exact H].
  unfold load. rewrite (proj1 (year_checked py3 year) Y). cbn [bind]. fold (default_acorns_file year) in name. fold (default_acorns_dir dbdir) in name. fold name. rewrite L. reflexivity.
Qed.
End Load.
