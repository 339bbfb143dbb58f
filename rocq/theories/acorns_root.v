(** * Proofs on the construction of the ACORNS databases from their files. *)

From Coq Require Import List ZArith Arith Bool String Ascii Sorted Permutation Lia.
Import ListNotations.
From Verif Require Import Py Py_proof logger_model logger_spec serial_model serial_spec sound_model sound_spec sound_proof sound_file
  acorns_model acorns_spec acorns_proof.
Local Open Scope nat_scope.

Section Root.
Context {Arr : Type}.
Notation database := (database Arr).
Notation record := (record Arr).

(** The rest of the database, without tags and records. *)
Definition same_rest (d d' : database) : Prop :=
  d_spkrs d' = d_spkrs d /\ d_spkrs_info d' = d_spkrs_info d /\ d_root d' = d_root d.
Lemma same_rest_trans a b c : same_rest a b -> same_rest b c -> same_rest a c.
Proof. intros (A & B & C) (A' & B' & C'). repeat split; congruence. Qed.
Definition tags_added (d d' : database) (ns : list string) : Prop := forall t, In t (d_tags d') <-> In t (d_tags d) \/ In t ns.

Lemma one_tag (d : database) t : consistent d -> exists d' i, get_tag_add d t = (d', Ok i) /\ consistent d' /\ extends d d' /\
  d_records d' = d_records d /\ same_rest d d' /\ nth_error (d_tags d') i = Some t /\ tags_added d d' [t].
Proof.
  intros C. destruct (in_dec string_dec t (d_tags d)) as [I|N].
  - destruct (In_nth_error _ _ I) as (i & E). exists d, i. split; [apply get_tag_old; assumption|]. split; [exact C|].
    split; [apply extends_refl|]. split; [reflexivity|]. split; [repeat split|]. split; [exact E|].
    intros x. cbn. intuition congruence.
  - destruct (add_tag_new d t C N) as (d' & E & T & C' & X & R & S & F & RT). exists d', (List.length (d_tags d)).
    split; [rewrite get_tag_new by assumption; exact E|]. do 3 (split; [assumption|]). split; [repeat split; assumption|].
    split; [rewrite T, nth_error_app2, Nat.sub_diag by lia; reflexivity|]. intros x. rewrite T, in_app_iff. reflexivity.
Qed.
Lemma all_tags ns : forall d : database, consistent d -> exists d' ids, mapA (fun t d => get_tag_add d t) ns d = (d', Ok ids) /\
  consistent d' /\ extends d d' /\ d_records d' = d_records d /\ same_rest d d' /\
  Forall2 (fun i n => nth_error (d_tags d') i = Some n) ids ns /\ tags_added d d' ns.
Proof.
  induction ns as [|t ns IH]; intros d C; cbn [mapA].
  - exists d, []. split; [reflexivity|]. split; [exact C|]. split; [apply extends_refl|]. split; [reflexivity|]. split; [repeat split|].
    split; [constructor|]. intros x. cbn. tauto.
  - destruct (one_tag d t C) as (d1 & i & E1 & C1 & X1 & R1 & S1 & N1 & T1). destruct (IH d1 C1) as (d2 & ids & E2 & C2 & X2 & R2 & S2 & N2 & T2).
    exists d2, (i :: ids). split; [eapply bind_step; [exact E1|]; eapply bind_step; [exact E2|reflexivity]|]. split; [exact C2|].
    split; [eapply extends_trans; eauto|]. split; [congruence|]. split; [eapply same_rest_trans; eauto|]. split.
    + constructor; [|exact N2]. eapply prefix_nth; [apply X2|exact N1].
    + intros x. rewrite (T2 x), (T1 x). cbn. tauto.
Qed.
Lemma made_of_extends (d d' : database) k u r : extends d d' -> made_of d k u r -> made_of d' k u r.
Proof.
  intros (I & P & _) (A & B & C & D & E & F). split; [congruence|]. do 4 (split; [assumption|]).
  clear -F P. induction F as [|t n ts ns (i & -> & N) _ IH]; constructor; [|exact IH]. exists i. split; [reflexivity|]. eapply prefix_nth; eauto.
Qed.
Lemma list_set_last {A} (R : list A) l x : list_set (R ++ [l]) (List.length R) x = R ++ [x].
Proof. induction R as [|y R IH]; cbn; [reflexivity|]. rewrite IH. reflexivity. Qed.
Lemma one_file (d : database) (R : list (list record)) l u : consistent d -> d_records d = R ++ [l] -> exists d' r,
  bindA (parse_record (List.length R) (Ok u)) (fun r d => add_record d r) d = (d', Ok tt) /\ consistent d' /\ extends d d' /\ same_rest d d' /\
  d_records d' = R ++ [l ++ [r]] /\ made_of d' (List.length R) u r /\ tags_added d d' (u_tags u).
Proof.
  intros C E. destruct (all_tags (u_tags u) d C) as (d1 & ids & E1 & C1 & X1 & R1 & S1 & N1 & T1).
  set (r := mkRecord (d_id d1) (Z.of_nat (List.length R)) (VStr (u_audio u ++ ".wav")%string) (map Z.of_nat ids) (VStr (u_trans u)) (VStr (u_style u)) : record).
  assert (A : add_record d1 r = (with_records d1 (R ++ [l ++ [r]]), Ok tt)).
  { unfold add_record. cbn [r r_db]. rewrite Nat.eqb_refl. cbn [negb].
    replace (existsb _ _) with false.
    - unfold append_record, py_nth, py_set. rewrite R1, E, app_length. cbn [r r_spkr_id List.length]. rewrite norm_index_nonneg.
      replace (List.length R <? List.length R + 1) with true by (symmetry; apply Nat.ltb_lt; lia). cbn [bind].
      rewrite nth_error_app2, Nat.sub_diag by lia. cbn [nth_error bind]. rewrite list_set_last. reflexivity.
    - symmetry. apply not_true_is_false. intros H. apply existsb_exists in H. destruct H as (t & I & H). apply Z.ltb_lt in H.
      cbn [r r_tags] in I. apply in_map_iff in I. destruct I as (i & <- & I).
      assert (i < List.length (d_tags d1)); [|lia]. clear -N1 I. induction N1 as [|j n ids ns J _ IH]; [destruct I|].
      destruct I as [<-|I]; [apply nth_error_Some; congruence|auto]. }
  exists (with_records d1 (R ++ [l ++ [r]])), r. split.
  - eapply bind_step; [|exact A]. unfold parse_record. eapply bind_step; [reflexivity|]. eapply bind_step; [exact E1|]. reflexivity.
  - pose proof (add_record_keeps d1 r C1) as (C2 & X2). rewrite A in C2, X2. cbn [fst] in C2, X2. split; [exact C2|].
    split; [eapply extends_trans; eauto|]. split; [exact S1|]. split; [reflexivity|]. split; [|exact T1].
    do 5 (split; [reflexivity|]). cbn [r r_tags with_records d_tags]. clear -N1. induction N1 as [|i n ids ns J _ IH]; cbn [map]; constructor; eauto.
Qed.
Lemma all_files us : forall (d : database) (R : list (list record)) l, consistent d -> d_records d = R ++ [l] -> exists d' read,
  iterA (fun u => bindA (parse_record (List.length R) u) (fun r d => add_record d r)) (map Ok us) d = (d', Ok tt) /\
  consistent d' /\ extends d d' /\ same_rest d d' /\ d_records d' = R ++ [l ++ read] /\
  Forall2 (made_of d' (List.length R)) us read /\ tags_added d d' (flat_map u_tags us).
Proof.
  induction us as [|u us IH]; intros d R l C E; cbn [map iterA].
  - exists d, []. rewrite app_nil_r. split; [reflexivity|]. split; [exact C|]. split; [apply extends_refl|]. split; [repeat split|].
    split; [exact E|]. split; [constructor|]. intros x. cbn. tauto.
  - destruct (one_file d R l u C E) as (d1 & r & E1 & C1 & X1 & S1 & R1 & M1 & T1).
    destruct (IH d1 R (l ++ [r]) C1 R1) as (d2 & read & E2 & C2 & X2 & S2 & R2 & M2 & T2).
    exists d2, (r :: read). split; [eapply bind_step; [exact E1|exact E2]|]. split; [exact C2|]. split; [eapply extends_trans; eauto|].
    split; [eapply same_rest_trans; eauto|]. split; [rewrite R2, <- app_assoc; reflexivity|].
    split; [constructor; [eapply made_of_extends; eauto|exact M2]|]. intros x. rewrite (T2 x), (T1 x). cbn [flat_map]. rewrite in_app_iff. tauto.
Qed.
Lemma all_speakers xml (files : string -> list utterance) ss : forall d : database, consistent d -> NoDup (d_spkrs d ++ ss) ->
  (forall s, In s ss -> xml s = map Ok (files s)) -> exists d' recs,
  iterA (add_speaker_files xml) ss d = (d', Ok tt) /\ consistent d' /\ extends d d' /\ d_root d' = d_root d /\
  d_spkrs d' = d_spkrs d ++ ss /\ d_spkrs_info d' = d_spkrs_info d ++ map (fun _ => VNone) ss /\ d_records d' = d_records d ++ recs /\
  List.length recs = List.length ss /\
  (forall j s, nth_error ss j = Some s -> exists read, nth_error recs j = Some read /\ Forall2 (made_of d' (List.length (d_records d) + j)) (files s) read) /\
  tags_added d d' (flat_map u_tags (flat_map files ss)).
Proof.
  induction ss as [|s ss IH]; intros d C ND HX; cbn [iterA].
  - exists d, []. rewrite !app_nil_r. split; [reflexivity|]. split; [exact C|]. split; [apply extends_refl|]. do 5 (split; [first [reflexivity|cbn [map]; rewrite app_nil_r; reflexivity]|]).
    split; [intros [|j] s; discriminate|]. intros x. cbn. tauto.
  - assert (N : ~ In s (d_spkrs d)) by (apply NoDup_remove_2 in ND; intros I; apply ND, in_or_app; auto).
    destruct (add_speaker_new d s VNone C N) as (d1 & E1 & C1 & X1 & T1 & _ & RT1 & S1 & F1 & R1).
    assert (LR : List.length (d_records d) = List.length (d_spkrs d)) by apply C.
    destruct (all_files (files s) d1 (d_records d) [] C1 R1) as (d2 & read & E2 & C2 & X2 & (S2 & F2 & RT2) & R2 & M2 & T2).
    destruct (IH d2 C2) as (d3 & recs & E3 & C3 & X3 & RT3 & S3 & F3 & R3 & L3 & K3 & T3).
    { rewrite S2, S1, <- app_assoc. exact ND. }
    { intros x I. apply HX. cbn. auto. }
    exists d3, (read :: recs). split.
    + eapply bind_step; [|exact E3]. unfold add_speaker_files. eapply bind_step; [exact E1|]. rewrite HX by (cbn; auto). rewrite <- LR. exact E2.
    + split; [exact C3|]. split; [eapply extends_trans; [exact X1|eapply extends_trans; eauto]|]. split; [congruence|].
      split; [rewrite S3, S2, S1, <- app_assoc; reflexivity|]. split; [rewrite F3, F2, F1, <- app_assoc; reflexivity|].
      split; [rewrite R3, R2, <- app_assoc; reflexivity|]. split; [cbn; lia|]. split.
      * intros [|j] x; cbn [nth_error].
        -- intros [= <-]. exists read. split; [reflexivity|]. rewrite Nat.add_0_r. clear -M2 X3. induction M2; constructor; [eapply made_of_extends; eauto|auto].
        -- intros H. destruct (K3 j x H) as (rd & A & B). exists rd. split; [exact A|]. rewrite R2, app_length in B. cbn [List.length] in B.
           replace (List.length (d_records d) + S j) with (List.length (d_records d) + 1 + j) by lia. exact B.
      * intros x. rewrite (T3 x), (T2 x), T1. cbn [flat_map]. rewrite flat_map_app, in_app_iff. tauto.
Qed.

Lemma speakers_nodup year : NoDup (get_speakers year).
Proof.
  unfold get_speakers. apply FinFun.Injective_map_NoDup; [|apply seq_NoDup]. intros i j E. apply sound_count.app_cancel in E.
  pose proof (number_02d (Z.of_nat i)) as A. rewrite E, number_02d in A. injection A as A. lia.
Qed.
Lemma made_named (d : database) k us read : Forall2 (made_of d k) us read -> Forall named read.
Proof. induction 1 as [|u r us read (_ & _ & A & _) _ IH]; constructor; [eexists; exact A|exact IH]. Qed.
Lemma made_good (d : database) k us read : Forall2 (made_of d k) us read -> Forall (good_record (List.length (d_tags d))) read.
Proof.
  induction 1 as [|u r us read (_ & _ & A & T & S & F) _ IH]; constructor; [|exact IH]. split.
  - intros t I. clear -F I. induction F as [|x n ts ns (i & -> & N) _ IH]; [destruct I|]. destruct I as [<-|I]; [|auto].
    assert (i < List.length (d_tags d)) by (apply nth_error_Some; congruence). lia.
  - split; [right; eexists; exact A|]. split; [rewrite T|rewrite S]; eexists; constructor.
Qed.
Lemma from_root py3 xml (files : string -> list utterance) root year id : year = 1%Z \/ year = 2%Z ->
  (forall s, In s (get_speakers year) -> xml s = map Ok (files s)) ->
  exists d : database, from_ACORNS_root py3 xml root year (DataBase id) = (d, Ok tt) /\ savable d /\ sortable d /\
    d_id d = id /\ d_root d = VStr root /\ d_spkrs d = get_speakers year /\ List.length (d_records d) = List.length (get_speakers year) /\
    (forall k s, nth_error (get_speakers year) k = Some s -> exists read rs, nth_error (d_records d) k = Some rs /\
       Forall2 (made_of d k) (files s) read /\ stably_sorted read rs) /\
    (forall t, In t (d_tags d) <-> exists s u, In s (get_speakers year) /\ In u (files s) /\ In t (u_tags u)).
Proof.
  intros HY HX. set (d0 := with_root (DataBase id) (VStr root) : database).
  assert (C0 : consistent d0) by exact (new_consistent id).
  destruct (all_speakers xml files (get_speakers year) d0 C0 (speakers_nodup year) HX) as (d1 & recs & E1 & C1 & X1 & RT & S1 & F1 & R1 & L1 & K1 & T1).
  cbn [d0 with_root DataBase d_records app List.length plus d_spkrs d_spkrs_info d_tags d_root] in *.
  assert (NM : Forall (Forall named) (d_records d1)).
  { rewrite R1. apply Forall_forall. intros rs I. apply In_nth_error in I. destruct I as (k & I).
    destruct (nth_error (get_speakers year) k) as [s|] eqn:G.
    - destruct (K1 k s G) as (rd & A & B). rewrite A in I. injection I as <-. eapply made_named, B.
    - apply nth_error_None in G. rewrite <- L1 in G. apply nth_error_None in G. congruence. }
  exists (with_records d1 (map stable_sort (d_records d1))). split.
  { unfold from_ACORNS_root. eapply bind_step; [unfold lift; rewrite (proj1 (year_checked py3 year) HY); reflexivity|].
    eapply bind_step; [reflexivity|]. eapply bind_step; [exact E1|]. unfold sort. rewrite (sort_all_ok _ NM). reflexivity. }
  pose proof (sort_keeps d1 C1) as (C2 & _). unfold sort in C2. rewrite (sort_all_ok _ NM) in C2. cbn [fst] in C2.
  cbn [with_records d_id d_root d_spkrs d_records d_tags].
  assert (KK : forall k s, nth_error (get_speakers year) k = Some s -> exists read rs, nth_error (map stable_sort (d_records d1)) k = Some rs /\
    Forall2 (made_of d1 k) (files s) read /\ stably_sorted read rs).
  { intros k s G. destruct (K1 k s G) as (rd & A & B). exists rd, (stable_sort rd). split; [rewrite nth_error_map, R1, A; reflexivity|].
    split; [exact B|]. apply sort_ok. eapply made_named, B. }
  split; [split; [exact C2|]; split; [cbn [with_records d_root]; rewrite RT; eexists; constructor|]; split|].
  - cbn [with_records d_spkrs_info]. rewrite F1. apply Forall_forall. intros v I. apply in_map_iff in I. destruct I as (_ & <- & _). eexists. constructor.
  - cbn [with_records d_records d_tags]. apply Forall_forall. intros rs I. apply In_nth_error in I. destruct I as (k & I).
    destruct (nth_error (get_speakers year) k) as [s|] eqn:G.
    + destruct (KK k s G) as (rd & rs' & A & B & P & _). rewrite A in I. injection I as <-.
      eapply Permutation_Forall; [exact P|]. eapply made_good, B.
    + apply nth_error_None in G. rewrite <- L1, <- R1 in G. rewrite <- (map_length stable_sort) in G. apply nth_error_None in G. congruence.
  - split; [|split; [apply X1|]].
    { intros rs I. right. intros r IR. cbn [with_records d_records] in I. apply in_map_iff in I. destruct I as (rd & <- & I).
      rewrite Forall_forall in NM. specialize (NM rd I). rewrite Forall_forall in NM. apply NM. eapply Permutation_in; [|exact IR].
      apply Permutation_sym, sort_perm. }
    split; [exact RT|]. split; [exact S1|]. split; [rewrite map_length, R1; exact L1|]. split; [exact KK|].
    intros t. rewrite (T1 t). cbn [In]. split.
    + intros [[]|I]. apply in_flat_map in I. destruct I as (u & U & I). apply in_flat_map in U. destruct U as (s & S & U). eauto.
    + intros (s & u & S & U & I). right. apply in_flat_map. exists u. split; [|exact I]. apply in_flat_map. eauto.
Qed.
Lemma wrong_year py3 xml root year (d : database) : year <> 1%Z -> year <> 2%Z ->
  from_ACORNS_root py3 xml root year d = (d, Err (if py3 then TypeError else ValueError)).
Proof. intros A B. unfold from_ACORNS_root, bindA, lift. rewrite (proj2 (year_checked py3 year) A B). reflexivity. Qed.
(** A second call on the same database. *)
Lemma twice py3 xml root year (d : database) : year = 1%Z \/ year = 2%Z -> In "Speaker-01"%string (d_spkrs d) ->
  from_ACORNS_root py3 xml root year d = (with_root d (VStr root), Err ValueError).
Proof.
  intros HY I. unfold from_ACORNS_root, lift. unfold bindA at 1. rewrite (proj1 (year_checked py3 year) HY). eapply bind_step; [reflexivity|].
  assert (G : exists l, get_speakers year = "Speaker-01"%string :: l) by (destruct HY as [->| ->]; eexists; reflexivity).
  destruct G as (l & ->). unfold bindA at 1. cbn [iterA]. unfold bindA at 1. unfold add_speaker_files. unfold bindA at 1.
  rewrite (add_speaker_old (with_root d (VStr root)) "Speaker-01" VNone I). reflexivity.
Qed.
End Root.
