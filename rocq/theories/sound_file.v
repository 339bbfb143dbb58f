(** * Lemmas: order of records, files of sound databases and counts. *)

From Coq Require Import List ZArith Arith Bool String Ascii Permutation Sorted Lia.
Import ListNotations.
From Verif Require Import Py Py_proof logger_model logger_spec logger_file serial_model serial_spec serial_proof
  utils_proof sound_model sound_spec sound_proof.
Local Open Scope nat_scope.
Open Scope py_scope.

(** ** Order *)
Lemma ascii_refl a : Ascii.compare a a = Eq.
Proof. unfold Ascii.compare. apply N.compare_refl. Qed.
Lemma compare_refl s : String.compare s s = Eq.
Proof. induction s as [|a s IH]; cbn; [reflexivity|]. rewrite ascii_refl. exact IH. Qed.
Lemma compare_trans s : forall t u, String.compare s t = Lt -> String.compare t u = Lt -> String.compare s u = Lt.
Proof.
  induction s as [|a s IH]; intros [|b t] [|c u]; cbn; try congruence.
  destruct (Ascii.compare a b) eqn:AB; try discriminate; destruct (Ascii.compare b c) eqn:BC; try discriminate; intros H1 H2.
  - apply Ascii.compare_eq_iff in AB, BC. subst. rewrite ascii_refl. eauto.
  - apply Ascii.compare_eq_iff in AB. subst. rewrite BC. reflexivity.
  - apply Ascii.compare_eq_iff in BC. subst. rewrite AB. reflexivity.
  - unfold Ascii.compare in *. rewrite N.compare_lt_iff in *. replace (N.compare _ _) with Lt; [reflexivity|]. symmetry. apply N.compare_lt_iff. lia.
Qed.
Lemma compare_le_lt s t u : String.compare t s <> Lt -> String.compare t u = Lt -> String.compare s u = Lt.
Proof.
  intros H1 H2. rewrite String.compare_antisym in H1. destruct (String.compare s t) eqn:E; cbn in H1.
  - apply String.compare_eq_iff in E. subst. exact H2.
  - eapply compare_trans; eauto.
  - congruence.
Qed.

Section Proof.
Context {Arr : Type}.
Notation val := (val Arr).
Notation record := (record Arr).
Notation database := (database Arr).
Notation object := (object Arr).
Implicit Types d : database.

Lemma operators (a b : object) s t : name_of (snd a) s -> name_of (snd b) t ->
  lt a b = Ok (String.ltb s t) /\
  le a b = Ok (Nat.eqb (fst a) (fst b) || String.ltb s t) /\
  gt a b = Ok (negb (Nat.eqb (fst a) (fst b) || String.ltb s t)) /\
  ge a b = Ok (negb (String.ltb s t)).
Proof.
  intros A B. unfold name_of in A, B. unfold gt, ge, le, same_object, lt, val_lt. rewrite A, B.
  destruct (Nat.eqb (fst a) (fst b)); cbn [bind orb]; auto.
Qed.
Lemma operators_none (a b : object) : (forall s, ~ name_of (snd a) s) -> fst a <> fst b ->
  lt a b = Err TypeError /\ lt b a = Err TypeError /\ le a b = Err TypeError /\ gt a b = Err TypeError /\ ge a b = Err TypeError.
Proof.
  intros A N. unfold name_of in A. unfold gt, ge, le, same_object, lt. rewrite (proj2 (Nat.eqb_neq _ _) N).
  assert (E1 : forall v, val_lt (r_audio (snd a)) v = Err TypeError).
  { intros v. destruct (r_audio (snd a)) as [| | | |s| | | | |]; try reflexivity. destruct (A s). reflexivity. }
  assert (E2 : forall v, val_lt v (r_audio (snd a)) = Err TypeError).
  { intros v. destruct (r_audio (snd a)) as [| | | |s| | | | |]; try (destruct v; reflexivity). destruct (A s). reflexivity. }
  rewrite E1, E2. auto.
Qed.
Lemma weak_order (a b c : object) s t u : name_of (snd a) s -> name_of (snd b) t -> name_of (snd c) u ->
  lt a a = Ok false /\
  (lt a b = Ok true -> lt b a = Ok false) /\
  (lt a b = Ok true -> lt b c = Ok true -> lt a c = Ok true) /\
  (lt a b = Ok false -> lt b a = Ok false -> lt b c = Ok false -> lt c b = Ok false -> lt a c = Ok false /\ lt c a = Ok false) /\
  (lt a b = Ok false -> lt b a = Ok false -> s = t).
Proof.
  intros A B C. unfold name_of in A, B, C. unfold lt, val_lt. rewrite A, B, C. unfold String.ltb.
  assert (EQ : forall x y, String.compare x y <> Lt -> String.compare y x <> Lt -> x = y).
  { intros x y H1 H2. rewrite String.compare_antisym in H2. destruct (String.compare x y) eqn:E; cbn in H2; try congruence. apply String.compare_eq_iff, E. }
  assert (F : forall x y, Ok (match String.compare x y with Lt => true | _ => false end) = Ok false -> String.compare x y <> Lt) by (intros x y; destruct (String.compare x y); congruence).
  assert (T : forall x y, Ok (match String.compare x y with Lt => true | _ => false end) = Ok true -> String.compare x y = Lt) by (intros x y; destruct (String.compare x y); congruence).
  split; [rewrite compare_refl; reflexivity|]. split; [|split; [|split]].
  - intros H. apply T in H. rewrite String.compare_antisym, H. reflexivity.
  - intros H1 H2. apply T in H1, H2. rewrite (compare_trans _ _ _ H1 H2). reflexivity.
  - intros H1 H2 H3 H4. apply F in H1, H2, H3, H4. rewrite (EQ _ _ H1 H2), (EQ _ _ H3 H4). rewrite compare_refl. auto.
  - intros H1 H2. apply F in H1, H2. auto.
Qed.
Lemma ties (a b : object) s : fst a <> fst b -> name_of (snd a) s -> name_of (snd b) s ->
  lt a b = Ok false /\ lt b a = Ok false /\ le a b = Ok false /\ le b a = Ok false /\
  gt a b = Ok true /\ gt b a = Ok true /\ ge a b = Ok true /\ ge b a = Ok true.
Proof.
  intros N A B. destruct (operators a b s s A B) as (E1 & E2 & E3 & E4). destruct (operators b a s s B A) as (F1 & F2 & F3 & F4).
  rewrite E1, E2, E3, E4, F1, F2, F3, F4. rewrite (proj2 (Nat.eqb_neq _ _) N), (proj2 (Nat.eqb_neq (fst b) (fst a))) by auto.
  replace (String.ltb s s) with false by (unfold String.ltb; rewrite compare_refl; reflexivity). cbn. auto 10.
Qed.
Lemma ties_refuted : exists a b : object, gt a b = Ok true /\ lt b a <> Ok true.
Proof.
  exists (0, mkRecord 0 0%Z (VStr "x"%string) [] VNone VNone), (1, mkRecord 0 0%Z (VStr "x"%string) [] VNone VNone).
  split; [reflexivity|discriminate].
Qed.

(** ** Sorting *)
Definition named (r : record) : Prop := exists s, name_of r s.
Lemma audio_lt_before (a b : record) : audio_lt a b = true <-> before a b.
Proof.
  unfold audio_lt, before, name_of. split.
  - intros H. destruct (r_audio a) as [| | | |s| | | | |], (r_audio b) as [| | | |t| | | | |]; try discriminate.
    exists s, t. split; [reflexivity|]. split; [reflexivity|]. apply ltb_lt, H.
  - intros (s & t & A & B & C). rewrite A, B. apply ltb_lt, C.
Qed.
Lemma before_asym (a b : record) : before a b -> ~ before b a.
Proof.
  intros (s & t & A & B & C) (t' & s' & B' & A' & C'). unfold name_of in *. rewrite A in A'. rewrite B in B'. injection A' as <-. injection B' as <-.
  rewrite String.compare_antisym, C in C'. discriminate.
Qed.
Lemma before_trans_l (r x y : record) : named r -> named x -> before y r -> ~ before x r -> before y x.
Proof.
  intros (sr & R) (sx & X) (sy & sr' & Y & R' & C) N. unfold name_of in R, R'. rewrite R in R'. injection R' as <-.
  exists sy, sx. split; [exact Y|]. split; [exact X|].
  assert (NX : String.compare sx sr <> Lt) by (intros H; apply N; exists sx, sr; auto).
  destruct (String.compare sx sr) eqn:E; try congruence.
  - apply String.compare_eq_iff in E. congruence.
  - apply (compare_trans _ sr); [exact C|]. rewrite String.compare_antisym, E. reflexivity.
Qed.
Lemma insert_in (r : record) l y : In y (insert r l) <-> y = r \/ In y l.
Proof.
  split.
  - intros I. apply (Permutation_in _ (Permutation_sym (insert_perm r l))) in I. destruct I as [->|I]; auto.
  - intros I. apply (Permutation_in _ (insert_perm r l)). destruct I as [->|I]; [left|right]; auto.
Qed.
Lemma insert_sorted (r : record) l : named r -> Forall named l -> StronglySorted (fun a b => ~ before b a) l ->
  StronglySorted (fun a b => ~ before b a) (insert r l).
Proof.
  intros NR NL S. induction S as [|x l S IH F]; cbn [insert]; [repeat constructor|].
  inversion NL as [|? ? NX NL']; subst. destruct (audio_lt x r) eqn:E.
  - apply audio_lt_before in E. constructor; [exact (IH NL')|]. apply Forall_forall. intros y I. apply insert_in in I.
    destruct I as [->|I]; [apply before_asym, E|]. rewrite Forall_forall in F. auto.
  - assert (NB : ~ before x r) by (intros H; apply audio_lt_before in H; congruence).
    constructor; [constructor; assumption|]. constructor; [exact NB|]. apply Forall_forall. intros y I B.
    rewrite Forall_forall in F. apply (F y I). exact (before_trans_l r x y NR NX B NB).
Qed.
Lemma insert_filter s (r : record) l : filter (has_name s) (insert r l) = filter (has_name s) (r :: l).
Proof.
  induction l as [|x l IH]; cbn [insert]; [reflexivity|]. destruct (audio_lt x r) eqn:E; [|reflexivity].
  cbn [filter] in *. rewrite IH. destruct (has_name s x) eqn:X; [|reflexivity]. destruct (has_name s r) eqn:R; [|reflexivity].
  exfalso. unfold has_name, audio_lt in *. destruct (r_audio x); try discriminate. destruct (r_audio r); try discriminate.
  apply String.eqb_eq in X, R. subst. unfold String.ltb in E. rewrite compare_refl in E. discriminate.
Qed.
Lemma sort_ok (l : list record) : Forall named l -> stably_sorted l (stable_sort l).
Proof.
  intros N. split; [apply sort_perm|]. split.
  - induction N as [|r l NR NL IH]; cbn [stable_sort fold_right]; [constructor|]. apply insert_sorted; [exact NR| |exact IH].
    eapply Permutation_Forall; [apply sort_perm|exact NL].
  - intros s. induction l as [|r l IH]; cbn [stable_sort fold_right]; [reflexivity|]. rewrite insert_filter. cbn [filter].
    inversion N; subst. unfold stable_sort in IH. rewrite IH by assumption. reflexivity.
Qed.
Lemma sort_records_ok (l : list record) : Forall named l -> sort_records l = Ok (stable_sort l).
Proof.
  intros N. unfold sort_records. replace (forallb _ l) with true; [rewrite andb_false_r; reflexivity|].
  symmetry. apply forallb_forall. intros r I. rewrite Forall_forall in N. destruct (N r I) as (s & E). unfold name_of in E. rewrite E. reflexivity.
Qed.
Lemma sort_all_ok (ls : list (list record)) : Forall (Forall named) ls -> sort_all ls = (map stable_sort ls, Ok tt).
Proof.
  induction 1 as [|l ls N _ IH]; cbn [sort_all map]; [reflexivity|]. rewrite (sort_records_ok l N), IH. reflexivity.
Qed.
(** A single record needs no name. *)
Definition comparable (l : list record) : Prop := List.length l <= 1 \/ Forall named l.
Lemma single_cases (l : list record) : List.length l <= 1 -> l = [] \/ exists r, l = [r].
Proof. destruct l as [|r [|r' l]]; cbn; intros H; [auto|eauto|lia]. Qed.
Lemma sort_one (l : list record) : comparable l -> stably_sorted l (stable_sort l).
Proof.
  intros [L|N]; [|apply sort_ok, N]. destruct (single_cases l L) as [->|(r & ->)]; cbn [stable_sort fold_right insert]; repeat constructor.
Qed.
Lemma sort_records_one (l : list record) : comparable l -> sort_records l = Ok (stable_sort l).
Proof.
  intros [L|N]; [|apply sort_records_ok, N]. destruct (single_cases l L) as [->|(r & ->)]; reflexivity.
Qed.
Lemma sort_all_one (ls : list (list record)) : Forall comparable ls -> sort_all ls = (map stable_sort ls, Ok tt).
Proof.
  induction 1 as [|l ls N _ IH]; cbn [sort_all map]; [reflexivity|]. rewrite (sort_records_one l N), IH. reflexivity.
Qed.
Lemma is_str_named (r : record) : is_str (r_audio r) = true -> named r.
Proof. unfold is_str. destruct (r_audio r) eqn:E; try discriminate. intros _. eexists. exact E. Qed.
Lemma sort_records_none (l : list record) r : 2 <= List.length l -> In r l -> ~ named r -> sort_records l = Err TypeError.
Proof.
  intros L I N. unfold sort_records. replace (2 <=? List.length l) with true by (symmetry; apply Nat.leb_le, L).
  destruct (forallb _ l) eqn:F; [|reflexivity]. exfalso. rewrite forallb_forall in F. exact (N (is_str_named r (F r I))).
Qed.
Lemma sort_all_none (ls : list (list record)) l r : In l ls -> 2 <= List.length l -> In r l -> ~ named r ->
  exists ls', sort_all ls = (ls', Err TypeError).
Proof.
  intros I L R N. induction ls as [|x ls IH]; [destruct I|]. cbn [sort_all]. destruct (sort_records x) as [x'|e] eqn:E.
  - destruct I as [->|I]; [rewrite (sort_records_none l r L R N) in E; discriminate|]. destruct (IH I) as (ls' & ->). eauto.
  - assert (e = TypeError) as ->; [|eauto]. unfold sort_records in E. destruct (_ && _); congruence.
Qed.

(** ** Writing *)
Definition names_of (tags : list string) (ts : list Z) (ns : list string) : Prop :=
  Forall2 (fun t n => exists i, t = Z.of_nat i /\ nth_error tags i = Some n) ts ns.
Definition rec_read (tags : list string) (r : record) (v : val) : Prop := exists ns t s,
  v = VDict [(KStr "audio_file", r_audio r); (KStr "tags", VList (map VStr ns)); (KStr "transcription", t); (KStr "style", s)]%string /\
  names_of tags (r_tags r) ns /\ json_image (r_trans r) t /\ json_image (r_style r) s.
Definition spk_read (tags : list string) (x : string * (val * list record)) (v : val) : Prop := exists i vs,
  v = VDict [(KStr "name", VStr (fst x)); (KStr "info", i); (KStr "records", VList vs)]%string /\
  json_image (fst (snd x)) i /\ Forall2 (rec_read tags) (snd (snd x)) vs.

Lemma images_F2 (l l' : list val) : Forall2 json_image l l' -> images l l'.
Proof. induction 1; constructor; auto. Qed.
Lemma strings_image (l : list string) : @images Arr (map VStr l) (map VStr l).
Proof. induction l; cbn [map]; constructor; [constructor|auto]. Qed.
Lemma names_exist tags (ts : list Z) : (forall t, In t ts -> (0 <= t < Z.of_nat (List.length tags))%Z) -> exists ns, names_of tags ts ns.
Proof.
  induction ts as [|t ts IH]; intros H; [exists []; constructor|].
  destruct IH as (ns & N); [intros; apply H; right; assumption|]. specialize (H t (or_introl eq_refl)).
  destruct (nth_error tags (Z.to_nat t)) as [n|] eqn:E; [|apply nth_error_None in E; lia].
  exists (n :: ns). constructor; [|exact N]. exists (Z.to_nat t). split; [lia|exact E].
Qed.
Lemma tag_names_ok d (r : record) ns : names_of (d_tags d) (r_tags r) ns -> get_tag_names d r = Ok ns.
Proof.
  unfold get_tag_names, names_of. generalize (r_tags r). intros ts N. induction N as [|t n ts ns (i & -> & E) _ IH]; cbn [mapM]; [reflexivity|].
  assert (i < List.length (d_tags d)) by (apply nth_error_Some; congruence).
  unfold py_nth at 1. rewrite norm_index_nonneg, (proj2 (Nat.ltb_lt _ _) H). cbn [bind]. rewrite E, IH. reflexivity.
Qed.
Lemma to_dict_ok d (r : record) : good_record (List.length (d_tags d)) r ->
  exists v v', to_dict d r = Ok v /\ json_image v v' /\ rec_read (d_tags d) r v'.
Proof.
  intros (T & A & (t' & T') & (s' & S')). destruct (names_exist _ _ T) as (ns & N). unfold to_dict. rewrite (tag_names_ok d r ns N). cbn [bind].
  eexists _, _. split; [reflexivity|]. split; [|exists ns, t', s'; split; [reflexivity|auto]].
  constructor; [|cbn; repeat constructor; cbn; intuition discriminate]. assert (json_image (r_audio r) (r_audio r)) by (destruct A as [->|(s & ->)]; constructor).
  repeat (constructor; try assumption). apply strings_image.
Qed.
Lemma records_ok d (rs : list record) : Forall (good_record (List.length (d_tags d))) rs ->
  exists vs vs', mapM (to_dict d) rs = Ok vs /\ Forall2 json_image vs vs' /\ Forall2 (rec_read (d_tags d)) rs vs'.
Proof.
  induction 1 as [|r rs G _ (vs & vs' & E & J & R)]; [exists [], []; repeat constructor|].
  destruct (to_dict_ok d r G) as (v & v' & E1 & J1 & R1). exists (v :: vs), (v' :: vs'). cbn [mapM]. rewrite E1, E. cbn [bind].
  repeat constructor; assumption.
Qed.
Lemma speaker_ok d x : writable (fst (snd x)) -> Forall (good_record (List.length (d_tags d))) (snd (snd x)) ->
  exists v v', speaker_data d x = Ok v /\ json_image v v' /\ spk_read (d_tags d) x v'.
Proof.
  intros (i & I) G. destruct (records_ok d _ G) as (vs & vs' & E & J & R). unfold speaker_data. rewrite E. cbn [bind].
  eexists _, _. split; [reflexivity|]. split; [|exists i, vs'; split; [reflexivity|auto]].
  constructor; [|cbn; repeat constructor; cbn; intuition discriminate]. repeat (constructor; try assumption). apply images_F2, J.
Qed.
Lemma speakers_ok d xs : Forall (fun x => writable (fst (snd x)) /\ Forall (good_record (List.length (d_tags d))) (snd (snd x))) xs ->
  exists vs vs', mapM (speaker_data d) xs = Ok vs /\ Forall2 json_image vs vs' /\ Forall2 (spk_read (d_tags d)) xs vs'.
Proof.
  induction 1 as [|r rs (G1 & G2) _ (vs & vs' & E & J & R)]; [exists [], []; repeat constructor|].
  destruct (speaker_ok d r G1 G2) as (v & v' & E1 & J1 & R1). exists (v :: vs), (v' :: vs'). cbn [mapM]. rewrite E1, E. cbn [bind].
  repeat constructor; assumption.
Qed.
Definition triples d := combine (d_spkrs d) (combine (d_spkrs_info d) (d_records d)).
Lemma data_ok d : savable d -> exists root' ss' v, to_data d = Ok v /\ json_image (d_root d) root' /\
  json_rt v = Ok (VDict [(KStr "root", root'); (KStr "tags", VList (map VStr (d_tags d))); (KStr "speakers", VList ss')])%string /\
  Forall2 (spk_read (d_tags d)) (triples d) ss'.
Proof.
  intros (C & (root' & RT) & WI & G). destruct (speakers_ok d (triples d)) as (ss & ss' & E & J & R).
  { apply Forall_forall. intros (n & (i & rs)) I. unfold triples in I. apply in_combine_r in I. cbn [fst snd].
    pose proof (in_combine_l _ _ _ _ I) as I1. pose proof (in_combine_r _ _ _ _ I) as I2. rewrite Forall_forall in WI, G. auto. }
  unfold to_data. fold (triples d). rewrite E. cbn [bind]. exists root', ss'. eexists. split; [reflexivity|]. split; [exact RT|]. split; [|exact R].
  apply json_rt_ok. constructor; [|cbn; repeat constructor; cbn; intuition discriminate].
  repeat (constructor; try assumption); [apply strings_image|apply images_F2, J].
Qed.

(** ** Reading *)
Lemma bind_step {A B} (x : action Arr A) (f : A -> action Arr B) d d' a z : x d = (d', Ok a) -> f a d' = z -> bindA x f d = z.
Proof. intros E H. unfold bindA. rewrite E. exact H. Qed.
Lemma load_tags (tags : list string) : forall d, consistent d -> NoDup (d_tags d ++ tags) -> exists d',
  iterA (fun t : val => bindA (lift (as_string t)) (fun s => bindA (fun d => add_tag d s) (fun _ => ret tt))) (map (@VStr Arr) tags) d = (d', Ok tt) /\
  consistent d' /\ d_tags d' = d_tags d ++ tags /\ d_id d' = d_id d /\ d_root d' = d_root d /\ d_records d' = d_records d /\
  d_spkrs d' = d_spkrs d /\ d_spkrs_info d' = d_spkrs_info d.
Proof.
  induction tags as [|t tags IH]; intros d C ND; cbn [map iterA].
  - exists d. rewrite app_nil_r. split; [reflexivity|auto 10].
  - assert (N : ~ In t (d_tags d)).
    { apply NoDup_remove_2 in ND. intros I. apply ND, in_or_app. auto. }
    destruct (add_tag_new d t C N) as (d1 & E1 & T1 & C1 & (I1 & _) & R1 & S1 & F1 & RT1).
    destruct (IH d1 C1) as (d2 & E2 & C2 & T2 & I2 & RT2 & R2 & S2 & F2).
    { rewrite T1, <- app_assoc. exact ND. }
    exists d2. split; [|split; [exact C2|]; split; [rewrite T2, T1, <- app_assoc; reflexivity|repeat split; congruence]].
    eapply bind_step; [|exact E2]. eapply bind_step; [reflexivity|]. eapply bind_step; [exact E1|reflexivity].
Qed.
Lemma append_last d (R : list (list record)) l r : d_records d = R ++ [l] -> append_record d (-1) r = (with_records d (R ++ [l ++ [r]]), Ok tt).
Proof.
  intros E. unfold append_record, py_nth, py_set. rewrite E. rewrite app_length. cbn [List.length].
  replace (norm_index (List.length R + 1) (-1)) with (Ok (List.length R)).
  2:{ unfold norm_index. cbn [Z.leb Z.compare andb]. replace ((- Z.of_nat (List.length R + 1) <=? -1)%Z) with true by (symmetry; apply Z.leb_le; lia).
      cbn [andb Z.ltb Z.compare]. f_equal. lia. }
  cbn [bind]. rewrite nth_error_app2, Nat.sub_diag by lia. cbn [nth_error bind].
  f_equal. f_equal. clear. induction R as [|x R IH]; cbn [List.length app list_set]; [reflexivity|]. f_equal. exact IH.
Qed.
Lemma map_tags d (ts : list Z) ns : consistent d -> names_of (d_tags d) ts ns -> exists ids,
  mapA (fun t : val => bindA (lift (as_string t)) (fun s d => get_tag_add d s)) (map VStr ns) d = (d, Ok ids) /\ map Z.of_nat ids = ts.
Proof.
  intros C N. induction N as [|t n ts ns (i & -> & E) _ (ids & E' & M)]; cbn [map mapA]; [exists []; auto|].
  exists (i :: ids). split; [|cbn [map]; congruence].
  eapply bind_step; [eapply bind_step; [reflexivity|exact (get_tag_old d n i C E)]|]. eapply bind_step; [exact E'|reflexivity].
Qed.
Lemma with_same d rs : d_records (with_records d rs) = rs /\ d_id (with_records d rs) = d_id d /\ d_tags (with_records d rs) = d_tags d.
Proof. auto. Qed.
Lemma load_record_ok k d (R : list (list record)) l r v : consistent d -> d_records d = R ++ [l] -> rec_read (d_tags d) r v ->
  exists r', load_record k v d = (with_records d (R ++ [l ++ [r']]), Ok tt) /\ same_record k (d_id d) r r'.
Proof.
  intros C E (ns & t & s & -> & N & T & S). destruct (map_tags d _ _ C N) as (ids & M & IDS).
  exists (mkRecord (d_id d) (Z.of_nat k) (r_audio r) (map Z.of_nat ids) t s). split; [|repeat (split; [reflexivity|]); rewrite IDS; auto].
  unfold load_record. eapply bind_step; [|apply append_last, E]. unfold from_dict.
  do 2 (eapply bind_step; [reflexivity|]). eapply bind_step; [exact M|]. do 2 (eapply bind_step; [reflexivity|]). reflexivity.
Qed.
Lemma load_records_ok k (rs : list record) vs : forall d (R : list (list record)) l, consistent d -> d_records d = R ++ [l] ->
  Forall2 (rec_read (d_tags d)) rs vs ->
  exists read, iterA (load_record k) vs d = (with_records d (R ++ [l ++ read]), Ok tt) /\ Forall2 (same_record k (d_id d)) rs read.
Proof.
  intros d R l C E F. revert l d C E F. revert vs. induction rs as [|r rs IH]; intros vs l d C E F; inversion F as [|? v ? vs' RV F']; subst; cbn [iterA].
  - exists []. rewrite app_nil_r. split; [|constructor]. cbn. f_equal. rewrite <- E. destruct d; reflexivity.
  - destruct (load_record_ok k d R l r v C E RV) as (r' & L & SR). pose proof (keeps_load_record k v d C) as (C' & _). rewrite L in C'. cbn [fst] in C'.
    destruct (IH vs' (l ++ [r']) (with_records d (R ++ [l ++ [r']])) C' eq_refl F') as (read & L' & SR').
    exists (r' :: read). split; [|constructor; assumption]. unfold bindA. rewrite L, L'. f_equal. cbn [with_records d_records]. rewrite <- app_assoc. reflexivity.
Qed.
Lemma load_speakers_ok xs ss : forall d, consistent d -> NoDup (d_spkrs d ++ map fst xs) -> Forall2 (spk_read (d_tags d)) xs ss ->
  exists d' recs infos, iterA load_speaker ss d = (d', Ok tt) /\ consistent d' /\ d_id d' = d_id d /\ d_root d' = d_root d /\ d_tags d' = d_tags d /\
    d_spkrs d' = d_spkrs d ++ map fst xs /\ d_spkrs_info d' = d_spkrs_info d ++ infos /\ d_records d' = d_records d ++ recs /\
    Forall2 (fun x i => json_image (fst (snd x)) i) xs infos /\ List.length recs = List.length xs /\
    forall k x, nth_error xs k = Some x -> exists read, nth_error recs k = Some read /\
      Forall2 (same_record (List.length (d_spkrs d) + k) (d_id d)) (snd (snd x)) read.
Proof.
  intros d C ND F. revert d C ND F. revert ss. induction xs as [|x xs IH]; intros ss d C ND F; inversion F as [|? v ? ss' RV F']; subst; cbn [iterA].
  - exists d, [], []. cbn [map]. rewrite !app_nil_r. cbn. repeat (split; [auto|]). intros [|k] x; discriminate.
  - destruct RV as (i & vs & -> & J & RV). cbn [map] in ND.
    assert (N : ~ In (fst x) (d_spkrs d)) by (apply NoDup_remove_2 in ND; intros I; apply ND, in_or_app; auto).
    destruct (add_speaker_new d (fst x) i C N) as (d1 & E1 & C1 & (I1 & _) & T1 & _ & RT1 & S1 & F1 & R1).
    destruct (load_records_ok (List.length (d_spkrs d)) (snd (snd x)) vs d1 (d_records d) [] C1 R1) as (read & L & SR); [rewrite T1; exact RV|].
    set (d2 := with_records d1 (d_records d ++ [[] ++ read])) in *.
    assert (LS : load_speaker (VDict [(KStr "name"%string, VStr (fst x)); (KStr "info"%string, i); (KStr "records"%string, VList vs)]) d = (d2, Ok tt)).
    { unfold load_speaker. do 3 (eapply bind_step; [reflexivity|]). eapply bind_step; [exact E1|].
      eapply bind_step; [reflexivity|]. exact L. }
    pose proof (keeps_load_speaker (VDict [(KStr "name"%string, VStr (fst x)); (KStr "info"%string, i); (KStr "records"%string, VList vs)]) d C) as (C2 & _).
    rewrite LS in C2. cbn [fst] in C2.
    destruct (IH ss' d2 C2) as (d' & recs & infos & L' & C' & I' & RT' & T' & S' & F2 & R' & FI & LR & K).
    { cbn [d2 with_records d_spkrs]. rewrite S1, <- app_assoc. exact ND. }
    { cbn [d2 with_records d_tags]. rewrite T1. exact F'. }
    exists d', (read :: recs), (i :: infos). unfold bindA. rewrite LS, L'. cbn [d2 with_records d_spkrs d_spkrs_info d_records d_id d_root d_tags app] in *.
    split; [reflexivity|]. split; [exact C'|]. split; [congruence|]. split; [congruence|]. split; [congruence|].
    split; [rewrite S', S1, <- app_assoc; reflexivity|]. split; [rewrite F2, F1, <- app_assoc; reflexivity|].
    split; [rewrite R', <- app_assoc; reflexivity|]. split; [constructor; assumption|]. split; [cbn; lia|].
    intros [|k] y H; cbn [nth_error] in H |- *.
    + injection H as <-. exists read. rewrite Nat.add_0_r, <- I1. auto.
    + destruct (K k y H) as (rd & H1 & H2). exists rd. split; [exact H1|]. rewrite S1, app_length, I1 in H2. cbn [List.length] in H2.
      replace (List.length (d_spkrs d) + S k) with (List.length (d_spkrs d) + 1 + k) by lia. exact H2.
Qed.

Lemma triples_fst d : consistent d -> map fst (triples d) = d_spkrs d.
Proof.
  intros (_ & _ & _ & L1 & L2 & _). unfold triples. apply map_fst_combine. rewrite combine_length. lia.
Qed.
Lemma triples_nth d k rs : consistent d -> nth_error (d_records d) k = Some rs -> exists n i, nth_error (triples d) k = Some (n, (i, rs)).
Proof.
  intros (_ & _ & _ & L1 & L2 & _) H. assert (LK : k < List.length (d_records d)) by (apply nth_error_Some; congruence).
  destruct (nth_error (d_spkrs d) k) as [n|] eqn:N; [|apply nth_error_None in N; lia].
  destruct (nth_error (d_spkrs_info d) k) as [i|] eqn:I; [|apply nth_error_None in I; lia].
  exists n, i. unfold triples. rewrite utils_proof.nth_error_combine, N, utils_proof.nth_error_combine, I, H. reflexivity.
Qed.
Lemma infos_back d infos : consistent d -> Forall2 (fun x i => json_image (fst (snd x)) i) (triples d) infos -> Forall2 json_image (d_spkrs_info d) infos.
Proof.
  intros (_ & _ & _ & L1 & L2 & _) F. replace (d_spkrs_info d) with (map (fun x => fst (snd x)) (triples d)).
  - clear -F. induction F; cbn; constructor; auto.
  - unfold triples. rewrite <- (map_map snd fst). rewrite map_snd_combine by (rewrite combine_length; lia). apply map_fst_combine. lia.
Qed.
Lemma same_named k id (rs read : list record) : Forall2 (same_record k id) rs read -> Forall named rs <-> Forall named read.
Proof.
  intros F. induction F as [|r r' rs read (_ & _ & A & _) _ IH]; [intuition|].
  split; intros H; inversion H as [|? ? (s & S) G']; subst; constructor; try (apply IH; assumption); exists s; unfold name_of in *; congruence.
Qed.
Lemma same_length k id (rs read : list record) : Forall2 (same_record k id) rs read -> List.length read = List.length rs.
Proof. induction 1; cbn; congruence. Qed.

Lemma loaded d (fs : files Arr) filename id : savable d -> exists fs' d2 recs,
  write_json d fs filename = (fs', Ok tt) /\
  (forall (sorted : bool) z, (if sorted then sort else ret tt) d2 = z -> load_from fs' filename sorted (DataBase id) = z) /\
  d_id d2 = id /\ consistent d2 /\ json_image (d_root d) (d_root d2) /\ d_tags d2 = d_tags d /\ d_spkrs d2 = d_spkrs d /\
  Forall2 json_image (d_spkrs_info d) (d_spkrs_info d2) /\ d_records d2 = recs /\ List.length recs = List.length (d_records d) /\
  forall k rs, nth_error (d_records d) k = Some rs -> exists read, nth_error recs k = Some read /\ Forall2 (same_record k id) rs read.
Proof.
  intros SV. pose proof SV as (C & _ & _ & G). destruct (data_ok d SV) as (root' & ss' & v & E & RT & J & R).
  unfold write_json. rewrite E, J. eexists. unfold load_from.
  set (data := VDict _) in *.
  pose proof C as (ND & _ & NS & LR & LI & _).
  destruct (load_tags (d_tags d) (with_root (DataBase id) root')) as (d1 & E1 & C1 & T1 & I1 & RT1 & R1 & S1 & F1).
  { apply (new_consistent id). }
  { exact ND. }
  cbn [with_root DataBase d_tags d_id d_root d_records d_spkrs d_spkrs_info app] in *.
  destruct (load_speakers_ok (triples d) ss' d1 C1) as (d2 & recs & infos & L2 & C2 & I2 & RT2 & T2 & S2 & F2 & R2 & FI & LN & K).
  { rewrite S1, (triples_fst d C). exact NS. }
  { rewrite T1. exact R. }
  rewrite S1, F1, R1 in *. cbn [app List.length] in *. rewrite (triples_fst d C) in S2. apply infos_back in FI; [|exact C].
  assert (LT : List.length (triples d) = List.length (d_records d)) by (unfold triples; rewrite !combine_length; lia).
  exists d2, recs. split; [reflexivity|]. split.
  { intros sorted z Z. rewrite sget_set, String.eqb_refl. unfold load_data. do 3 (eapply bind_step; [reflexivity|]). eapply bind_step; [exact E1|].
    eapply bind_step; [reflexivity|]. eapply bind_step; [exact L2|]. exact Z. }
  split; [congruence|]. split; [exact C2|]. split; [congruence|]. split; [congruence|]. split; [exact S2|]. split; [rewrite F2; exact FI|].
  split; [exact R2|]. split; [lia|].
  intros k rs H. destruct (triples_nth d k rs C H) as (n & i & X). destruct (K k _ X) as (read & Y & Z). exists read. split; [exact Y|].
  cbn [fst snd] in Z. rewrite I1 in Z. exact Z.
Qed.
Lemma round_trip d fs filename id sorted : savable d -> (sorted = true -> sortable d) -> exists fs' d',
  write_json d fs filename = (fs', Ok tt) /\
  load_from fs' filename sorted (DataBase id) = (d', Ok tt) /\ d_id d' = id /\ consistent d' /\ same_database sorted d d'.
Proof.
  intros SV SO. destruct (loaded d fs filename id SV) as (fs' & d2 & recs & W & ST & I2 & C2 & RT2 & T2 & S2 & F2 & R2 & LN & PR).
  exists fs'. destruct sorted.
  - assert (NM : Forall comparable recs).
    { apply Forall_forall. intros read I. apply In_nth_error in I. destruct I as (k & I).
      assert (LK : k < List.length recs) by (apply nth_error_Some; congruence).
      destruct (nth_error (d_records d) k) as [rs|] eqn:E'; [|apply nth_error_None in E'; lia].
      destruct (PR k rs E') as (read' & H1 & H2). assert (read' = read) by congruence. subst read'.
      destruct (SO eq_refl rs (nth_error_In _ _ E')) as [L|N]; [left; rewrite (same_length _ _ _ _ H2); exact L|right].
      apply (same_named _ _ _ _ H2). apply Forall_forall. exact N. }
    eexists. split; [exact W|]. split; [apply ST; unfold sort; rewrite R2, (sort_all_one recs NM); reflexivity|]. split; [exact I2|]. split.
    + pose proof (sort_keeps d2 C2) as (X & _). unfold sort in X. rewrite R2, (sort_all_one recs NM) in X. exact X.
    + unfold same_database. cbn [with_records d_root d_tags d_spkrs d_spkrs_info d_records d_id].
      split; [congruence|]. split; [congruence|]. split; [exact S2|]. split; [exact F2|]. split; [rewrite map_length; lia|].
      intros k rs H. destruct (PR k rs H) as (read & H1 & H2). exists read, (stable_sort read). split; [rewrite nth_error_map, H1; reflexivity|].
      split; [rewrite I2; exact H2|]. apply sort_one. rewrite Forall_forall in NM. apply NM. eapply nth_error_In, H1.
  - exists d2. split; [exact W|]. split; [apply ST; reflexivity|]. split; [congruence|]. split; [exact C2|]. split; [congruence|]. split; [congruence|]. split; [exact S2|].
    split; [exact F2|]. split; [rewrite R2; lia|]. intros k rs H. destruct (PR k rs H) as (read & H1 & H2). exists read, read.
    split; [rewrite R2; exact H1|]. split; [rewrite I2; exact H2|reflexivity].
Qed.
Lemma not_sorted d fs filename id rs r : savable d -> In rs (d_records d) -> 2 <= List.length rs -> In r rs -> r_audio r = VNone ->
  exists fs' d', write_json d fs filename = (fs', Ok tt) /\ load_from fs' filename true (DataBase id) = (d', Err TypeError).
Proof.
  intros SV I L IR A. destruct (loaded d fs filename id SV) as (fs' & d2 & recs & W & ST & I2 & C2 & RT2 & T2 & S2 & F2 & R2 & LN & PR).
  apply In_nth_error in I. destruct I as (k & I). destruct (PR k rs I) as (read & H1 & H2).
  assert (exists r', In r' read /\ ~ named r') as (r' & IR' & N).
  { clear -H2 IR A. induction H2 as [|x y rs read (_ & _ & X & _) _ IH]; [destruct IR|]. destruct IR as [->|IR].
    - exists y. split; [left; reflexivity|]. intros (s & S). unfold name_of in S. congruence.
    - destruct (IH IR) as (r' & U & V). exists r'. split; [right; exact U|exact V]. }
  rewrite <- (same_length _ _ _ _ H2) in L.
  destruct (sort_all_none recs read r' (nth_error_In _ _ H1) L IR' N) as (ls' & E).
  eexists fs', _. split; [exact W|]. apply ST. unfold sort. rewrite R2, E. reflexivity.
Qed.
End Proof.
