From Coq Require Import List ZArith Bool Arith String Permutation Sorted Lia.
Import ListNotations.
From Verif Require Import Py Py_proof ListUtil utils_proof pairing_model pairing_spec pairing_proof pairing_props evaluation_model evaluation_spec evaluation_proof
  learner_proof sparse_model experiment_model experiment_spec experiment_proof experiment_end motion_proof angle_vq sound_proof sound_count plots_proof sliding_model sliding_spec.
Local Open Scope nat_scope.
Notation length := List.length.

(** ** Counting in an interval. *)
Lemma filter_all {A} (f : A -> bool) l : (forall a, In a l -> f a = true) -> filter f l = l.
Proof. induction l as [|a l IH]; intro H; cbn; auto. rewrite (H a (or_introl eq_refl)). f_equal. apply IH. intros b I. apply H. now right. Qed.
Lemma sorted_nth_le l : StronglySorted lt l -> forall i t, nth_error l i = Some t -> (forall x, In x l -> 1 <= x) -> i < t.
Proof.
  intro H. assert (G : forall a, (forall x, In x l -> a <= x) -> forall i t, nth_error l i = Some t -> a + i <= t).
  { induction H as [|x l Sl IH F]; intros a A i t E; [destruct i; discriminate|]. destruct i as [|i]; cbn in E.
    - injection E as <-. specialize (A x (or_introl eq_refl)). lia.
    - specialize (IH (S a)). assert (S a + i <= t); [|lia]. apply IH; auto. intros y I. rewrite Forall_forall in F. specialize (F y I). specialize (A x (or_introl eq_refl)). lia. }
  intros i t E A. specialize (G 1 A i t E). lia.
Qed.
Lemma filter_position (f : nat -> bool) n : forall s i t, nth_error (filter f (seq s n)) i = Some t ->
  s <= t < s + n /\ i = length (filter f (seq s (t - s))) /\ f t = true.
Proof.
  induction n as [|n IH]; intros s i t E; cbn [seq filter] in E; [destruct i; discriminate|]. destruct (f s) eqn:Fs.
  - destruct i as [|i]; cbn in E.
    + injection E as <-. rewrite Nat.sub_diag. cbn. repeat split; auto; lia.
    + apply IH in E as (L & E & Ft). split; [lia|]. split; auto. replace (t - s) with (S (t - S s)) by lia. cbn [seq filter]. rewrite Fs. cbn. lia.
  - apply IH in E as (L & E & Ft). split; [lia|]. split; auto. replace (t - s) with (S (t - S s)) by lia. cbn [seq filter]. rewrite Fs. auto.
Qed.
Lemma filter_split {A} (f : A -> bool) l : length (filter f l) + length (filter (fun x => negb (f x)) l) = length l.
Proof. induction l as [|a l IH]; [reflexivity|]. cbn. destruct (f a); cbn; lia. Qed.
Lemma NoDup_same_length {A} (l l' : list A) : NoDup l -> NoDup l' -> (forall x, In x l <-> In x l') -> length l = length l'.
Proof. intros N N' H. apply Permutation_length, NoDup_Permutation; auto. Qed.

Lemma nth_firstn {A} n (l : list A) i : nth_error (firstn n l) i = if i <? n then nth_error l i else None.
Proof.
  destruct (Nat.ltb_spec i n); [now apply utils_proof.nth_error_firstn|]. apply nth_error_None. rewrite firstn_length. lia.
Qed.

Section Prepared.
Variables (rd : random) (x : experiment) (p : prepared).
Hypothesis G : legal x rd.
Hypothesis E : prepare rd x = Ok p.

Lemma sorted_prefix (l : list nat) n : StronglySorted le l -> StronglySorted le (firstn n l).
Proof.
  intro H. revert n. induction H as [|a l S IH F]; intros [|n]; cbn; try constructor; auto. rewrite Forall_forall in *. intros y I. apply F. now apply in_firstn in I.
Qed.
Lemma sorted_le (l : list nat) : StronglySorted le l -> forall s t a b, nth_error l s = Some a -> nth_error l t = Some b -> s <= t -> a <= b.
Proof.
  induction 1 as [|c l S IH F]; intros s t a b Es Et L; [destruct s; discriminate|]. rewrite Forall_forall in F. destruct s as [|s], t as [|t]; cbn in Es, Et; try lia.
  - assert (a = b) by congruence. lia.
  - injection Es as <-. apply F. now apply nth_error_In in Et.
  - apply (IH s t a b); auto. lia.
Qed.
Lemma labels_sorted : StronglySorted le (p_labels_all p).
Proof using G E.
  destruct (prepare_inv _ _ _ E) as [B]. destruct G as (D & Sh & _). 
  destruct (C07_each_once_and_complete _ String.eqb _ _ _ _ _ _ String.eqb_eq D Sh (pb_pair _ _ _ B)) as (_ & S & _). rewrite (pb_all _ _ _ B). destruct (x_debug x); auto using sorted_prefix.
Qed.
(** Smaller labels come before. *)
Lemma smaller_before t lab l : nth_error (p_labels_all p) t = Some lab -> l < lab -> exists s, s < t /\ nth_error (p_labels_all p) s = Some l.
Proof using G E.
  intros Et L. destruct (prepare_inv _ _ _ E) as [B]. destruct G as (D & Sh & _).
  pose proof (C07_each_once_and_complete _ String.eqb _ _ _ _ _ _ String.eqb_eq D Sh (pb_pair _ _ _ B)) as (_ & Srt & _ & Small & Cnt).
  destruct (C06_labels_faithful _ String.eqb _ _ _ _ _ _ String.eqb_eq D Sh (pb_pair _ _ _ B)) as (En & _).
  assert (Ep : nth_error (pb_labels _ _ _ B) t = Some lab).
  { rewrite (pb_all _ _ _ B) in Et. destruct (x_debug x); auto. rewrite nth_firstn in Et. destruct (t <? 200); auto; discriminate. }
  assert (Il : In l (pb_labels _ _ _ B)).
  { destruct (Cnt l) as [I _]; [intros nm In; apply (Small lab (nth_error_In _ _ Ep)) in In; lia|].
    apply (count_occ_In Nat.eq_dec). apply in_map_iff in I as ([nm ls] & <- & I). cbn [fst snd]. rewrite En in I.
    assert (X : distinct_labels nm ls).
    { clear - D I. revert D I. generalize (map ld_labels (x_loaders x)). generalize (r_names rd). intros o. induction o as [|a o IH]; intros l D I; inversion D; subst; [destruct I|].
      destruct I as [I|I]; [congruence|eauto]. }
    assert (Inm : In nm (p_names p)) by (rewrite En; exact (in_combine_l _ _ _ _ I)).
    pose proof (Small lab (nth_error_In _ _ Ep) nm Inm) as Ln. destruct (nth_error nm l) as [w|] eqn:Ew; [|apply nth_error_None in Ew; lia].
    apply nth_error_In in Ew. apply (proj2 X) in Ew. unfold count. clear - Ew. induction ls as [|v ls IH]; [destruct Ew|]. cbn. destruct (String.eqb_spec w v); cbn; [lia|].
    destruct Ew; [congruence|auto]. }
  apply In_nth_error in Il as [s Es]. destruct (Nat.lt_ge_cases s t) as [Lt|Ge]; [|assert (lab <= l) by exact (sorted_le _ Srt t s lab l Ep Es Ge); lia].
  exists s. split; auto. rewrite (pb_all _ _ _ B) in *. destruct (x_debug x); auto. rewrite nth_firstn in *. destruct (Nat.ltb_spec t 200); [|discriminate]. destruct (Nat.ltb_spec s 200); [auto|lia].
Qed.

(** An example is the first sample of its label. *)
Lemma occurrences_seq (labels : list nat) l : forall k, map fst (filter (fun q => snd q =? l) (combine (seq k (length labels)) labels)) =
  filter (fun i => nth (i - k) labels (S l) =? l) (seq k (length labels)).
Proof.
  induction labels as [|a labels IH]; intro k; [reflexivity|]. cbn [length seq combine filter snd fst map]. rewrite Nat.sub_diag. change (nth 0 (a :: labels) (S l)) with a.
  assert (X : filter (fun i => nth (i - k) (a :: labels) (S l) =? l) (seq (S k) (length labels)) = filter (fun i => nth (i - S k) labels (S l) =? l) (seq (S k) (length labels))).
  { apply filter_ext_in. intros i I. apply in_seq in I. replace (i - k) with (S (i - S k)) by lia. reflexivity. }
  destruct (a =? l); cbn [map fst]; rewrite IH, X; reflexivity.
Qed.
Lemma example_first e : In e (p_examples p) <-> exists l, nth_error (p_labels_all p) e = Some l /\ forall s, s < e -> nth_error (p_labels_all p) s <> Some l.
Proof using G E.
  destruct (prepare_inv _ _ _ E) as [B]. destruct G as (_ & _ & _ & D). specialize (D _ _ _ (pb_pair _ _ _ B)). rewrite <- (pb_all _ _ _ B) in D. destruct D as [Nl Il].
  destruct (chose_examples_spec Nat.eqb (p_labels_all p) (r_label_set rd) 1) as [[Oc Ex]|[_ Ex]]; rewrite (pb_ex _ _ _ B) in Ex; [|discriminate].
  assert (Ee : p_examples p = flat_map (fun l => firstn 1 (occurrences Nat.eqb (p_labels_all p) l)) (r_label_set rd)) by congruence. rewrite Ee, in_flat_map.
  assert (Fi : forall l, In e (firstn 1 (occurrences Nat.eqb (p_labels_all p) l)) <-> nth_error (p_labels_all p) e = Some l /\ forall s, s < e -> nth_error (p_labels_all p) s <> Some l).
  { intro l. assert (I : forall i, In i (occurrences Nat.eqb (p_labels_all p) l) <-> nth_error (p_labels_all p) i = Some l) by (intro; apply (in_occurrences Nat.eqb Nat.eqb_eq)).
    assert (So : StronglySorted lt (occurrences Nat.eqb (p_labels_all p) l)) by (unfold occurrences; rewrite occurrences_seq; apply plots_proof.sorted_filter).
    destruct So as [|a o So F]; cbn; [split; [tauto|intros [H _]; apply (I e) in H; destruct H]|]. rewrite Forall_forall in F. split.
    - intros [<-|[]]. split; [apply I; now left|]. intros s Ls Es. apply I in Es as [Es|Es]; [lia|]. apply F in Es. lia.
    - intros [H1 H2]. left. apply (I e) in H1 as [H1|H1]; auto. exfalso. apply (H2 a); [auto|]. apply I. now left. }
  split.
  - intros (l & _ & H). exists l. now apply Fi.
  - intros (l & H). exists l. split; [apply Il; destruct H as [H _]; now apply nth_error_In in H|now apply Fi].
Qed.

Lemma examples_before t lab : nth_error (p_labels_all p) t = Some lab -> ~ In t (p_examples p) ->
  length (filter (fun e => nat_mem e (p_examples p)) (seq 0 t)) = S lab.
Proof using G E.
  intros Et Nt. set (F := filter _ _). assert (IF : forall e, In e F <-> e < t /\ In e (p_examples p)) by (intro e; unfold F; rewrite filter_In, in_seq, nat_mem_in; intuition lia).
  assert (NF : NoDup F) by (apply NoDup_filter, seq_NoDup).
  rewrite <- (map_length (fun e => nth e (p_labels_all p) 0)). transitivity (length (seq 0 (S lab))); [|apply seq_length].
  assert (Lab : forall e l, nth_error (p_labels_all p) e = Some l -> nth e (p_labels_all p) 0 = l) by (intros; now apply nth_error_nth).
  apply NoDup_same_length; [|apply seq_NoDup|].
  - apply experiment_keys.NoDup_map_inj; auto. intros a b Ia Ib Eab. apply IF in Ia as [_ Ia], Ib as [_ Ib]. apply example_first in Ia as (l & Ea & Fa). apply example_first in Ib as (l' & Eb & Fb).
    rewrite (Lab _ _ Ea), (Lab _ _ Eb) in Eab. subst l'. destruct (Nat.lt_trichotomy a b) as [C|[C|C]]; auto; [exfalso; exact (Fb _ C Ea)|exfalso; exact (Fa _ C Eb)].
  - intro l. rewrite in_map_iff, in_seq. split.
    + intros (e & <- & I). apply IF in I as [Le I]. apply example_first in I as (l & Ee & _). rewrite (Lab _ _ Ee). assert (l <= lab) by (apply (sorted_le _ labels_sorted e t); auto; lia). lia.
    + intros [_ Ll]. assert (Ex : exists s, s <= t /\ nth_error (p_labels_all p) s = Some l).
      { destruct (Nat.eq_dec l lab) as [->|]; [exists t; auto|]. destruct (smaller_before t lab l Et) as (s & Ls & Es); [lia|]. exists s. split; auto. lia. }
      (* the first one *)
      assert (First : exists e, e <= t /\ nth_error (p_labels_all p) e = Some l /\ forall s, s < e -> nth_error (p_labels_all p) s <> Some l).
      { destruct Ex as (s & Ls & Es). revert Ls Es. induction s as [s IH] using lt_wf_ind. intros Ls Es.
        destruct (in_dec Nat.eq_dec l (firstn s (p_labels_all p))) as [I|N].
        - apply In_nth_error in I as [k Ek]. rewrite nth_firstn in Ek. destruct (Nat.ltb_spec k s); [|discriminate]. apply (IH k); auto. lia.
        - exists s. split; auto. split; auto. intros k Lk Ek. apply N. apply (nth_error_In _ k). rewrite nth_firstn. now rewrite (proj2 (Nat.ltb_lt _ _) Lk). }
      destruct First as (e & Le & Ee & Fe). exists e. split; [now apply Lab|]. apply IF. assert (I : In e (p_examples p)) by (apply example_first; eauto). split; auto.
      destruct (Nat.eq_dec e t) as [->|]; [contradiction|lia].
Qed.

Lemma others_at i t : nth_error (p_others p) i = Some t -> t < length (p_labels_all p) /\ ~ In t (p_examples p) /\ i = length (filter (fun e => negb (nat_mem e (p_examples p))) (seq 0 t)).
Proof using E.
  destruct (prepare_inv _ _ _ E) as [B]. rewrite (pb_others _ _ _ B). intro H. apply filter_position in H as (L & -> & F). rewrite Nat.sub_0_r. split; [lia|]. split; auto.
  intro I. apply nat_mem_in in I. rewrite I in F. discriminate.
Qed.
Lemma position i t lab : tested p i t lab -> t = i + lab + 1.
Proof using G E.
  intros [Ho Hl]. destruct (others_at i t Ho) as (L & N & Ei). pose proof (examples_before t lab Hl N) as Ex. pose proof (filter_split (fun e => nat_mem e (p_examples p)) (seq 0 t)) as Sp.
  rewrite seq_length in Sp. lia.
Qed.
Lemma tested_some i : i < length (p_others p) -> exists t lab, tested p i t lab.
Proof using E.
  intro L. destruct (nth_error (p_others p) i) as [t|] eqn:Et; [|apply nth_error_None in Et; lia]. destruct (others_at i t Et) as (Lt & _).
  destruct (nth_error (p_labels_all p) t) as [lab|] eqn:El; [|apply nth_error_None in El; lia]. exists t, lab. split; auto.
Qed.

Lemma pairing_length : length (p_labels_all p) <= length (p_pairing p).
Proof using G E. destruct (prepared_rows _ _ _ G E) as (-> & _). unfold kept_rows. destruct (x_debug x); lia. Qed.

Lemma idx_made m te : m < length (x_loaders x) -> Forall (fun i => i < length (p_others p)) te ->
  test_idx (p_pairing p) m te = Ok (map (source p m) te).
Proof using G E.
  intros Lm F. unfold test_idx. apply mapM_pure. intros i I. rewrite Forall_forall in F. specialize (F i I). destruct (tested_some i F) as (t & lab & T). pose proof (position _ _ _ T).
  destruct (others_at i t (proj1 T)) as (Lt & _). pose proof pairing_length as Lp. destruct (prepare_inv _ _ _ E) as [B]. destruct (tuple_at rd x p G B i) as (tup & Et & Ltup); [lia|].
  rewrite (proj2 (py_nth_nat_ok _ _ _) Et). cbn [bind]. rewrite py_nth_nat. unfold source. rewrite (nth_error_nth _ _ _ Et).
  rewrite (nth_error_nth' tup 0) by lia. reflexivity.
Qed.

(** ** C93. *)
Lemma never_tested m te : m < length (x_loaders x) -> Forall (fun i => i < length (p_others p)) te ->
  exists idx, test_idx (p_pairing p) m te = Ok idx /\
    Forall2 (fun i r => exists t lab, tested p i t lab /\ r <> source p m t) te idx.
Proof using G E.
  intros Lm F. exists (map (source p m) te). split; [now apply idx_made|]. apply plots_proof.Forall2_map_r. intros i I. rewrite Forall_forall in F. specialize (F i I).
  destruct (tested_some i F) as (t & lab & T). exists t, lab. split; auto. intro C. pose proof (position _ _ _ T). destruct (others_at i t (proj1 T)) as (Lt & _). pose proof pairing_length as Lp.
  assert (i = t); [|lia]. apply (prepared_distinct _ _ _ G E m i t); auto; lia.
Qed.
Lemma list_max_in (l : list nat) : l <> [] -> exists i, In i l /\ forall j, In j l -> j <= i.
Proof.
  induction l as [|a l IH]; [congruence|]. intros _. destruct l as [|b l]; [exists a; split; [now left|]; intros j [<-|[]]; auto|].
  destruct IH as (i & I & H); [discriminate|]. destruct (Nat.le_gt_cases a i); [exists i|exists a]; (split; [cbn; auto|]); intros j [<-|J]; try lia; apply H in J; lia.
Qed.
Lemma unmarked m te ld : nth_error (x_loaders x) m = Some ld -> te <> [] -> Forall (fun i => i < length (p_others p)) te ->
  exists idx i t lab, test_idx (p_pairing p) m te = Ok idx /\ In i te /\ tested p i t lab /\
    in_test_records idx (source p m t) = false /\ In (source p m t) (train_records (length (ld_labels ld)) idx).
Proof using G E.
  intros Em Nt F. assert (Lm : m < length (x_loaders x)) by (apply nth_error_Some; congruence). destruct (list_max_in te Nt) as (i & I & Max). pose proof F as F'. rewrite Forall_forall in F'.
  destruct (tested_some i (F' i I)) as (t & lab & T). exists (map (source p m) te), i, t, lab. split; [now apply idx_made|]. split; auto. split; auto.
  assert (X : in_test_records (map (source p m) te) (source p m t) = false).
  { apply not_true_iff_false. intro C. apply existsb_exists in C as (r & Ir & Er). apply Nat.eqb_eq in Er. subst r. apply in_map_iff in Ir as (j & Ej & Ij).
    pose proof (position _ _ _ T). destruct (others_at i t (proj1 T)) as (Lt & _). pose proof pairing_length as Lp. specialize (Max j Ij). assert (j = t); [|lia]. apply (prepared_distinct _ _ _ G E m j t); auto; lia. }
  split; auto. unfold train_records. apply filter_In. rewrite X. split; auto. apply in_seq. destruct (prepared_labels _ _ _ G E t lab m ld (proj2 T) Em) as (nm & s & _ & _ & Es).
  assert (nth_error (ld_labels ld) (source p m t) <> None) as Ls by congruence. apply nth_error_Some in Ls. lia.
Qed.

Lemma earlier_run t lab : nth_error (p_labels_all p) t = Some lab -> forall i, i <= t -> (nth_error (p_labels_all p) i = Some lab <-> t - i <= earlier (p_labels_all p) t).
Proof using G E.
  intros Et i Li. unfold earlier. rewrite (nth_error_nth _ _ 0 Et).
  assert (K : forall n, n <= t -> (forall s, t - n <= s -> s < t -> nth_error (p_labels_all p) s = Some lab) -> n <= length (filter (fun s => nth s (p_labels_all p) 0 =? lab) (seq 0 t))).
  { intros n Ln H. replace (seq 0 t) with (seq 0 ((t - n) + n)) by (f_equal; lia). rewrite seq_app, filter_app, app_length. replace (filter (fun s => nth s (p_labels_all p) 0 =? lab) (seq (0 + (t - n)) n)) with (seq (0 + (t - n)) n); [rewrite seq_length; lia|].
    symmetry. apply filter_all. intros s I. apply in_seq in I. apply Nat.eqb_eq. apply nth_error_nth. apply H; lia. }
  split.
  - intro Ei. apply K; [lia|]. intros s L1 L2. destruct (nth_error (p_labels_all p) s) as [l|] eqn:Es; [|apply nth_error_None in Es; assert (t < length (p_labels_all p)) by (apply nth_error_Some; congruence); lia].
    pose proof (sorted_le _ labels_sorted i s lab l Ei Es ltac:(lia)). pose proof (sorted_le _ labels_sorted s t l lab Es Et ltac:(lia)). f_equal. lia.
  - intro H. destruct (nth_error (p_labels_all p) i) as [l|] eqn:Ei; [|apply nth_error_None in Ei; assert (t < length (p_labels_all p)) by (apply nth_error_Some; congruence); lia].
    destruct (Nat.eq_dec l lab) as [->|D]; auto. exfalso. assert (l <= lab) by (apply (sorted_le _ labels_sorted i t); auto).
    (* nothing at or before [i] has the label *)
    assert (Z : filter (fun s => nth s (p_labels_all p) 0 =? lab) (seq 0 (S i)) = []).
    { destruct (filter _ (seq 0 (S i))) as [|s r] eqn:Ef; auto. exfalso. assert (I : In s (filter (fun s => nth s (p_labels_all p) 0 =? lab) (seq 0 (S i)))) by (rewrite Ef; now left).
      apply filter_In in I as [I Es]. apply in_seq in I. apply Nat.eqb_eq in Es. destruct (nth_error (p_labels_all p) s) as [l'|] eqn:Es'; [|apply nth_error_None in Es'; assert (i < length (p_labels_all p)) by (apply nth_error_Some; congruence); lia].
      rewrite (nth_error_nth _ _ _ Es') in Es. subst l'. pose proof (sorted_le _ labels_sorted s i lab l Es' Ei ltac:(lia)). lia. }
    destruct (Nat.eq_dec i t) as [->|]; [congruence|].
    replace (seq 0 t) with (seq 0 (S i + (t - S i))) in H by (f_equal; lia). rewrite seq_app, filter_app, app_length, Z in H. cbn [length] in H.
    assert (length (filter (fun s => nth s (p_labels_all p) 0 =? lab) (seq (0 + S i) (t - S i))) <= t - S i) by (rewrite <- (seq_length (t - S i) (0 + S i)) at 2; apply filter_length_le). lia.
Qed.

Lemma labels_read m te ld names idx : nth_error (x_loaders x) m = Some ld -> nth_error (p_names p) m = Some names -> Forall (fun i => i < length (p_others p)) te -> test_idx (p_pairing p) m te = Ok idx ->
  exists ls, test_labels names (ld_labels ld) idx = Ok ls /\
    Forall2 (fun i l => exists t lab, tested p i t lab /\ l <= lab /\ (l = lab <-> lab < earlier (p_labels_all p) t)) te ls.
Proof using G E.
  intros Em En F Ei. assert (Lm : m < length (x_loaders x)) by (apply nth_error_Some; congruence). rewrite (idx_made m te Lm F) in Ei. assert (idx = map (source p m) te) by congruence. subst idx. clear Ei.
  exists (map (fun i => nth i (p_labels_all p) 0) te). split.
  - unfold test_labels. rewrite angle_vq.mapM_map. apply mapM_pure. intros i I. rewrite Forall_forall in F. specialize (F i I). destruct (tested_some i F) as (t & lab & T). pose proof (position _ _ _ T). destruct (others_at i t (proj1 T)) as (Lt & _).
    destruct (nth_error (p_labels_all p) i) as [l|] eqn:El; [|apply nth_error_None in El; lia]. rewrite (nth_error_nth _ _ _ El).
    destruct (prepared_labels _ _ _ G E i l m ld El Em) as (nm & s & En' & Es & Eld). assert (nm = names) by congruence. subst nm. rewrite (proj2 (py_nth_nat_ok _ _ _) Eld). cbn [bind].
    destruct (prepare_inv _ _ _ E) as [B]. destruct G as (D & Sh & _). destruct (C06_labels_faithful _ String.eqb _ _ _ _ _ _ String.eqb_eq D Sh (pb_pair _ _ _ B)) as (Enm & _). rewrite Enm in En.
    destruct (Forall2_nth _ _ _ D _ _ En) as (lb & _ & Nd & _). exact (index_from_ok s names 0 l Es Nd).
  - apply plots_proof.Forall2_map_r. intros i I. rewrite Forall_forall in F. specialize (F i I). destruct (tested_some i F) as (t & lab & T). exists t, lab. split; auto. pose proof (position _ _ _ T) as Pt. destruct (others_at i t (proj1 T)) as (Lt & _).
    destruct (nth_error (p_labels_all p) i) as [l|] eqn:El; [|apply nth_error_None in El; lia]. rewrite (nth_error_nth _ _ _ El). split; [apply (sorted_le _ labels_sorted i t); auto; [exact (proj2 T)|lia]|].
    pose proof (earlier_run t lab (proj2 T) i ltac:(lia)) as R. rewrite El in R. split.
    + intros ->. assert (t - i <= earlier (p_labels_all p) t) by (apply R; reflexivity). lia.
    + intro H. assert (Some l = Some lab) by (apply R; lia). congruence.
Qed.
End Prepared.

(** ** The confusion matrix. *)
Definition square (n : nat) (m : list (list nat)) : Prop := length m = n /\ forall row, In row m -> length row = n.
Lemma add_one_ok n m l f : square n m -> l < n -> f < n -> exists m', add_one m l f = Ok m' /\ square n m' /\
  forall a b, entry m' a b = entry m a b + (if (l =? a) && (f =? b) then 1 else 0).
Proof.
  intros [Lm Lr] Hl Hf. destruct (nth_error m l) as [row|] eqn:Er; [|apply nth_error_None in Er; lia]. pose proof (Lr row (nth_error_In _ _ Er)) as Lrow.
  unfold add_one. rewrite (proj2 (py_nth_nat_ok _ _ _) Er). cbn [bind]. rewrite (sound_count.py_nth_in row f 0) by lia. cbn [bind]. rewrite sound_count.py_set_in by lia. cbn [bind].
  rewrite sound_count.py_set_in by lia. eexists. split; [reflexivity|]. split.
  - split; [now rewrite list_set_length|]. intros r I. apply sound_proof.In_list_set in I as [->|I]; auto. now rewrite list_set_length.
  - intros a b. unfold entry. rewrite sound_count.nth_list_set by lia. rewrite (Nat.eqb_sym l a). destruct (Nat.eqb_spec a l) as [->|D]; cbn [andb]; [|lia].
    rewrite sound_count.nth_list_set by lia. rewrite (nth_error_nth _ _ _ Er), (Nat.eqb_sym f b). destruct (Nat.eqb_spec b f) as [->|D']; lia.
Qed.
Lemma square_zero n : square n (repeat (repeat 0 n) n).
Proof. split; [apply repeat_length|]. intros row I. apply repeat_spec in I as ->. apply repeat_length. Qed.
Lemma entry_zero n a b : entry (repeat (repeat 0 n) n) a b = 0.
Proof.
  unfold entry. destruct (Nat.lt_ge_cases a n) as [L|L]; [|rewrite (nth_overflow _ _ (n := a)) by (rewrite repeat_length; lia); now destruct b].
  rewrite (nth_error_nth _ _ _ (nth_error_repeat (repeat 0 n) L)). destruct (Nat.lt_ge_cases b n) as [L'|L']; [|apply nth_overflow; rewrite repeat_length; lia].
  exact (nth_error_nth _ _ _ (nth_error_repeat 0 L')).
Qed.
Lemma confusion_loop n l : (forall q, In q l -> fst q < n /\ snd q < n) -> forall m, square n m -> exists m', foldM (fun m q => add_one m (fst q) (snd q)) l m = Ok m' /\ square n m' /\
  forall a b, entry m' a b = entry m a b + length (filter (fun p => (fst p =? a) && (snd p =? b)) l).
Proof.
  induction l as [|[x y] l IH]; intros H m Sm; cbn [foldM]; [exists m; repeat split; try apply Sm; intros; cbn; lia|].
  destruct (H (x, y) (or_introl eq_refl)) as [Hx Hy]. destruct (add_one_ok n m x y Sm Hx Hy) as (m1 & E1 & S1 & C1). cbn [fst snd] in *. rewrite E1. cbn [bind].
  destruct (IH (fun q I => H q (or_intror I)) m1 S1) as (m2 & E2 & S2 & C2). exists m2. split; auto. split; auto. intros a b. rewrite C2, C1. cbn [filter fst snd]. destruct ((x =? a) && (y =? b)); cbn [length]; lia.
Qed.
Lemma confusion_counts n labels found : length labels = length found -> Forall (fun l => l < n) labels -> Forall (fun l => l < n) found ->
  exists m, confusion n labels found = Ok m /\ length m = n /\ (forall row, In row m -> length row = n) /\ forall a b, entry m a b = together a b labels found.
Proof.
  intros L F1 F2. unfold confusion. rewrite (proj2 (Nat.eqb_eq _ _) L). cbn [py_assert bind]. rewrite Forall_forall in *.
  destruct (confusion_loop n (combine labels found)) with (m := repeat (repeat 0 n) n) as (m & E & [S1 S2] & C); [|apply square_zero|].
  - intros [x y] I. split; [apply F1; exact (in_combine_l _ _ _ _ I)|apply F2; exact (in_combine_r _ _ _ _ I)].
  - exists m. split; auto. split; auto. split; auto. intros a b. rewrite C, entry_zero. reflexivity.
Qed.
Lemma confusion_lengths n labels found : length labels <> length found -> confusion n labels found = Err AssertionError.
Proof. intro L. unfold confusion. now rewrite (proj2 (Nat.eqb_neq _ _) L). Qed.

(** With all labels found, the matrix is diagonal exactly when each tested sample comes late
    enough among those of its label. *)
Lemma together_off l l' : length l = length l' -> ((forall a b, a <> b -> together a b l l' = 0) <-> l = l').
Proof.
  intro L. split.
  - revert l' L. induction l as [|a l IH]; intros [|b l'] L H; try discriminate; auto. f_equal.
    + destruct (Nat.eq_dec a b) as [|D]; auto. specialize (H a b D). unfold together in H. cbn in H. rewrite !Nat.eqb_refl in H. discriminate.
    + apply IH; [now injection L|]. intros u v D. specialize (H u v D). unfold together in *. cbn [combine filter fst snd] in H. destruct ((a =? u) && (b =? v)); cbn in H; [discriminate|auto].
  - intros <- a b D. unfold together. clear L. induction l as [|u l IH]; [reflexivity|]. cbn [combine filter fst snd].
    destruct (Nat.eqb_spec u a) as [->|]; cbn [andb]; auto. destruct (Nat.eqb_spec a b); [contradiction|auto].
Qed.
Lemma perfect rd x p m te ld names idx ls n truth M : legal x rd -> prepare rd x = Ok p ->
  nth_error (x_loaders x) m = Some ld -> nth_error (p_names p) m = Some names -> Forall (fun i => i < length (p_others p)) te ->
  test_idx (p_pairing p) m te = Ok idx -> test_labels names (ld_labels ld) idx = Ok ls ->
  Forall2 (fun i lab => exists t, tested p i t lab) te truth -> n = length names -> confusion n ls truth = Ok M ->
  ((forall a b, a <> b -> entry M a b = 0) <-> Forall (fun i => forall t lab, tested p i t lab -> lab < earlier (p_labels_all p) t) te).
Proof.
  intros G E Em En F Ei El Ft -> Ec. destruct (labels_read rd x p G E m te ld names idx Em En F Ei) as (ls' & El' & Fl). assert (ls' = ls) by congruence. subst ls'.
  assert (Un : forall i t lab t' lab', tested p i t lab -> tested p i t' lab' -> t = t' /\ lab = lab') by (intros i t lab t' lab' [A1 A2] [B1 B2]; assert (t = t') by congruence; subst; split; congruence).
  assert (Ll : length ls = length truth).
  { unfold confusion in Ec. destruct (Nat.eqb_spec (length ls) (length truth)); auto. discriminate. }
  assert (C : forall a b, entry M a b = together a b ls truth).
  { assert (B1 : Forall (fun l => l < length names) truth).
    { rewrite Forall_forall. intros lab I. apply In_nth_error in I as [k Ek]. destruct (Forall2_nth_r _ _ _ Ft _ _ Ek) as (i & _ & t & T). destruct (prepared_labels _ _ _ G E t lab m ld (proj2 T) Em) as (nm & s & E1 & E2 & _).
      assert (nm = names) by congruence. subst. apply nth_error_Some. congruence. }
    assert (B2 : Forall (fun l => l < length names) ls).
    { rewrite Forall_forall in *. intros l I. apply In_nth_error in I as [k Ek]. destruct (Forall2_nth_r _ _ _ Fl _ _ Ek) as (i & Eik & t & lab & T & Le & _). destruct (Forall2_nth _ _ _ Ft _ _ Eik) as (lab' & Et' & t' & T').
      destruct (Un _ _ _ _ _ T T') as [_ <-]. apply nth_error_In in Et'. apply B1 in Et'. lia. }
    destruct (confusion_counts (length names) ls truth Ll B2 B1) as (M' & EM & _ & _ & H). intros a b. rewrite <- H. congruence. }
  transitivity (forall a b, a <> b -> together a b ls truth = 0); [split; intros H a b D; specialize (H a b D); rewrite C in *; auto|]. rewrite (together_off ls truth Ll). clear C Ec M El El' Ei idx F Em En. split.
  - intros ->. clear Ll. induction Ft as [|i lab te truth [t T] Ft IH]; constructor; inversion Fl; subst; auto. intros t' lab' T'. destruct (Un _ _ _ _ _ T T') as [<- <-].
    match goal with H : exists _ _, _ |- _ => destruct H as (t2 & lab2 & T2 & _ & Hi) end. destruct (Un _ _ _ _ _ T T2) as [<- <-]. now apply Hi.
  - intro F. revert ls Fl Ll. induction Ft as [|i lab te truth [t T] Ft IH]; intros ls Fl Ll; inversion Fl as [|? l ? ls' (t2 & lab2 & T2 & _ & Hi) Fl']; subst; auto. inversion_clear F as [|? ? F1 F2].
    destruct (Un _ _ _ _ _ T T2) as [<- <-]. f_equal; [apply Hi, (F1 _ _ T)|]. apply IH; auto.
Qed.
