(** * Optimality of the Hungarian method over exact rationals. *)

From Coq Require Import List Arith Bool Lia Permutation QArith Lqa Setoid.
Import ListNotations.
From Verif Require Import Py Py_proof ListUtil munkres_model munkres_proof munkres_spec.
Local Open Scope nat_scope.

Notation bgraphQ := (bgraph Qarith).
Notation slackQ := (slack Qarith).

Definition slk (g : bgraphQ) (u v : nat) : Q :=
  (lab0 Qarith g u + lab1 Qarith g v - bg_w Qarith g u v)%Q.

Lemma slack_slk g u v : slackQ g u v = slk g u v.
Proof. reflexivity. Qed.

Lemma Qsel : nmin_select Qarith.
Proof. intros a b. simpl. destruct (Qle_bool a b); auto. Qed.
Lemma Qrefl : neqb_reflexive Qarith.
Proof. intros a. simpl. apply Qeq_bool_iff. reflexivity. Qed.

Lemma fold_qmin_le (l : list Q) : forall x y, In y (x :: l) ->
  (fold_left (nmin Qarith) l x <= y)%Q.
Proof.
  induction l as [|z l IH]; intros x y Hy.
  - destruct Hy as [<-|[]]. apply Qle_refl.
  - simpl fold_left.
    set (m := if Qle_bool x z then x else z).
    assert (Hm : (m <= x)%Q /\ (m <= z)%Q).
    { unfold m. destruct (Qle_bool x z) eqn:E.
      - apply Qle_bool_iff in E. split; [apply Qle_refl|exact E].
      - split; [|apply Qle_refl].
        destruct (Qlt_le_dec x z) as [H|H]; [|exact H].
        apply Qlt_le_weak, Qle_bool_iff in H. congruence. }
    destruct Hy as [<-|[<-|Hy]].
    + eapply Qle_trans; [apply (IH m m); left; reflexivity|apply Hm].
    + eapply Qle_trans; [apply (IH m m); left; reflexivity|apply Hm].
    + apply (IH m y). right; exact Hy.
Qed.

Lemma fold_qmax_ge (l : list Q) : forall x y, In y (x :: l) ->
  (y <= fold_left (nmax Qarith) l x)%Q.
Proof.
  induction l as [|z l IH]; intros x y Hy.
  - destruct Hy as [<-|[]]. apply Qle_refl.
  - simpl fold_left.
    set (m := if Qle_bool x z then z else x).
    assert (Hm : (x <= m)%Q /\ (z <= m)%Q).
    { unfold m. destruct (Qle_bool x z) eqn:E.
      - apply Qle_bool_iff in E. split; [exact E|apply Qle_refl].
      - split; [apply Qle_refl|].
        destruct (Qlt_le_dec x z) as [H|H]; [|exact H].
        apply Qlt_le_weak, Qle_bool_iff in H. congruence. }
    destruct Hy as [<-|[<-|Hy]].
    + eapply Qle_trans; [apply Hm|apply (IH m m); left; reflexivity].
    + eapply Qle_trans; [apply Hm|apply (IH m m); left; reflexivity].
    + apply (IH m y). right; exact Hy.
Qed.

(** ** Invariants on labels. *)

Record LI (g : bgraphQ) : Prop := {
  li_feas : forall u v, u < bg_n _ g -> v < bg_n _ g -> (0 <= slk g u v)%Q;
  li_match : forall u v, mat0 _ g u = Some v -> (slk g u v == 0)%Q
}.
Definition LT (g : bgraphQ) (t : tree) : Prop :=
  forall v u, tfather t v = Some u -> (slk g u v == 0)%Q.

Lemma LT_attach g l t :
  LT g t -> (forall u v, In (u, v) l -> tfather t v = None -> (slk g u v == 0)%Q) ->
  LT g (attach_all l t).
Proof.
  intros H Hl v u E.
  destruct (attach_all_spec l t) as (_ & _ & _ & Hn & _).
  destruct (Hn v u E) as [E'|[E' Hin]]; auto.
Qed.

Lemma LT_explore g t u : LT g t -> LT g (explore Qarith g t u).
Proof.
  intros H. destruct (tS t u) eqn:E.
  - unfold explore. rewrite E. exact H.
  - rewrite explore_pairs by exact E. apply LT_attach; [exact H|].
    intros a b Hin _. apply in_map_iff in Hin as (v & Ev & Hv).
    injection Ev as <- <-. apply filter_In in Hv as [_ Hv].
    apply Qeq_bool_iff in Hv. rewrite <- Hv. reflexivity.
Qed.

Lemma update_labels_slk g r o t alpha :
  TI Qarith g r o t -> tstack t = [] -> LI g -> LT g t ->
  np_min Qarith (open_slacks Qarith g t) = Ok alpha ->
  LI (update_labels Qarith g t alpha) /\
  LT (update_labels Qarith g t alpha) (attach_all (argmin_pairs Qarith g t alpha) t).
Proof.
  intros HT Est HL HLT Ea.
  set (g' := update_labels Qarith g t alpha).
  set (n := bg_n _ g).
  assert (Hin : In alpha (open_slacks Qarith g t) /\
     forall y, In y (open_slacks Qarith g t) -> (alpha <= y)%Q).
  { destruct (open_slacks Qarith g t) as [|x l] eqn:E; [discriminate|].
    simpl in Ea. injection Ea as <-. split.
    - apply fold_nmin_in, Qsel.
    - intros y. apply fold_qmin_le. }
  destruct Hin as [Hin Hmin].
  assert (Hpos : (0 <= alpha)%Q).
  { apply in_open_slacks in Hin as (u & v & Hu & Hv & _ & _ & ->).
    apply (li_feas _ HL); assumption. }
  assert (Hmin' : forall u v, u < n -> v < n -> tS t u = true -> tT t v = false ->
            (alpha <= slk g u v)%Q).
  { intros u v Hu Hv HS HvT. apply Hmin. apply in_open_slacks.
    exists u, v. repeat split; assumption. }
  assert (Hslk : forall u v, u < n -> v < n ->
     slk g' u v = ((if tS t u then lab0 _ g u - alpha else lab0 _ g u) +
                   (if tT t v then lab1 _ g v + alpha else lab1 _ g v)
                   - bg_w _ g u v)%Q).
  { intros u v Hu Hv. unfold slk, g', update_labels. simpl.
    apply Nat.ltb_lt in Hu, Hv. fold n. rewrite Hu, Hv. reflexivity. }
  destruct HT as [h1 h2 h3 h4 h5 h6 h7 h8 h9 h10 h11].
  assert (Hst : forall v u, tfather t v = Some u -> tT t v = true).
  { intros v u E. destruct (tT t v) eqn:ET; [reflexivity|].
    assert (In v (tstack t)) by (apply h6; rewrite E; split; [discriminate|exact ET]).
    rewrite Est in H. destruct H. }
  split; [constructor|].
  - simpl. intros u v Hu Hv. rewrite Hslk by assumption.
    pose proof (li_feas _ HL u v Hu Hv) as H0. unfold slk in H0.
    destruct (tS t u) eqn:ES, (tT t v) eqn:ET.
    + lra.
    + specialize (Hmin' u v Hu Hv ES ET). unfold slk in Hmin'. lra.
    + lra.
    + exact H0.
  - simpl. intros u v E. pose proof (li_match _ HL u v E) as H0.
    destruct h11 as [Hinv Hrng]. destruct (Hrng _ _ E) as [Hu Hv].
    rewrite Hslk by assumption. unfold slk in H0.
    assert (HST : tS t u = tT t v).
    { apply eq_true_iff_eq. rewrite h3, h8. split.
      - intros H. exists u. auto.
      - intros (u' & Hu' & E'). apply Hinv in E, E'. congruence. }
    rewrite HST. destruct (tT t v); lra.
  - apply LT_attach.
    + intros v u E. pose proof (HLT v u E) as H0. destruct (h5 _ _ E) as [Hv Hu].
      rewrite Hslk; [|apply h2; exact Hu|exact Hv].
      rewrite (Hst _ _ E). apply h3 in Hu. rewrite Hu. unfold slk in H0. lra.
    + intros u v Hp Hf. apply in_argmin_pairs in Hp as (Hu & Hv & HS & Hq).
      rewrite Hslk by assumption. rewrite HS.
      assert (tT t v = false) as ->.
      { destruct (tT t v) eqn:ET; [|reflexivity]. apply h9 in ET. congruence. }
      apply Qeq_bool_iff in Hq. rewrite slack_slk in Hq. unfold slk in Hq. lra.
Qed.

Lemma LI_ext g g' : bg_n _ g' = bg_n _ g -> mat0 _ g' = mat0 _ g ->
  (forall u v, slk g' u v = slk g u v) -> LI g -> LI g'.
Proof.
  intros En Em Es [h1 h2]. constructor; rewrite ?En, ?Em; intros; rewrite Es; auto.
Qed.

Lemma find_path_labels r : forall fuel g o t g' t' v,
  TI Qarith g r o t -> LI g -> LT g t ->
  find_path Qarith fuel g t = Ok (g', t', v) -> LI g' /\ LT g' t'.
Proof.
  induction fuel as [|fuel IH]; intros g o t g' t' v HT HL HLT E; [discriminate|].
  simpl in E. destruct (tstack t) as [|x rest] eqn:Est.
  - destruct (TI_labels Qarith Qsel Qrefl _ _ _ _ HT Est)
      as (alpha & _ & Emin & Eq & HT' & _).
    rewrite Eq in E. simpl in E.
    destruct (update_labels_slk _ _ _ _ _ HT Est HL HLT Emin) as [HL' HLT'].
    eapply IH; eassumption.
  - destruct (mat1 Qarith g x) as [u|] eqn:Em.
    + destruct (TI_pop _ _ _ _ _ _ _ _ HT Est Em) as (_ & HT' & _).
      eapply IH; [exact HT'|exact HL| |exact E].
      apply LT_explore. intros a b Hab. exact (HLT a b Hab).
    + injection E as <- <- <-. split; [exact HL|].
      intros a b Hab. exact (HLT a b Hab).
Qed.

Lemma LT_new_tree g r : LT g (new_tree Qarith g r).
Proof. apply LT_explore. intros v u H. discriminate. Qed.

Lemma matching_loop_labels inner : forall fuel (g : bgraphQ) u g',
  2 * bg_n _ g < inner ->
  minv (bg_n _ g) (mat0 _ g) (mat1 _ g) -> LI g ->
  matching_loop Qarith fuel inner g u = Ok g' -> LI g'.
Proof.
  induction fuel as [|fuel IH]; intros g u g' Hin Hm HL E; [discriminate|].
  simpl in E. destruct (Nat.ltb_spec u (bg_n _ g)) as [Hu|Hu].
  - destruct (mat0 Qarith g u) as [v|] eqn:E0.
    + eapply IH; eassumption.
    + destruct (search_step Qarith Qsel Qrefl inner g u Hin Hm Hu E0)
        as (g1 & t & v & o & g2 & E1 & F & E2 & Hm2 & Hn2 & Hw2 & L0 & L1 & Hd2 & Hs2).
      rewrite E1 in E. simpl in E. rewrite E2 in E. simpl in E.
      destruct (TI_new_tree Qarith g u Hm Hu E0) as [HT _].
      destruct (find_path_labels u _ _ _ _ _ _ _ HT HL (LT_new_tree g u) E1) as [HL1 HT1].
      eapply (IH g2); [rewrite Hn2; exact Hin|rewrite Hn2; exact Hm2| |exact E].
      assert (Es : forall a b, slk g2 a b = slk g1 a b).
      { intros a b. unfold slk. rewrite L0, L1, Hw2, (fd_w _ _ _ _ _ _ _ F). reflexivity. }
      constructor.
      * rewrite Hn2. intros a b Ha Hb. rewrite Es. apply (li_feas _ HL1);
          rewrite (fd_n _ _ _ _ _ _ _ F); assumption.
      * intros a b Hab. rewrite Es. destruct (Hs2 _ _ Hab) as [H|H].
        -- apply (li_match _ HL1). rewrite (fd_m0 _ _ _ _ _ _ _ F). exact H.
        -- apply HT1; exact H.
  - injection E as <-. exact HL.
Qed.

(** ** Sums. *)

Definition sumf (f : nat -> Q) (l : list nat) : Q := fold_right (fun x a => (f x + a)%Q) 0%Q l.

Lemma sumf_perm f l l' : Permutation l l' -> (sumf f l == sumf f l')%Q.
Proof.
  induction 1; simpl; try lra.
Qed.

Lemma sumf_ext f g l : (forall x, In x l -> (f x == g x)%Q) -> (sumf f l == sumf g l)%Q.
Proof.
  induction l as [|x l IH]; simpl; intros H; [reflexivity|].
  rewrite (H x) by auto. rewrite IH; [reflexivity|]. auto.
Qed.

Lemma cost_ext c c' s : forall i,
  (forall a j, i <= a -> a < i + length s -> In j s -> (c a j == c' a j)%Q) ->
  (cost_from c i s == cost_from c' i s)%Q.
Proof.
  induction s as [|j s IH]; intros i H; simpl; [reflexivity|].
  rewrite (H i j); [|lia|simpl; lia|simpl; auto].
  rewrite IH; [reflexivity|]. intros a b H1 H2 H3. apply H; simpl; auto; lia.
Qed.

Lemma cost_le_split (f g : nat -> Q) c s : forall i,
  (forall a j, i <= a -> a < i + length s -> In j s -> (c a j <= f a + g j)%Q) ->
  (cost_from c i s <= sumf f (seq i (length s)) + sumf g s)%Q.
Proof.
  induction s as [|j s IH]; intros i H; simpl; [lra|].
  assert (c i j <= f i + g j)%Q by (apply H; simpl; auto; lia).
  assert (cost_from c (S i) s <= sumf f (seq (S i) (length s)) + sumf g s)%Q.
  { apply IH. intros a b H1 H2 H3. apply H; simpl; auto; lia. }
  lra.
Qed.

Lemma cost_eq_split (f g : nat -> Q) c s : forall i,
  (forall k, k < length s -> (c (i + k)%nat (nth k s 0%nat) == f (i + k)%nat + g (nth k s 0%nat))%Q) ->
  (cost_from c i s == sumf f (seq i (length s)) + sumf g s)%Q.
Proof.
  induction s as [|j s IH]; intros i H; simpl; [lra|].
  pose proof (H 0 ltac:(simpl; lia)) as H0. rewrite Nat.add_0_r in H0. simpl nth in H0.
  assert (cost_from c (S i) s == sumf f (seq (S i) (length s)) + sumf g s)%Q.
  { apply IH. intros k Hk. specialize (H (S k) ltac:(simpl; lia)).
    rewrite Nat.add_succ_r in H. exact H. }
  lra.
Qed.

Lemma is_permutation_length n s : is_permutation n s -> length s = n.
Proof. intros H. apply Permutation_length in H. rewrite seq_length in H. exact H. Qed.

Lemma is_permutation_lt n s j : is_permutation n s -> In j s -> j < n.
Proof.
  intros H Hj. apply (Permutation_in _ H) in Hj. apply in_seq in Hj. lia.
Qed.

(** ** Maximum weight matching. *)

Lemma max_weight_matching_opt fuel n w : 2 * n < fuel ->
  exists s, max_weight_matching Qarith fuel n w = Ok (map Some s) /\
    is_permutation n s /\
    (forall s', is_permutation n s' -> (cost w s' <= cost w s)%Q).
Proof.
  intros Hfuel. unfold max_weight_matching.
  destruct (init_labels_ok Qarith n w) as (l0 & E & Hl0). rewrite E. simpl.
  set (g0 := BG Qarith n w l0 (fun _ => 0%Q) (fun _ => None) (fun _ => None)).
  assert (Hm0 : minv n (mat0 _ g0) (mat1 _ g0)).
  { split; [split; discriminate|discriminate]. }
  destruct (matching_loop_total Qarith Qsel Qrefl fuel n fuel g0 0)
    as (g' & E' & H1 & H2 & H3 & H4); simpl; try lia; auto.
  change (nzero Qarith) with 0%Q. fold g0. rewrite E'. simpl. simpl in *.
  assert (HL : LI g').
  { eapply (matching_loop_labels fuel fuel g0 0); [simpl; lia|exact Hm0| |exact E'].
    constructor; simpl; [|discriminate].
    intros u v Hu Hv. unfold slk; simpl.
    specialize (Hl0 u Hu).
    assert (Hin : In (w u v) (map (w u) (seq 0 n))) by (apply in_map, in_seq; lia).
    destruct (map (w u) (seq 0 n)) as [|x l] eqn:Em; [destruct Hin|].
    simpl in Hl0. injection Hl0 as Hl0.
    pose proof (fold_qmax_ge l x _ Hin) as Hge. simpl in Hge. rewrite Hl0 in Hge. lra. }
  destruct (perfect_matching_perm n _ _ H3 H4) as [Hs Hp].
  set (s := map (fun u => unopt (mat0 _ g' u)) (seq 0 n)) in *.
  exists s. rewrite Hs. split; [reflexivity|]. split; [exact Hp|].
  intros s' Hs'.
  set (f := lab0 _ g' : nat -> Q). set (h := lab1 _ g' : nat -> Q).
  assert (A1 : (cost w s' <= sumf f (seq 0 n) + sumf h (seq 0 n))%Q).
  { rewrite <- (sumf_perm h _ _ Hs').
    rewrite <- (is_permutation_length n s' Hs') at 1.
    apply cost_le_split. intros a j _ Ha Hj.
    rewrite (is_permutation_length n s' Hs') in Ha.
    pose proof (is_permutation_lt n s' j Hs' Hj) as Hj'.
    pose proof (li_feas _ HL a j) as Hf. rewrite H1 in Hf.
    specialize (Hf Ha Hj'). unfold slk in Hf. rewrite H2 in Hf. unfold f, h. lra. }
  assert (A2 : (cost w s == sumf f (seq 0 n) + sumf h (seq 0 n))%Q).
  { rewrite <- (sumf_perm h _ _ Hp).
    assert (Hlen : length s = n) by (unfold s; rewrite map_length, seq_length; reflexivity).
    rewrite <- Hlen at 1.
    apply cost_eq_split. rewrite Hlen. intros k Hk. simpl.
    assert (Enth : nth k s 0 = unopt (mat0 _ g' k)).
    { unfold s. rewrite (nth_indep _ 0 (unopt (mat0 _ g' 0))) by
        (rewrite map_length, seq_length; exact Hk).
      rewrite (map_nth (fun u => unopt (mat0 _ g' u)) (seq 0 n) 0 k).
      rewrite seq_nth by exact Hk. reflexivity. }
    rewrite Enth. destruct (mat0 _ g' k) as [v|] eqn:Ev; [|destruct (H4 k); auto].
    simpl. pose proof (li_match _ HL k v Ev) as Ht. unfold slk in Ht.
    rewrite H2 in Ht. unfold f, h. lra. }
  lra.
Qed.

(** ** Square matrices. *)

Lemma cost_sub_const mx (c : nat -> nat -> Q) s : forall i,
  (cost_from (fun i j => mx - c i j)%Q i s ==
   inject_Z (Z.of_nat (length s)) * mx - cost_from c i s)%Q.
Proof.
  induction s as [|j s IH]; intros i.
  - cbn [cost_from length Z.of_nat]. change (inject_Z 0) with 0%Q. lra.
  - cbn [cost_from length]. rewrite IH.
    rewrite Nat2Z.inj_succ. unfold Z.succ. rewrite inject_Z_plus.
    change (inject_Z 1) with 1%Q. lra.
Qed.

Lemma square_opt fuel (m : Qmatrix) :
  wf_matrix m -> 0 < nrows m -> 0 < mcols m -> 2 * nrows m < fuel ->
  exists s, min_weight_perm_square Qarith fuel m = Ok (map Some s) /\
    optimal_permutation (nrows m) (fun i j => mget m i j) s.
Proof.
  intros Hw Hr Hc Hf. unfold min_weight_perm_square.
  destruct (np_max_entries Qarith m (all_entries_nonempty Qarith m Hw Hr Hc)) as [x Hx].
  rewrite Hx. simpl.
  destruct (max_weight_matching_opt fuel (nrows m) (fun i j => (x - mget m i j)%Q) Hf)
    as (s & E & Hp & Hopt).
  exists s. split; [exact E|]. split; [exact Hp|]. intros s' Hs'.
  specialize (Hopt s' Hs'). unfold cost in *.
  rewrite !(cost_sub_const x (fun i j => mget m i j)) in Hopt.
  rewrite (is_permutation_length _ _ Hp), (is_permutation_length _ _ Hs') in Hopt.
  lra.
Qed.

(** ** Rectangular matrices. *)

Lemma cost_app c s1 s2 : forall i,
  (cost_from c i (s1 ++ s2) == cost_from c i s1 + cost_from c (i + length s1) s2)%Q.
Proof.
  induction s1 as [|j s1 IH]; intros i; simpl.
  - rewrite Nat.add_0_r. lra.
  - rewrite IH. rewrite Nat.add_succ_r. simpl. lra.
Qed.

Lemma cost_const_rows c s x : forall i,
  (forall a j, i <= a -> a < i + length s -> In j s -> (c a j == x)%Q) ->
  (cost_from c i s == inject_Z (Z.of_nat (length s)) * x)%Q.
Proof.
  induction s as [|j s IH]; intros i H.
  - cbn [cost_from length Z.of_nat]. change (inject_Z 0) with 0%Q. lra.
  - cbn [cost_from length]. rewrite (H i j); [|lia|simpl; lia|simpl; auto].
    rewrite IH; [|intros a b H1 H2 H3; apply H; simpl; auto; lia].
    rewrite Nat2Z.inj_succ. unfold Z.succ. rewrite inject_Z_plus.
    change (inject_Z 1) with 1%Q. lra.
Qed.

Lemma injection_extends n1 n2 s : is_injection n1 n2 s ->
  exists rest, is_permutation n2 (s ++ rest).
Proof.
  intros (Hl & Hnd & Hlt).
  exists (filter (fun j => negb (if in_dec Nat.eq_dec j s then true else false)) (seq 0 n2)).
  apply NoDup_Permutation.
  - apply NoDup_app_intro; [exact Hnd|apply NoDup_filter, seq_NoDup|].
    intros x Hx Hx'. apply filter_In in Hx' as [_ Hx'].
    destruct (in_dec Nat.eq_dec x s); [discriminate|contradiction].
  - apply seq_NoDup.
  - intros x. rewrite in_app_iff, filter_In, in_seq. split.
    + intros [H|[H _]]; [apply Hlt in H; lia|exact H].
    + intros H. destruct (in_dec Nat.eq_dec x s); auto.
Qed.

Lemma firstn_injection n1 n2 s : is_permutation n2 s -> n1 <= n2 ->
  is_injection n1 n2 (firstn n1 s).
Proof.
  intros Hp Hle. pose proof (is_permutation_length _ _ Hp) as Hl.
  split; [rewrite firstn_length; lia|]. split.
  - assert (Hnd : NoDup s) by (eapply Permutation_NoDup; [symmetry; exact Hp|apply seq_NoDup]).
    rewrite <- (firstn_skipn n1 s) in Hnd.
    revert Hnd. generalize (skipn n1 s). intros l2. generalize (firstn n1 s).
    induction l as [|x l IH]; simpl; intros H; constructor.
    + inversion H; subst. intros Hx. apply H2. apply in_or_app; auto.
    + inversion H; subst. auto.
  - intros j Hj. eapply is_permutation_lt; [exact Hp|].
    rewrite <- (firstn_skipn n1 s). apply in_or_app; auto.
Qed.

Lemma wide_structure_opt fuel (m : Qmatrix) :
  wf_matrix m -> 0 < nrows m -> nrows m <= mcols m -> 2 * mcols m < fuel ->
  exists s, min_weight_perm_wide Qarith fuel m = Ok (map Some s) /\
    optimal_injection (nrows m) (mcols m) (fun i j => mget m i j) s.
Proof.
  intros Hw Hr Hle Hf. unfold min_weight_perm_wide.
  destruct (Nat.ltb_spec (nrows m) (mcols m)) as [Hlt|Hge].
  - destruct (np_max_entries Qarith m (all_entries_nonempty Qarith m Hw Hr ltac:(lia)))
      as [x Hx].
    rewrite Hx. cbn [bind].
    set (n1 := nrows m) in *. set (n2 := mcols m) in *.
    set (pad := repeat (repeat (nadd Qarith x (none Qarith)) n2) (n2 - n1)).
    set (m' := Matrix (mrows m ++ pad) n2 : Qmatrix).
    assert (Hn' : nrows m' = n2).
    { unfold nrows, m'. simpl. rewrite app_length. unfold pad. rewrite repeat_length.
      change (length (mrows m)) with n1. lia. }
    assert (Hw' : wf_matrix m').
    { unfold wf_matrix, m'. simpl. apply Forall_app. split; [exact Hw|].
      apply Forall_forall. intros r Hin. apply repeat_spec in Hin. subst r.
      apply repeat_length. }
    destruct (square_opt fuel m' Hw') as (s & E & Hp & Hopt);
      rewrite ?Hn'; try lia; [unfold m'; simpl; lia|].
    rewrite E. cbn [bind]. rewrite Hn' in *.
    exists (firstn n1 s). rewrite firstn_map. split; [reflexivity|].
    split; [apply firstn_injection; [exact Hp|lia]|].
    assert (Hlow : forall i j, i < n1 -> mget m' i j = mget m i j).
    { intros i j Hi. unfold mget, m'. simpl. rewrite app_nth1; [reflexivity|exact Hi]. }
    assert (Hhigh : forall i j, n1 <= i -> i < n2 -> j < n2 ->
              (mget m' i j == nadd Qarith x (none Qarith))%Q).
    { intros i j Hi Hi2 Hj. unfold mget, m'. simpl mrows.
      rewrite app_nth2 by (change (length (mrows m)) with n1; lia).
      change (length (mrows m)) with n1. unfold pad.
      rewrite (nth_indep _ [] (repeat (nadd Qarith x (none Qarith)) n2))
        by (rewrite repeat_length; lia).
      rewrite nth_repeat.
      rewrite (nth_indep _ (nzero Qarith) (nadd Qarith x (none Qarith)))
        by (rewrite repeat_length; lia).
      rewrite nth_repeat. reflexivity. }
    assert (Hcost : forall s1 s2, is_injection n1 n2 s1 -> is_permutation n2 (s1 ++ s2) ->
       (cost (fun i j => mget m' i j) (s1 ++ s2) ==
        cost (fun i j => mget m i j) s1 +
        inject_Z (Z.of_nat (n2 - n1)) * nadd Qarith x (none Qarith))%Q).
    { intros s1 s2 Hi Hp12. unfold cost. rewrite cost_app.
      pose proof (is_permutation_length _ _ Hp12) as Hlen. rewrite app_length in Hlen.
      destruct Hi as (Hl1 & _ & _).
      rewrite (cost_ext (fun i j => mget m' i j) (fun i j => mget m i j) s1 0).
      - rewrite (cost_const_rows (fun i j => mget m' i j) s2 (nadd Qarith x (none Qarith))).
        + replace (length s2) with (n2 - n1) by lia. reflexivity.
        + intros a j Ha Ha2 Hj. apply Hhigh; [lia|lia|].
          eapply is_permutation_lt; [exact Hp12|]. apply in_or_app; auto.
      - intros a j _ Ha _. rewrite Hlow; [reflexivity|lia]. }
    intros s' Hs'. destruct (injection_extends _ _ _ Hs') as [rest Hrest].
    specialize (Hopt _ Hrest).
    assert (Hp2 : is_permutation n2 (firstn n1 s ++ skipn n1 s))
      by (rewrite firstn_skipn; exact Hp).
    rewrite <- (firstn_skipn n1 s) in Hopt.
    rewrite (Hcost _ _ Hs' Hrest) in Hopt.
    rewrite (Hcost _ _ (firstn_injection n1 n2 s Hp ltac:(lia)) Hp2) in Hopt.
    lra.
  - assert (En : nrows m = mcols m) by lia.
    cbn [bind].
    destruct (square_opt fuel m Hw) as (s & E & Hp & Hopt); try lia.
    rewrite E. cbn [bind]. exists s.
    pose proof (is_permutation_length _ _ Hp) as Hl.
    split.
    + rewrite firstn_all2; [reflexivity|]. rewrite map_length. lia.
    + split.
      * split; [exact Hl|]. split.
        -- eapply Permutation_NoDup; [symmetry; exact Hp|apply seq_NoDup].
        -- intros j Hj. rewrite <- En. eapply is_permutation_lt; eassumption.
      * intros s' (Hl' & Hnd' & Hlt'). apply Hopt.
        apply NoDup_Permutation_bis; [exact Hnd'|rewrite seq_length; lia|].
        intros j Hj. apply in_seq. specialize (Hlt' j Hj). lia.
Qed.
