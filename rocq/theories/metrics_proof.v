(** * The functions of metrics.py compute the textbook quantities. *)

From Coq Require Import List ZArith Reals Bool Lia Lra Permutation.
Import ListNotations.
From Verif Require Import Py Py_proof nd_model nd_spec nd_proof metrics_model metrics_spec metrics_real.
Local Open Scope R_scope.

(** ** Broadcasting in general. *)
Lemma bcast_rev_absorb s t u : bcast_rev s t = Ok u -> bcast_rev s u = Ok u.
Proof.
  revert t u. induction s as [|a s IH]; intros [|b t] u; cbn; try congruence.
  - intros [= <-]. rewrite Nat.eqb_refl. cbn. now rewrite bcast_rev_same.
  - intro H. apply bind_ok in H as (d & Hd & H). apply bind_ok in H as (v & Hv & [= <-]).
    assert (E : (if (a =? d)%nat then Ok a else if (a =? 1)%nat then Ok d else if (d =? 1)%nat then Ok a else Err ValueError) = Ok d).
    { destruct (Nat.eqb_spec a b) as [->|]; [injection Hd as <-; now rewrite Nat.eqb_refl|].
      destruct (Nat.eqb_spec a 1) as [->|].
      - injection Hd as <-. destruct (Nat.eqb_spec 1 b); auto.
      - destruct (Nat.eqb_spec b 1); [|discriminate]. injection Hd as <-. now rewrite Nat.eqb_refl. }
    rewrite E. cbn. rewrite (IH _ _ Hv). reflexivity.
Qed.
Lemma bcast_absorb s t u : bcast s t = Ok u -> bcast s u = Ok u.
Proof.
  unfold bcast. intro H. apply bind_ok in H as (v & Hv & [= <-]). rewrite rev_involutive, (bcast_rev_absorb _ _ _ Hv). reflexivity.
Qed.
Lemma bcast_absorb_r s t u : bcast s t = Ok u -> bcast t u = Ok u.
Proof. rewrite bcast_comm. apply bcast_absorb. Qed.

Definition view (a : nd) (u : list nat) : nd := Nd u (fun idx => el a (bindex (shape a) idx)).

Lemma map2_bcast f a b u : bcast (shape a) (shape b) = Ok u ->
  exists c, map2 f a b = Ok c /\ shape c = u /\ forall idx, el c idx = f (el (view a u) idx) (el (view b u) idx).
Proof. intro H. unfold map2. rewrite H. eexists. split; [reflexivity|]. split; reflexivity. Qed.
Lemma map2_l f a b u : bcast (shape a) u = Ok u -> shape b = u ->
  exists c, map2 f a b = Ok c /\ shape c = u /\ forall idx, valid u idx -> el c idx = f (el (view a u) idx) (el b idx).
Proof.
  intros H E. destruct (map2_bcast f a b u) as (c & Hc & S & L); [now rewrite E|]. exists c. split; [|split]; auto.
  intros idx V. rewrite L. f_equal. cbn. rewrite E, bindex_same by auto. reflexivity.
Qed.
Lemma map2_r f a b u : bcast (shape b) u = Ok u -> shape a = u ->
  exists c, map2 f a b = Ok c /\ shape c = u /\ forall idx, valid u idx -> el c idx = f (el a idx) (el (view b u) idx).
Proof.
  intros H E. destruct (map2_bcast f a b u) as (c & Hc & S & L); [now rewrite E, bcast_comm|]. exists c. split; [|split]; auto.
  intros idx V. rewrite L. f_equal. cbn. rewrite E, bindex_same by auto. reflexivity.
Qed.
Lemma bcast_err f a b e : bcast (shape a) (shape b) = Err e -> map2 f a b = Err e.
Proof. intro H. unfold map2. rewrite H. reflexivity. Qed.

Lemma view_same a idx : valid (shape a) idx -> el (view a (shape a)) idx = el a idx.
Proof. intro V. cbn. now rewrite bindex_same. Qed.

(** ** generalized_KL. *)
Definition kl_fun (eps x y : R) : R := x * ln ((x + eps) / (y + eps)) - x + y.
Lemma KL_kl_fun eps l m : KL eps l m = lsum (map (fun p => kl_fun eps (fst p) (snd p)) (combine l m)).
Proof. reflexivity. Qed.

Lemma gKL_inner x y eps axis u : bcast (shape x) (shape y) = Ok u ->
  exists s, generalized_KL x y eps axis = sum_axis s axis /\ shape s = u /\
    forall idx, valid u idx -> el s idx = kl_fun eps (el (view x u) idx) (el (view y u) idx).
Proof.
  intro B. unfold generalized_KL.
  destruct (map2_bcast Rdiv (map1 (fun v => v + eps) x) (map1 (fun v => v + eps) y) u B) as (q & -> & Sq & Lq). cbn [bind].
  destruct (map2_l Rmult x (map1 ln q) u (bcast_absorb _ _ _ B) Sq) as (m & -> & Sm & Lm). cbn [bind].
  destruct (map2_r Rminus m x u (bcast_absorb _ _ _ B) Sm) as (d & -> & Sd & Ld). cbn [bind].
  destruct (map2_r Rplus d y u (bcast_absorb_r _ _ _ B) Sd) as (s & -> & Ss & Ls). cbn [bind].
  exists s. split; [reflexivity|]. split; [auto|]. intros idx V. rewrite Ls, Ld, Lm by auto. cbn [el map1]. rewrite Lq. reflexivity.
Qed.

Lemma gKL_total x y eps : shape x = shape y ->
  exists r, generalized_KL x y eps None = Ok r /\ shape r = [] /\ el r [] = KL eps (entries x) (entries y).
Proof.
  intro E. destruct (gKL_inner x y eps None (shape x)) as (s & -> & Ss & Ls); [rewrite <- E; apply bcast_same|].
  rewrite sum_axis_total. eexists. split; [reflexivity|]. split; [reflexivity|]. cbn [el]. unfold total.
  rewrite (entries_map2 x y s (kl_fun eps) E Ss); [reflexivity|].
  intros j V. rewrite Ls by auto. rewrite view_same by auto. cbn. rewrite <- E, bindex_same by auto. reflexivity.
Qed.
Lemma gKL_axis x y eps z : shape x = shape y ->
  match axis_number (length (shape x)) z with
  | None => generalized_KL x y eps (Some z) = Err ValueError
  | Some _ => exists r, generalized_KL x y eps (Some z) = Ok r /\
      reduced x z r (fun k idx => KL eps (lane x k idx) (lane y k idx))
  end.
Proof.
  intro E. destruct (gKL_inner x y eps (Some z) (shape x)) as (s & -> & Ss & Ls); [rewrite <- E; apply bcast_same|].
  pose proof (sum_axis_some s z) as H. rewrite Ss in H. destruct (axis_number (length (shape x)) z) as [k|] eqn:Ek; auto.
  destruct H as (r & -> & Sr & Lr). exists r. split; auto. exists k. split; auto. split; auto. rewrite Sr. intros idx V.
  rewrite Lr. rewrite KL_kl_fun. apply f_equal. apply (lane_map2 x y s k idx (kl_fun eps)); auto.
  - eapply axis_number_lt; eauto.
  - intros j Vj. rewrite Ls by auto. rewrite view_same by auto. cbn. rewrite <- E, bindex_same by auto. reflexivity.
Qed.

Lemma reduced_impl a z r v (P : R -> Prop) : reduced a z r v ->
  (forall k idx, (k < length (shape a))%nat -> valid (remove k (shape a)) idx -> P (v k idx)) ->
  forall idx, valid (shape r) idx -> P (el r idx).
Proof.
  intros (k & Hk & Sr & L) H idx V. rewrite L by auto. apply H; [eapply axis_number_lt; eauto|]. unfold remove. now rewrite <- Sr.
Qed.

(** ** entropy. *)
Lemma entropy_term p : p * ln (p + 1 * ind (Req_bool p 0)) = - plogp p.
Proof.
  unfold plogp, Req_bool, ind. destruct (Req_EM_T p 0) as [->|N]; [lra|].
  replace (p + 1 * 0) with p by lra. lra.
Qed.
Lemma entropy_shannon v : entropy v = shannon (entries v).
Proof.
  unfold entropy. rewrite sum_over_indices, shannon_plogp. unfold entries. rewrite map_map.
  rewrite <- lsum_map_opp. apply lsum_ext. intros idx _. rewrite entropy_term. lra.
Qed.

(** ** mutual_information. *)
Lemma allclose_1 : allclose 1 1 = true.
Proof.
  unfold allclose, Rle_bool. rewrite Rminus_diag_eq, Rabs_R0, Rabs_R1 by auto. destruct (Rle_dec _ _); auto. lra.
Qed.
Lemma mi_value_term p a b : 0 <= p -> p <= a -> p <= b ->
  p * ln ((p + ind (Req_bool p 0) * 1) / (a * b + ind (Req_bool p 0) * 1)) = mi_term p b a.
Proof.
  intros Hp Ha Hb. unfold mi_term, Req_bool, ind. destruct (Req_EM_T p 0) as [->|N]; [lra|].
  rewrite !Rmult_0_l, !Rplus_0_r, (Rmult_comm a b). reflexivity.
Qed.
Lemma mi_value h n m : shape h = [n; m] -> nonneg h -> total h = 1 ->
  mutual_information h = Ok (lsum (map (fun i => lsum (map (fun j => mi_term (el h [i; j]) (lsum (row h i)) (lsum (col h j))) (seq 0 m))) (seq 0 n))).
Proof.
  intros Sh N T. unfold mutual_information, ndim. rewrite Sh. cbn [length Nat.eqb negb].
  assert (T' : sum_over [n; m] (el h) = 1) by (rewrite <- Sh, sum_over_total; exact T). rewrite T', allclose_1. cbn [negb].
  pose proof (sum_axis_some h 0) as H0. rewrite Sh in H0. cbn [length] in H0. change (axis_number 2 0) with (Some 0%nat) in H0. cbn beta iota in H0.
  destruct H0 as (s0 & -> & S0 & L0). cbn [bind].
  pose proof (sum_axis_some h 1) as H1. rewrite Sh in H1. cbn [length] in H1. change (axis_number 2 1) with (Some 1%nat) in H1. cbn beta iota in H1.
  destruct H1 as (s1 & -> & S1 & L1). cbn [bind].
  change (remove 0 [n; m]) with [m] in S0. change (remove 1 [n; m]) with [n] in S1.
  unfold expand_dims, ndim. rewrite S0, S1. cbn [length]. change (norm_axis 2 0) with (Ok 0%nat). change (norm_axis 2 1) with (Ok 1%nat). cbn [bind].
  change (insert 0 1 [m]) with [1%nat; m]. change (insert 1 1 [n]) with [n; 1%nat].
  set (zeros := map1 _ h).
  destruct (map2_bcast Rmult (Nd [1%nat; m] (fun idx => el s0 (remove 0 idx))) (Nd [n; 1%nat] (fun idx => el s1 (remove 1 idx))) [n; m]) as (p & -> & Sp & Lp).
  { unfold bcast. cbn. destruct m as [|[|m]]; cbn; auto; destruct n as [|[|n]]; cbn; auto. }
  cbn [bind]. assert (Sz : shape zeros = [n; m]) by exact Sh.
  destruct (map2_same Rplus p zeros) as (den & -> & Sden & Lden); [congruence|]. cbn [bind].
  destruct (map2_same Rplus h zeros) as (num & -> & Snum & Lnum); [congruence|]. cbn [bind].
  destruct (map2_same Rdiv num den) as (q & -> & Sq & Lq); [congruence|]. cbn [bind].
  destruct (map2_same Rmult h (map1 ln q)) as (M & -> & SM & LM); [cbn; congruence|]. cbn [bind].
  f_equal. rewrite SM, Sh, sum_over_2, rsum_lsum. apply lsum_ext. intros i Hi. apply in_seq in Hi. rewrite rsum_lsum.
  apply lsum_ext. intros j Hj. apply in_seq in Hj.
  assert (V : valid [n; m] [i; j]) by (cbn; lia).
  rewrite LM by (rewrite Sh; auto). cbn [el map1]. rewrite Lq by (rewrite Snum, Sh; auto). rewrite Lden by (rewrite Sp; auto).
  rewrite Lnum by (rewrite Sh; auto). rewrite Lp.
  assert (E0 : el (view (Nd [1%nat; m] (fun idx => el s0 (remove 0 idx))) [n; m]) [i; j] = lsum (col h j)).
  { cbn. destruct (Nat.eqb_spec m 1) as [->|]; cbn; rewrite L0; unfold lane, col; rewrite Sh; cbn [nth firstn skipn app];
      [replace j with 0%nat by lia|]; reflexivity. }
  assert (E1 : el (view (Nd [n; 1%nat] (fun idx => el s1 (remove 1 idx))) [n; m]) [i; j] = lsum (row h i)).
  { cbn. destruct (Nat.eqb_spec n 1) as [->|]; cbn; rewrite L1; unfold lane, row; rewrite Sh; cbn [nth firstn skipn app];
      [replace i with 0%nat by lia|]; reflexivity. }
  rewrite E0, E1. subst zeros. cbn [el map1]. apply mi_value_term.
  - apply N. rewrite Sh. auto.
  - apply lsum_ge_in.
    + apply Forall_forall. intros v Hv. apply in_map_iff in Hv as (i' & <- & Hi'). rewrite Sh in Hi'. apply in_seq in Hi'. apply N. rewrite Sh. cbn. cbn in Hi'. lia.
    + unfold col. rewrite Sh. apply in_map_iff. exists i. split; auto. apply in_seq. cbn. lia.
  - apply lsum_ge_in.
    + apply Forall_forall. intros v Hv. apply in_map_iff in Hv as (i' & <- & Hi'). rewrite Sh in Hi'. apply in_seq in Hi'. apply N. rewrite Sh. cbn. cbn in Hi'. lia.
    + unfold row. rewrite Sh. apply in_map_iff. exists j. split; auto. apply in_seq. cbn. lia.
Qed.

Section MI.
Context (h : nd) (n m : nat) (Sh : shape h = [n; m]) (N : nonneg h) (T : total h = 1).
Let f (i j : nat) : R := el h [i; j].
Lemma f_pos i j : In i (seq 0 n) -> In j (seq 0 m) -> 0 <= f i j.
Proof. intros Hi Hj. apply in_seq in Hi. apply in_seq in Hj. apply N. rewrite Sh. cbn. lia. Qed.
Lemma row_f i : row h i = map (f i) (seq 0 m).
Proof. unfold row. rewrite Sh. reflexivity. Qed.
Lemma col_f j : col h j = map (fun i => f i j) (seq 0 n).
Proof. unfold col. rewrite Sh. reflexivity. Qed.
Lemma total_f : lsum (map (fun i => lsum (map (f i) (seq 0 m))) (seq 0 n)) = 1.
Proof.
  rewrite <- T, <- sum_over_total, Sh, sum_over_2, rsum_lsum. apply lsum_ext. intros i _. rewrite rsum_lsum. reflexivity.
Qed.
Lemma joint_f : shannon (entries h) = lsum (map (fun i => lsum (map (fun j => plogp (f i j)) (seq 0 m))) (seq 0 n)).
Proof.
  rewrite shannon_plogp. unfold entries. rewrite map_map, <- sum_over_indices, Sh, sum_over_2, rsum_lsum.
  apply lsum_ext. intros i _. rewrite rsum_lsum. reflexivity.
Qed.
Lemma rows_f : shannon (row_sums h) = lsum (map (fun i => plogp (lsum (map (f i) (seq 0 m)))) (seq 0 n)).
Proof. rewrite shannon_plogp. unfold row_sums. rewrite map_map, Sh. cbn [nth]. apply lsum_ext. intros i _. now rewrite row_f. Qed.
Lemma cols_f : shannon (col_sums h) = lsum (map (fun j => plogp (lsum (map (fun i => f i j) (seq 0 n)))) (seq 0 m)).
Proof. rewrite shannon_plogp. unfold col_sums. rewrite map_map, Sh. cbn [nth]. apply lsum_ext. intros i _. now rewrite col_f. Qed.

Lemma mi_entropies : mutual_information h = Ok (shannon (row_sums h) + shannon (col_sums h) - shannon (entries h)).
Proof.
  rewrite (mi_value h n m Sh N T). f_equal. rewrite joint_f, rows_f, cols_f, <- (mi_identity _ _ _ f_pos).
  apply lsum_ext. intros i _. apply lsum_ext. intros j _. rewrite row_f, col_f. reflexivity.
Qed.
Lemma mi_nonneg : 0 <= shannon (row_sums h) + shannon (col_sums h) - shannon (entries h).
Proof. rewrite joint_f, rows_f, cols_f. pose proof (joint_le _ _ _ f_pos total_f). lra. Qed.
Lemma mi_zero : shannon (row_sums h) + shannon (col_sums h) - shannon (entries h) = 0 <->
  (forall i j, (i < n)%nat -> (j < m)%nat -> el h [i; j] = lsum (row h i) * lsum (col h j)).
Proof.
  rewrite joint_f, rows_f, cols_f. pose proof (joint_eq _ _ _ f_pos total_f) as H. split.
  - intros E i j Hi Hj. rewrite row_f, col_f. apply H; [lra| |]; apply in_seq; lia.
  - intro I. enough (lsum (map (fun i => lsum (map (fun j => plogp (f i j)) (seq 0 m))) (seq 0 n)) =
      lsum (map (fun i => plogp (lsum (map (f i) (seq 0 m)))) (seq 0 n)) + lsum (map (fun j => plogp (lsum (map (fun i => f i j) (seq 0 n)))) (seq 0 m))) by lra.
    apply H. intros i j Hi Hj. apply in_seq in Hi. apply in_seq in Hj. rewrite <- row_f, <- col_f. apply I; lia.
Qed.
End MI.

Lemma transpose_rows h n m : shape h = [n; m] -> row_sums (transpose h) = col_sums h /\ col_sums (transpose h) = row_sums h /\
  Permutation (entries (transpose h)) (entries h).
Proof.
  intro Sh. unfold row_sums, col_sums, row, col, entries, transpose. cbn [shape]. rewrite Sh. cbn [rev app nth].
  split; [|split]; try (apply map_ext; intro; f_equal; apply map_ext; reflexivity).
  cbn [el]. rewrite <- (map_map (fun idx => rev idx) (el h)). apply Permutation_map.
  apply NoDup_Permutation.
  - apply FinFun.Injective_map_NoDup; [|apply NoDup_indices]. intros a b E. apply (f_equal (@rev nat)) in E. now rewrite !rev_involutive in E.
  - apply NoDup_indices.
  - intro idx. rewrite in_map_iff. rewrite in_indices. split.
    + intros (j & <- & Hj). apply in_indices in Hj. exact (valid_rev _ _ Hj).
    + intro V. exists (rev idx). split; [apply rev_involutive|]. apply in_indices. exact (valid_rev _ _ V).
Qed.
Lemma transpose_nonneg h : nonneg h -> nonneg (transpose h).
Proof.
  intros N idx V. cbn in *. apply N. rewrite <- (rev_involutive (shape h)). now apply valid_rev.
Qed.
Lemma mi_transpose h n m : shape h = [n; m] -> nonneg h -> total h = 1 -> mutual_information (transpose h) = mutual_information h.
Proof.
  intros Sh N T. destruct (transpose_rows h n m Sh) as (R & C & P).
  rewrite (mi_entropies h n m), (mi_entropies (transpose h) m n); auto.
  - rewrite R, C, (shannon_perm _ _ P). f_equal. lra.
  - cbn. rewrite Sh. reflexivity.
  - now apply transpose_nonneg.
  - unfold total. rewrite (lsum_perm _ _ P). exact T.
Qed.

(** ** conditional_entropy. *)
Lemma ce_value h z k : axis_number (length (shape h)) z = Some k -> (2 <= length (shape h))%nat -> total h = 1 ->
  conditional_entropy h z = Ok (shannon (entries h) - shannon (marginal h k)).
Proof.
  intros Ek H2 T. unfold conditional_entropy. rewrite sum_over_total, T, allclose_1. cbn [negb]. unfold ndim.
  rewrite norm_axis_number, Ek. cbn [bind]. destruct (Nat.eqb_spec (length (shape h)) 1); [lia|].
  rewrite !entropy_shannon. do 3 f_equal. unfold entries. cbn [shape el indices].
  rewrite flat_map_concat_map. rewrite concat_map, map_map.
  unfold marginal. rewrite <- (flat_map_concat_map (fun i => _)).
  rewrite (flat_map_ext _ (fun i => [lsum (map (fun idx => el h (firstn k idx ++ [i] ++ skipn k idx)) (indices (firstn k (shape h) ++ skipn (S k) (shape h))))])).
  - induction (seq 0 (nth k (shape h) 0%nat)); cbn; f_equal; auto.
  - intro i. cbn. rewrite sum_over_indices. reflexivity.
Qed.
Lemma ce_one_axis h z : length (shape h) = 1%nat -> total h = 1 -> axis_number 1 z <> None -> conditional_entropy h z = Err TypeError.
Proof.
  intros H1 T Hz. unfold conditional_entropy. rewrite sum_over_total, T, allclose_1. cbn [negb]. unfold ndim. rewrite H1, norm_axis_number.
  destruct (axis_number 1 z); [reflexivity|tauto].
Qed.
Section CE.
Context (h : nd) (k : nat) (Hk : (k < length (shape h))%nat) (N : nonneg h) (T : total h = 1).
Let I := seq 0 (nth k (shape h) 0%nat).
Let J := indices (remove k (shape h)).
Let f (i : nat) (idx : list nat) : R := el h (insert k i idx).
Lemma cf_pos i j : In i I -> In j J -> 0 <= f i j.
Proof. intros Hi Hj. apply in_seq in Hi. apply in_indices in Hj. apply N, valid_insert; auto. lia. Qed.
Lemma cf_total : lsum (map (fun i => lsum (map (f i) J)) I) = 1.
Proof.
  rewrite <- T, <- sum_over_total, (sum_over_axis _ k) by auto. rewrite rsum_lsum. apply lsum_ext. intros i _. rewrite sum_over_indices. reflexivity.
Qed.
Lemma cf_joint : shannon (entries h) = lsum (map (fun i => lsum (map (fun j => plogp (f i j)) J)) I).
Proof.
  rewrite shannon_plogp. unfold entries. rewrite map_map, <- sum_over_indices, (sum_over_axis _ k) by auto. rewrite rsum_lsum.
  apply lsum_ext. intros i _. rewrite sum_over_indices. reflexivity.
Qed.
Lemma cf_marg : shannon (marginal h k) = lsum (map (fun i => plogp (lsum (map (f i) J))) I).
Proof. rewrite shannon_plogp. unfold marginal. rewrite map_map. reflexivity. Qed.
Lemma cf_rest : shannon (rest_marginal h k) = lsum (map (fun j => plogp (lsum (map (fun i => f i j) I))) J).
Proof. rewrite shannon_plogp. unfold rest_marginal. rewrite map_map. reflexivity. Qed.
Lemma ce_bounds : 0 <= shannon (entries h) - shannon (marginal h k) <= shannon (rest_marginal h k).
Proof.
  rewrite cf_joint, cf_marg, cf_rest. pose proof (joint_ge _ _ _ cf_pos). pose proof (joint_le _ _ _ cf_pos cf_total). lra.
Qed.
End CE.

Lemma marginal_prob h k : (k < length (shape h))%nat -> nonneg h -> total h = 1 -> probability (marginal h k) /\ probability (rest_marginal h k).
Proof.
  intros Hk N T. split; split.
  - apply Forall_forall. intros v Hv. apply in_map_iff in Hv as (i & <- & Hi). apply lsum_nonneg, Forall_forall.
    intros v Hv. apply in_map_iff in Hv as (j & <- & Hj). eapply cf_pos; eauto.
  - eapply cf_total; eauto.
  - apply Forall_forall. intros v Hv. apply in_map_iff in Hv as (j & <- & Hj). apply lsum_nonneg, Forall_forall.
    intros v Hv. apply in_map_iff in Hv as (i & <- & Hi). eapply cf_pos; eauto.
  - rewrite <- (cf_total h k Hk T). unfold rest_marginal, lane. rewrite lsum_swap. reflexivity.
Qed.
