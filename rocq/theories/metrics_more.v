(** * Euclidean distance, cosine, sparseness, and the divergences built on
    generalized_KL. *)

From Coq Require Import List ZArith Reals Bool Lia Lra Permutation.
Import ListNotations.
From Verif Require Import Py Py_proof nd_model nd_spec nd_proof metrics_model metrics_spec metrics_real metrics_proof.
Local Open Scope R_scope.

Lemma map_combine_map {X Y Z W} (g : Z -> W) (f : X * Y -> Z) l : map g (map f l) = map (fun p => g (f p)) l.
Proof. apply map_map. Qed.

(** ** frobenius. *)
Lemma frob_inner a b z u : bcast (shape a) (shape b) = Ok u ->
  match axis_number (length u) z with
  | None => frobenius a b z = Err ValueError
  | Some k => exists r, frobenius a b z = Ok r /\ shape r = remove k u /\
      forall idx, valid (remove k u) idx -> el r idx = distance (lane (view a u) k idx) (lane (view b u) k idx)
  end.
Proof.
  intro B. unfold frobenius. destruct (map2_bcast Rminus a b u B) as (d & -> & Sd & Ld). cbn [bind].
  pose proof (sum_axis_some (map1 Rsqr d) z) as H. cbn [shape map1] in H. rewrite Sd in H.
  destruct (axis_number (length u) z) as [k|] eqn:Ek; [|now rewrite H].
  destruct H as (r & -> & Sr & Lr). cbn [bind]. eexists. split; [reflexivity|]. split; [exact Sr|].
  intros idx V. cbn [el map1]. rewrite Lr. unfold distance, norm. f_equal. rewrite inner_rsqr.
  pose proof (axis_number_lt _ _ _ Ek) as Hk. f_equal.
  rewrite (lane_map d (map1 Rsqr d) k idx Rsqr); auto; [|rewrite Sd; auto|rewrite Sd; auto]. f_equal.
  apply (lane_map2 (view a u) (view b u) d k idx Rminus); auto.
Qed.
Lemma lane_view a k idx : (k < length (shape a))%nat -> valid (remove k (shape a)) idx -> lane (view a (shape a)) k idx = lane a k idx.
Proof.
  intros Hk V. unfold lane. cbn [shape view]. apply map_ext_in. intros i Hi. apply in_seq in Hi. apply view_same. apply lane_valid; auto. lia.
Qed.
Lemma frob_axis a b z : shape a = shape b ->
  match axis_number (length (shape a)) z with
  | None => frobenius a b z = Err ValueError
  | Some _ => exists r, frobenius a b z = Ok r /\ reduced a z r (fun k idx => distance (lane a k idx) (lane b k idx))
  end.
Proof.
  intro E. pose proof (frob_inner a b z (shape a)) as H. rewrite <- E in H. specialize (H (bcast_same _)).
  destruct (axis_number (length (shape a)) z) as [k|] eqn:Ek; auto. destruct H as (r & Hr & Sr & Lr). exists r. split; auto.
  pose proof (axis_number_lt _ _ _ Ek) as Hk.
  exists k. split; auto. split; auto. rewrite Sr. intros idx V. rewrite Lr by auto. rewrite lane_view by auto. f_equal.
  rewrite E. apply lane_view; rewrite <- E; auto.
Qed.

(** ** cosine_similarity. *)
Definition cos_fun (ab aa bb : R) : R := ab / (sqrt (aa * bb) + ind (Req_bool ab 0)).
Lemma cos_fun_cosine l m : cos_fun (inner l m) (inner l l) (inner m m) = cosine l m.
Proof.
  unfold cos_fun, cosine, Req_bool, ind. rewrite sqrt_mult by apply inner_sq_nonneg. fold (norm l). fold (norm m).
  destruct (Req_EM_T (inner l m) 0) as [->|N].
  - unfold Rdiv. lra.
  - now rewrite Rplus_0_r.
Qed.
Lemma cos_axis a b z : shape a = shape b ->
  match axis_number (length (shape a)) z with
  | None => cosine_similarity a b z = Err ValueError
  | Some _ => exists r, cosine_similarity a b z = Ok r /\ reduced a z r (fun k idx => cosine (lane a k idx) (lane b k idx))
  end.
Proof.
  intro E. unfold cosine_similarity. destruct (map2_same Rmult a b E) as (p & -> & Sp & Lp). cbn [bind].
  pose proof (sum_axis_some p z) as H1. pose proof (sum_axis_some (map1 Rsqr a) z) as H2. pose proof (sum_axis_some (map1 Rsqr b) z) as H3.
  cbn [shape map1] in H2, H3. rewrite <- E in H3. rewrite Sp in H1.
  destruct (axis_number (length (shape a)) z) as [k|] eqn:Ek; [|now rewrite H1].
  pose proof (axis_number_lt _ _ _ Ek) as Hk.
  destruct H1 as (ab & -> & S1 & L1). destruct H2 as (aa & -> & S2 & L2). destruct H3 as (bb & -> & S3 & L3). cbn [bind].
  destruct (map2_same Rmult aa bb) as (n & -> & Sn & Ln); [congruence|]. cbn [bind].
  destruct (map2_same Rplus (map1 sqrt n) (map1 (fun v => ind (Req_bool v 0)) ab)) as (den & -> & Sd & Ld); [cbn; congruence|]. cbn [bind].
  destruct (map2_same Rdiv ab den) as (r & -> & Sr & Lr); [cbn in Sd; congruence|].
  exists r. split; auto. exists k. split; auto. rewrite Sr, S1. split; auto. intros idx V. rewrite Lr by (rewrite S1; auto).
  rewrite Ld by (cbn; rewrite Sn, S2; auto). cbn [el map1]. rewrite Ln by (rewrite S2; auto). rewrite L1, L2, L3.
  rewrite <- cos_fun_cosine. unfold cos_fun. rewrite !inner_rsqr.
  assert (G1 : lsum (lane p k idx) = inner (lane a k idx) (lane b k idx)).
  { unfold inner, sum2. f_equal. apply lane_map2; auto. }
  assert (G2 : lane (map1 Rsqr a) k idx = map Rsqr (lane a k idx)) by (apply lane_map; auto).
  assert (G3 : lane (map1 Rsqr b) k idx = map Rsqr (lane b k idx)) by (apply lane_map; auto; rewrite <- E; auto).
  rewrite G1, G2, G3. reflexivity.
Qed.
Lemma cosine_bounds l m : -1 <= cosine l m <= 1.
Proof.
  unfold cosine. destruct (Req_EM_T (inner l m) 0) as [|N]; [lra|]. pose proof (cauchy_abs l m) as C.
  assert (0 < Rabs (inner l m)) by (apply Rabs_pos_lt; auto). assert (P : 0 < norm l * norm m) by lra.
  apply Rabs_le_inv in C || idtac.
  assert (- (norm l * norm m) <= inner l m <= norm l * norm m).
  { pose proof (Rle_abs (inner l m)). pose proof (Rle_abs (- inner l m)). rewrite Rabs_Ropp in *. lra. }
  split; apply Rmult_le_reg_r with (norm l * norm m); auto; unfold Rdiv; rewrite Rmult_assoc, Rinv_l; lra.
Qed.
Lemma inner_nonneg l m : Forall (fun v => 0 <= v) l -> Forall (fun v => 0 <= v) m -> 0 <= inner l m.
Proof.
  intro H. revert m. induction H; intros m Hm; [unfold inner, sum2; cbn; lra|]. destruct Hm; [rewrite inner_nil_r; lra|].
  rewrite inner_cons. specialize (IHForall _ Hm). assert (0 <= x * x0) by (apply Rmult_le_pos; auto). lra.
Qed.
Lemma cosine_nonneg l m : Forall (fun v => 0 <= v) l -> Forall (fun v => 0 <= v) m -> 0 <= cosine l m.
Proof.
  intros Hl Hm. pose proof (inner_nonneg l m Hl Hm). unfold cosine. destruct (Req_EM_T (inner l m) 0) as [|N]; [lra|].
  pose proof (cauchy_abs l m) as C. assert (0 < Rabs (inner l m)) by (apply Rabs_pos_lt; auto).
  apply Rmult_le_pos; auto. left. apply Rinv_0_lt_compat. lra.
Qed.
Lemma cosine_sym l m : cosine l m = cosine m l.
Proof. unfold cosine. rewrite (inner_comm l m), (Rmult_comm (norm l)). reflexivity. Qed.
Lemma inner_scale c l m : inner (map (Rmult c) l) m = c * inner l m.
Proof.
  revert m. induction l; destruct m; cbn [map]; rewrite ?inner_nil_r; try (unfold inner, sum2; cbn; lra).
  rewrite !inner_cons, IHl. lra.
Qed.
Lemma norm_scale c l : 0 <= c -> norm (map (Rmult c) l) = c * norm l.
Proof.
  intro Hc. unfold norm. rewrite inner_scale, inner_comm, inner_scale.
  replace (c * (c * inner l l)) with (c * c * inner l l) by ring.
  rewrite sqrt_mult_alt by (apply Rle_0_sqr). f_equal. apply sqrt_square. auto.
Qed.
Lemma cosine_scale c l m : 0 < c -> cosine (map (Rmult c) l) m = cosine l m.
Proof.
  intro Hc. unfold cosine. rewrite inner_scale, norm_scale by lra.
  destruct (Req_EM_T (c * inner l m) 0) as [E|N]; destruct (Req_EM_T (inner l m) 0) as [E'|N']; auto.
  - apply Rmult_integral in E as [|]; lra.
  - rewrite E' in N. lra.
  - pose proof (cauchy_abs l m) as C. assert (0 < Rabs (inner l m)) by (apply Rabs_pos_lt; auto).
    assert (norm l <> 0) by (intro Z; rewrite Z in C; lra). assert (norm m <> 0) by (intro Z; rewrite Z in C; lra).
    field. split; auto; lra.
Qed.
Lemma cosine_zero l m : Forall (fun v => v = 0) l -> cosine l m = 0 /\ cosine m l = 0.
Proof.
  intro H. unfold cosine. rewrite (inner_comm m l), (inner_zero l m H). destruct (Req_EM_T 0 0); lra.
Qed.
Lemma cosine_self l : Exists (fun v => v <> 0) l -> cosine l l = 1.
Proof.
  intro H. unfold cosine. rewrite norm_sq. destruct (Req_EM_T (inner l l) 0) as [E|N].
  - exfalso. assert (Z : norm l = 0) by (unfold norm; rewrite E; apply sqrt_0). apply norm_zero in Z.
    apply Exists_exists in H as (x & Hx & Nx). apply Nx. exact (proj1 (Forall_forall _ _) Z x Hx).
  - field. auto.
Qed.

(** ** hoyer_sparseness. *)
Definition hoyer (eps : R) (l : list R) : R :=
  (sqrt (INR (length l)) - (norm1 l + eps) / (norm l + eps)) / (sqrt (INR (length l)) - 1).
Lemma sqrt_n_gt1 n : (2 <= n)%nat -> 1 < sqrt (INR n).
Proof. intro H. rewrite <- sqrt_1. apply sqrt_lt_1_alt. split; [lra|]. replace 1 with (INR 1) by reflexivity. apply lt_INR. lia. Qed.
Lemma ratio_bounds eps l : (2 <= length l)%nat -> 0 < eps -> 1 <= (norm1 l + eps) / (norm l + eps) <= sqrt (INR (length l)).
Proof.
  intros Hn He. pose proof (norm_nonneg l). pose proof (norm2_le_norm1 l). pose proof (norm1_le_norm2 l). pose proof (sqrt_n_gt1 _ Hn).
  set (q := sqrt (INR (length l))) in *. split; apply Rmult_le_reg_r with (norm l + eps); try lra; unfold Rdiv; rewrite Rmult_assoc, Rinv_l by lra.
  - lra.
  - assert (1 * eps <= q * eps) by (apply Rmult_le_compat_r; lra). lra.
Qed.
Lemma hoyer_inner x z eps k : axis_number (length (shape x)) z = Some k ->
  hoyer_sparseness x z eps =
    Ok ((sqrt (INR (nth k (shape x) 0%nat)) -
         lsum (map (fun idx => (norm1 (lane x k idx) + eps) / (norm (lane x k idx) + eps)) (indices (remove k (shape x))))
           / INR (size (remove k (shape x)))) / (sqrt (INR (nth k (shape x) 0%nat)) - 1)).
Proof.
  intro Ek. pose proof (axis_number_lt _ _ _ Ek) as Hk. unfold hoyer_sparseness.
  assert (P : py_nth (shape x) z = Ok (nth k (shape x) 0%nat)).
  { unfold py_nth. assert (Q : norm_index (length (shape x)) z = Ok k).
    { unfold axis_number in Ek. unfold norm_index. destruct (_ && _)%bool; [congruence|]. destruct (_ && _)%bool; congruence. }
    rewrite Q. cbn [bind]. rewrite (nth_error_nth' _ 0%nat Hk). reflexivity. }
  rewrite P. cbn [bind].
  pose proof (sum_axis_some (map1 Rabs x) z) as H1. pose proof (sum_axis_some (map1 Rsqr x) z) as H2. cbn [shape map1] in H1, H2.
  rewrite Ek in H1, H2. destruct H1 as (a & -> & Sa & La). destruct H2 as (b & -> & Sb & Lb). cbn [bind].
  destruct (map2_same Rdiv (map1 (fun v => v + eps) a) (map1 (fun v => sqrt v + eps) b)) as (q & -> & Sq & Lq); [cbn; congruence|]. cbn [bind].
  cbn [shape map1] in Sq. unfold average. rewrite Sq, Sa, sum_over_indices. do 5 f_equal. apply map_ext_in. intros idx Hi.
  apply in_indices in Hi. rewrite Lq by (cbn; rewrite Sa; auto). cbn [el map1]. rewrite La, Lb.
  unfold norm1, norm. rewrite inner_rsqr.
  rewrite (lane_map x (map1 Rabs x) k idx Rabs), (lane_map x (map1 Rsqr x) k idx Rsqr); auto.
Qed.
Lemma size_pos s : (forall d, In d s -> (0 < d)%nat) -> (0 < size s)%nat.
Proof. induction s; cbn; intro H; [lia|]. apply Nat.mul_pos_pos; auto. Qed.
Lemma average_bounds {X} (f : X -> R) l lo hi : l <> [] -> (forall x, In x l -> lo <= f x <= hi) ->
  lo <= lsum (map f l) / INR (length l) <= hi.
Proof.
  intros Hl H. assert (P : 0 < INR (length l)) by (apply lt_0_INR; destruct l; [congruence|cbn; lia]).
  assert (A : INR (length l) * lo <= lsum (map f l)). { rewrite <- lsum_const. apply lsum_le. intros; apply H; auto. }
  assert (B : lsum (map f l) <= INR (length l) * hi). { rewrite <- lsum_const. apply lsum_le. intros; apply H; auto. }
  split; apply Rmult_le_reg_r with (INR (length l)); auto; unfold Rdiv; rewrite Rmult_assoc, Rinv_l; lra.
Qed.
Lemma hoyer_bounds x z eps k : axis_number (length (shape x)) z = Some k -> (2 <= nth k (shape x) 0)%nat -> (0 < size (shape x))%nat -> 0 < eps ->
  exists v, hoyer_sparseness x z eps = Ok v /\ 0 <= v <= 1.
Proof.
  intros Ek H2 Hs He. pose proof (axis_number_lt _ _ _ Ek) as Hk. eexists. split; [apply hoyer_inner; eauto|].
  rewrite (size_remove _ k Hk) in Hs. rewrite <- length_indices. pose proof (sqrt_n_gt1 _ H2) as Q.
  assert (B := average_bounds (fun idx => (norm1 (lane x k idx) + eps) / (norm (lane x k idx) + eps)) (indices (remove k (shape x)))
     1 (sqrt (INR (nth k (shape x) 0%nat)))).
  match type of B with _ -> _ -> _ <= ?v <= _ => set (avg := v) in * end. clearbody avg.
  assert (B' : 1 <= avg <= sqrt (INR (nth k (shape x) 0%nat))).
  { apply B.
    - intro Z. apply (f_equal (@length _)) in Z. rewrite length_indices in Z. cbn in Z. lia.
    - intros idx _. rewrite <- (length_lane x k idx). apply ratio_bounds; auto. rewrite length_lane. auto. }
  split; apply Rmult_le_reg_r with (sqrt (INR (nth k (shape x) 0%nat)) - 1); try lra; unfold Rdiv; rewrite Rmult_assoc, Rinv_l by lra; lra.
Qed.
Lemma hoyer_is x z eps k v : axis_number (length (shape x)) z = Some k -> (2 <= nth k (shape x) 0)%nat -> (0 < size (shape x))%nat ->
  (forall idx, valid (remove k (shape x)) idx -> hoyer eps (lane x k idx) = v) -> hoyer_sparseness x z eps = Ok v.
Proof.
  intros Ek H2 Hs H. pose proof (axis_number_lt _ _ _ Ek) as Hk. rewrite (hoyer_inner x z eps k Ek). f_equal.
  rewrite (size_remove _ k Hk) in Hs. pose proof (sqrt_n_gt1 _ H2) as Q. set (q := sqrt (INR (nth k (shape x) 0%nat))) in *.
  rewrite (lsum_ext _ (fun _ => q - v * (q - 1))).
  - rewrite lsum_const, length_indices. assert (0 < INR (size (remove k (shape x)))) by (apply lt_0_INR; nia). field. split; lra.
  - intros idx Hi. apply in_indices in Hi. rewrite <- (H idx Hi). unfold hoyer. rewrite length_lane. fold q. match goal with |- ?t = _ => set (t0 := t) end. clearbody t0. field. lra.
Qed.
Lemma hoyer_one_hot eps l : (2 <= length l)%nat -> 0 < eps -> one_hot l -> hoyer eps l = 1.
Proof.
  intros H2 He H. unfold hoyer. rewrite (one_hot_norms l H). pose proof (norm_nonneg l). pose proof (sqrt_n_gt1 _ H2).
  field. split; lra.
Qed.
Lemma hoyer_const eps c n : (2 <= n)%nat -> 0 < eps -> hoyer eps (repeat c n) = eps / (sqrt (INR n) * Rabs c + eps).
Proof.
  intros H2 He. unfold hoyer. destruct (const_norms c n) as [-> ->]. rewrite repeat_length. pose proof (sqrt_n_gt1 _ H2) as Q.
  assert (S : sqrt (INR n) * sqrt (INR n) = INR n) by apply sqrt_sqrt, pos_INR. set (q := sqrt (INR n)) in *. rewrite <- S.
  pose proof (Rabs_pos c). assert (0 <= q * Rabs c) by (apply Rmult_le_pos; lra). field. split; lra.
Qed.

(** ** The divergences built on generalized_KL. *)
Lemma kl_div_plain a b z eps : kl_div a b z eps false = (r <- generalized_KL a b EPSILON (Some z) ;; Ok (r, a, b)).
Proof. reflexivity. Qed.
Lemma sym_plain_value a b z eps : shape a = shape b ->
  match axis_number (length (shape a)) z with
  | None => sym_kl_div a b z eps false = Err ValueError
  | Some _ => exists r, sym_kl_div a b z eps false = Ok (r, a, b) /\
      reduced a z r (fun k idx => / 2 * (KL EPSILON (lane a k idx) (lane b k idx) + KL EPSILON (lane b k idx) (lane a k idx)))
  end.
Proof.
  intro E. unfold sym_kl_div, rev_kl_div. rewrite !kl_div_plain.
  pose proof (gKL_axis a b EPSILON z E) as H. pose proof (gKL_axis b a EPSILON z (eq_sym E)) as H'. rewrite <- E in H'.
  destruct (axis_number (length (shape a)) z) as [k|] eqn:Ek; [|now rewrite H].
  destruct H as (r & -> & (k1 & K1 & S1 & L1)). destruct H' as (r' & Hr' & (k2 & K2 & S2 & L2)). cbn [bind]. rewrite kl_div_plain, Hr'. cbn [bind].
  rewrite <- E in K2, S2. assert (k1 = k) by congruence. assert (k2 = k) by congruence. subst k1 k2.
  destruct (map2_same Rplus r r') as (s & -> & Ss & Ls); [congruence|]. cbn [bind]. eexists. split; [reflexivity|].
  exists k. split; auto. cbn [shape map1]. rewrite Ss. split; auto. intros idx V. cbn [el map1]. rewrite Ls by auto. rewrite L1 by auto.
  rewrite L2 by (rewrite S2, <- S1; auto). reflexivity.
Qed.

(** Normalisation of one lane. *)
Lemma lane_shift a k j i : (k < length (shape a))%nat -> valid (shape a) j ->
  lane a k (remove k (firstn k j ++ [i] ++ skipn (S k) j)) = lane a k (remove k j).
Proof.
  intros Hk V. assert (Hj := valid_length _ _ V). unfold lane. apply map_ext. intro i'. f_equal.
  assert (G : remove k (firstn k j ++ [i] ++ skipn (S k) j) = remove k j); [|now rewrite G].
  unfold remove. rewrite firstn_app, firstn_firstn, Nat.min_id, firstn_length. replace (k - Nat.min k (length j))%nat with 0%nat by lia.
  cbn [firstn]. rewrite app_nil_r. f_equal. rewrite skipn_app, firstn_length, skipn_all2 by (rewrite firstn_length; lia).
  replace (S k - Nat.min k (length j))%nat with 1%nat by lia. reflexivity.
Qed.
Lemma lane_op_value g a z k : axis_number (length (shape a)) z = Some k ->
  exists s e c, sum_axis a (Some z) = Ok s /\ expand_dims s z = Ok e /\ map2 g a e = Ok c /\ shape c = shape a /\
    forall j, valid (shape a) j -> el c j = g (el a j) (lsum (lane a k (remove k j))).
Proof.
  intro Ek. pose proof (axis_number_lt _ _ _ Ek) as Hk. pose proof (sum_axis_some a z) as H. rewrite Ek in H.
  destruct H as (s & Es & Ss & Ls). exists s. unfold expand_dims, ndim. rewrite Ss, remove_length by auto.
  replace (S (pred (length (shape a)))) with (length (shape a)) by lia. rewrite norm_axis_number, Ek. cbn [bind].
  set (e := Nd _ _).
  assert (I : insert k 1 (remove k (shape a)) = firstn k (shape a) ++ 1%nat :: skipn (S k) (shape a)).
  { unfold insert, remove. rewrite firstn_app, skipn_app, firstn_firstn, Nat.min_id, firstn_length.
    replace (k - Nat.min k (length (shape a)))%nat with 0%nat by lia. cbn [firstn]. rewrite app_nil_r.
    rewrite (skipn_all2 (firstn k (shape a))) by (rewrite firstn_length; lia). reflexivity. }
  assert (D : shape a = firstn k (shape a) ++ nth k (shape a) 0%nat :: skipn (S k) (shape a)).
  { rewrite <- (insert_remove (shape a) k Hk) at 1. unfold insert, remove. rewrite firstn_app, skipn_app, firstn_firstn, Nat.min_id, firstn_length.
    replace (k - Nat.min k (length (shape a)))%nat with 0%nat by lia. cbn [firstn]. rewrite app_nil_r.
    rewrite (skipn_all2 (firstn k (shape a))) by (rewrite firstn_length; lia). reflexivity. }
  assert (B : bcast (shape a) (insert k 1 (remove k (shape a))) = Ok (shape a)).
  { rewrite I. set (l1 := firstn k (shape a)) in *. set (l2 := skipn (S k) (shape a)) in *. set (d := nth k (shape a) 0%nat) in *. rewrite D.
    unfold bcast. rewrite !rev_app_distr. cbn [rev]. rewrite <- !app_assoc. cbn [app].
    assert (G : forall p q, bcast_rev (p ++ d :: q) (p ++ 1%nat :: q) = Ok (p ++ d :: q)).
    { induction p; intro q; cbn.
      - destruct (Nat.eqb_spec d 1) as [->|]; cbn; now rewrite bcast_rev_same.
      - rewrite Nat.eqb_refl. cbn. rewrite IHp. reflexivity. }
    rewrite G. cbn. rewrite rev_app_distr. cbn. rewrite !rev_involutive, <- app_assoc. reflexivity. }
  destruct (map2_bcast g a e (shape a) B) as (c & Ec & Sc & Lc). exists e, c. split; auto. split; auto. split; auto. split; auto.
  intros j V. rewrite Lc.
  rewrite view_same by auto. f_equal. unfold view. cbn [el shape e].
  rewrite I. assert (Hj := valid_length _ _ V).
  destruct (valid_split (shape a) j k Hk V) as (V1 & Vk & V2).
  assert (Bi : bindex (firstn k (shape a) ++ 1%nat :: skipn (S k) (shape a)) j = firstn k j ++ [0%nat] ++ skipn (S k) j).
  { assert (J : j = firstn k j ++ nth k j 0%nat :: skipn (S k) j).
    { rewrite <- (insert_remove j k) at 1 by lia. unfold insert, remove. rewrite firstn_app, skipn_app, firstn_firstn, Nat.min_id, firstn_length.
      replace (k - Nat.min k (length j))%nat with 0%nat by lia. cbn [firstn]. rewrite app_nil_r.
      rewrite (skipn_all2 (firstn k j)) by (rewrite firstn_length; lia). reflexivity. }
    unfold bindex. rewrite app_length. cbn [length]. rewrite firstn_length, skipn_length.
    replace (length j - (Nat.min k (length (shape a)) + S (length (shape a) - S k)))%nat with 0%nat by lia. cbn [skipn].
    rewrite J at 1.
    assert (C : forall (l1 l2 m1 m2 : list nat), length l1 = length m1 -> combine (l1 ++ l2) (m1 ++ m2) = combine l1 m1 ++ combine l2 m2).
    { induction l1; destruct m1; cbn; intros m2 Hl; try discriminate; auto. f_equal. apply IHl1. lia. }
    rewrite C by (rewrite !firstn_length; lia). rewrite map_app. cbn [combine map fst snd Nat.eqb].
    pose proof (bindex_same _ _ V1) as Q1. pose proof (bindex_same _ _ V2) as Q2. unfold bindex in Q1, Q2.
    rewrite (valid_length _ _ V1), Nat.sub_diag in Q1. rewrite (valid_length _ _ V2), Nat.sub_diag in Q2. cbn [skipn] in Q1, Q2.
    rewrite Q1. cbn [skipn] in *. rewrite Q2. reflexivity. }
  rewrite Bi, Ls. rewrite lane_shift by auto. reflexivity.
Qed.
Lemma normalized_value a z k : axis_number (length (shape a)) z = Some k ->
  exists c, normalized a z = Ok c /\ shape c = shape a /\
    forall j, valid (shape a) j -> el c j = el a j / lsum (lane a k (remove k j)).
Proof.
  intro Ek. destruct (lane_op_value Rdiv a z k Ek) as (s & e & c & E1 & E2 & E3 & Sc & Lc). exists c. unfold normalized.
  rewrite E1. cbn [bind]. rewrite E2. cbn [bind]. auto.
Qed.
Lemma lane_normalized a c k idx : shape c = shape a -> (k < length (shape a))%nat -> valid (remove k (shape a)) idx ->
  (forall j, valid (shape a) j -> el c j = el a j / lsum (lane a k (remove k j))) ->
  lane c k idx = map (fun v => v / lsum (lane a k idx)) (lane a k idx).
Proof.
  intros Sc Hk V H. unfold lane at 1 3. rewrite Sc, map_map. apply map_ext_in. intros i Hi. apply in_seq in Hi.
  rewrite H by (apply lane_valid; auto; lia). do 2 f_equal. change (firstn k idx ++ [i] ++ skipn k idx) with (insert k i idx).
  rewrite remove_insert; auto. rewrite (valid_length _ _ V), remove_length by auto. lia.
Qed.
Lemma lsum_div l t : lsum (map (fun v => v / t) l) = lsum l / t.
Proof. induction l; cbn; [unfold Rdiv; lra|]. rewrite IHl. unfold Rdiv. lra. Qed.

(** Normalising twice is normalising once. *)
Lemma normalized_twice a z k c : axis_number (length (shape a)) z = Some k ->
  (forall idx, valid (remove k (shape a)) idx -> lsum (lane a k idx) <> 0) ->
  normalized a z = Ok c -> exists c', normalized c z = Ok c' /\ same c' c.
Proof.
  intros Ek Hs Hc. pose proof (axis_number_lt _ _ _ Ek) as Hk.
  destruct (normalized_value a z k Ek) as (c0 & Hc0 & Sc & Lc). rewrite Hc in Hc0. injection Hc0 as <-.
  destruct (normalized_value c z k) as (c' & Hc' & Sc' & Lc'); [now rewrite Sc|]. exists c'. split; auto. split; auto.
  rewrite Sc', Sc. intros j V. rewrite Lc' by (rewrite Sc; auto).
  assert (Vr : valid (remove k (shape a)) (remove k j)) by (apply valid_remove; auto).
  rewrite (lane_normalized a c k (remove k j) Sc Hk Vr Lc), lsum_div. unfold Rdiv at 2. rewrite Rinv_r by auto. unfold Rdiv. lra.
Qed.
Definition shared (l : list R) : list R := map (fun v => v / lsum l) l.
Lemma kl_div_normalized a b z eps k : shape a = shape b -> axis_number (length (shape a)) z = Some k ->
  exists r a' b', kl_div a b z eps true = Ok (r, a', b') /\ shape a' = shape a /\ shape b' = shape b /\
    (forall idx, valid (remove k (shape a)) idx -> lane a' k idx = shared (lane a k idx) /\ lane b' k idx = shared (lane b k idx)) /\
    reduced a z r (fun k idx => KL EPSILON (shared (lane a k idx)) (shared (lane b k idx))).
Proof.
  intros E Ek. pose proof (axis_number_lt _ _ _ Ek) as Hk. unfold kl_div.
  destruct (normalized_value a z k Ek) as (a' & -> & Sa & La). assert (Ek' := Ek). rewrite E in Ek'.
  destruct (normalized_value b z k Ek') as (b' & -> & Sb & Lb). cbn [bind].
  pose proof (gKL_axis a' b' EPSILON z ltac:(congruence)) as H. rewrite Sa, Ek in H. destruct H as (r & -> & (k' & K & S & L)). cbn [bind].
  exists r, a', b'. split; auto. split; auto. split; auto. rewrite Sa in K. assert (k' = k) by congruence. subst k'.
  assert (G : forall idx, valid (remove k (shape a)) idx -> lane a' k idx = shared (lane a k idx) /\ lane b' k idx = shared (lane b k idx)).
  { intros idx V. split; [apply lane_normalized; auto|]. apply lane_normalized; auto; rewrite <- E; auto. }
  split; auto. exists k. split; auto. rewrite Sa in S. split; auto. intros idx V. rewrite L by auto.
  unfold remove in G. rewrite S in V. destruct (G idx V) as [-> ->]. reflexivity.
Qed.

(** ** real_sparsity. *)
Lemma count_bounds {X} (p : X -> bool) (l : list X) : 0 <= lsum (map (fun x => ind (p x)) l) <= INR (length l).
Proof.
  induction l; [cbn; lra|]. cbn [map lsum length]. rewrite S_INR. unfold ind at 1 3. destruct (p a); lra.
Qed.
Lemma real_sparsity_count x :
  real_sparsity x = 1 - lsum (map (fun v => if Req_EM_T v 0 then 0 else 1) (entries x)) / INR (size (shape x)).
Proof.
  unfold real_sparsity. rewrite sum_over_indices. unfold entries. rewrite map_map. do 3 f_equal. apply map_ext. intro idx.
  unfold Req_bool. destruct (Req_EM_T (el x idx) 0); reflexivity.
Qed.
Lemma real_sparsity_bounds x : (0 < size (shape x))%nat -> 0 <= real_sparsity x <= 1.
Proof.
  intro H. rewrite real_sparsity_count. assert (P : 0 < INR (size (shape x))) by (apply lt_0_INR; auto).
  assert (B := count_bounds (fun v => negb (Req_bool v 0)) (entries x)). rewrite length_entries in B.
  rewrite (lsum_ext _ (fun v => ind (negb (Req_bool v 0)))) by (intros v _; unfold Req_bool; destruct (Req_EM_T v 0); reflexivity).
  set (c := lsum _) in *. set (s := INR (size (shape x))) in *.
  assert (0 <= c / s <= 1); [|lra]. split; apply Rmult_le_reg_r with s; auto; unfold Rdiv; rewrite Rmult_assoc, Rinv_l; lra.
Qed.

(** ** Distances between all pairs of rows. *)
Lemma expand_views reco ex n m d : shape reco = [n; d] -> shape ex = [m; d] ->
  exists a b, expand_dims reco 1 = Ok a /\ expand_dims ex 0 = Ok b /\ shape a = [n; 1%nat; d] /\ shape b = [1%nat; m; d] /\
    bcast (shape a) (shape b) = Ok [n; m; d] /\
    (forall i j, (i < n)%nat -> (j < m)%nat -> lane (view a [n; m; d]) 2 [i; j] = row reco i /\ lane (view b [n; m; d]) 2 [i; j] = row ex j).
Proof.
  intros Sr Se. unfold expand_dims, ndim. rewrite Sr, Se. cbn [length]. change (norm_axis 3 1) with (Ok 1%nat). change (norm_axis 3 0) with (Ok 0%nat). cbn [bind].
  eexists _, _. split; [reflexivity|]. split; [reflexivity|]. cbn [shape]. split; [reflexivity|]. split; [reflexivity|]. split.
  - unfold bcast, insert. cbn. rewrite Nat.eqb_refl. cbn. destruct m as [|[|m]]; cbn; auto; destruct n as [|[|n]]; cbn; auto.
  - intros i j Hi Hj. unfold lane, row. rewrite Sr, Se. cbn. split; apply map_ext_in; intros l Hl; apply in_seq in Hl.
    + destruct (Nat.eqb_spec n 1); destruct (Nat.eqb_spec d 1); cbn; repeat f_equal; lia.
    + destruct (Nat.eqb_spec m 1); destruct (Nat.eqb_spec d 1); cbn; repeat f_equal; lia.
Qed.
Lemma all_frobenius reco ex n m d : shape reco = [n; d] -> shape ex = [m; d] ->
  exists r, all_distances_nd reco ex frobenius = Ok r /\ shape r = [n; m] /\
    forall i j, (i < n)%nat -> (j < m)%nat -> el r [i; j] = distance (row reco i) (row ex j).
Proof.
  intros Sr Se. destruct (expand_views reco ex n m d Sr Se) as (a & b & Ha & Hb & Sa & Sb & B & L). unfold all_distances_nd.
  rewrite Sr, Se, Ha, Hb. cbn [bind]. pose proof (frob_inner a b (-1) _ B) as H. cbn [length] in H. change (axis_number 3 (-1)) with (Some 2%nat) in H.
  cbn beta iota in H. destruct H as (r & Hr & S & Lr). exists r. split; auto. split; auto. intros i j Hi Hj.
  rewrite Lr by (cbn; lia). destruct (L i j Hi Hj) as [-> ->]. reflexivity.
Qed.
Lemma all_kl reco ex n m d eps : shape reco = [n; d] -> shape ex = [m; d] ->
  exists r, all_distances_nd reco ex (fun a b z => generalized_KL a b eps (Some z)) = Ok r /\ shape r = [n; m] /\
    forall i j, (i < n)%nat -> (j < m)%nat -> el r [i; j] = KL eps (row reco i) (row ex j).
Proof.
  intros Sr Se. destruct (expand_views reco ex n m d Sr Se) as (a & b & Ha & Hb & Sa & Sb & B & L). unfold all_distances_nd.
  rewrite Sr, Se, Ha, Hb. cbn [bind]. destruct (gKL_inner a b eps (Some (-1)%Z) _ B) as (s & -> & Ss & Ls).
  pose proof (sum_axis_some s (-1)) as H. rewrite Ss in H. cbn [length] in H. change (axis_number 3 (-1)) with (Some 2%nat) in H.
  cbn beta iota in H. destruct H as (r & Hr & S & Lr). exists r. split; auto. split; auto. intros i j Hi Hj.
  rewrite Lr. destruct (L i j Hi Hj) as [<- <-]. rewrite KL_kl_fun. f_equal. apply lane_map2; auto; cbn; lia.
Qed.
Lemma all_cosine reco ex n m d : shape reco = [n; d] -> shape ex = [m; d] ->
  exists r, all_distances_nd reco ex cosine_diff = Ok r /\ shape r = [n; m] /\
    forall i j, (i < n)%nat -> (j < m)%nat -> el r [i; j] = - cosine (row reco i) (row ex j).
Proof.
  intros Sr Se. destruct (expand_views reco ex n m d Sr Se) as (a & b & Ha & Hb & Sa & Sb & B & L). unfold all_distances_nd.
  rewrite Sr, Se, Ha, Hb. cbn [bind]. unfold cosine_diff, cosine_similarity.
  destruct (map2_bcast Rmult a b _ B) as (p & -> & Sp & Lp). cbn [bind].
  pose proof (sum_axis_some p (-1)) as H1. rewrite Sp in H1. cbn [length] in H1. change (axis_number 3 (-1)) with (Some 2%nat) in H1.
  cbn beta iota in H1. destruct H1 as (ab & -> & S1 & L1). cbn [bind].
  pose proof (sum_axis_some (map1 Rsqr a) (-1)) as H2. cbn [shape map1] in H2. rewrite Sa in H2. cbn [length] in H2. change (axis_number 3 (-1)) with (Some 2%nat) in H2.
  cbn beta iota in H2. destruct H2 as (aa & -> & S2 & L2). cbn [bind].
  pose proof (sum_axis_some (map1 Rsqr b) (-1)) as H3. cbn [shape map1] in H3. rewrite Sb in H3. cbn [length] in H3. change (axis_number 3 (-1)) with (Some 2%nat) in H3.
  cbn beta iota in H3. destruct H3 as (bb & -> & S3 & L3). cbn [bind].
  change (remove 2 [n; m; d]) with [n; m] in S1. change (remove 2 [n; 1%nat; d]) with [n; 1%nat] in S2. change (remove 2 [1%nat; m; d]) with [1%nat; m] in S3.
  destruct (map2_bcast Rmult aa bb [n; m]) as (q & -> & Sq & Lq).
  { rewrite S2, S3. unfold bcast. cbn. destruct m as [|[|m]]; cbn; auto; destruct n as [|[|n]]; cbn; auto. }
  cbn [bind]. destruct (map2_same Rplus (map1 sqrt q) (map1 (fun v => ind (Req_bool v 0)) ab)) as (den & -> & Sd & Ld); [cbn; congruence|]. cbn [bind].
  destruct (map2_same Rdiv ab den) as (r & -> & Sr' & Lr); [cbn in Sd; congruence|]. cbn [bind].
  eexists. split; [reflexivity|]. split; [cbn; congruence|]. intros i j Hi Hj. cbn [el map1]. f_equal.
  assert (V : valid [n; m] [i; j]) by (cbn; lia).
  rewrite Lr by (rewrite S1; auto). rewrite Ld by (cbn; rewrite Sq; auto). cbn [el map1]. rewrite Lq.
  destruct (L i j Hi Hj) as [La Lb].
  assert (G1 : el ab [i; j] = inner (row reco i) (row ex j)).
  { rewrite L1, <- La, <- Lb. unfold inner, sum2. f_equal. apply lane_map2; auto; cbn; lia. }
  assert (G2 : el (view aa [n; m]) [i; j] = inner (row reco i) (row reco i)).
  { cbn. rewrite S2. cbn. rewrite L2, inner_rsqr. rewrite <- La. f_equal.
    rewrite (lane_map a (map1 Rsqr a) 2 _ Rsqr); auto; [|rewrite Sa; cbn; lia|rewrite Sa; cbn; destruct (Nat.eqb_spec n 1); lia].
    f_equal. unfold lane. rewrite Sa. cbn. apply map_ext_in. intros l Hl. apply in_seq in Hl. rewrite Sa. cbn. 
    destruct (Nat.eqb_spec d 1); repeat f_equal; lia. }
  assert (G3 : el (view bb [n; m]) [i; j] = inner (row ex j) (row ex j)).
  { cbn. rewrite S3. cbn. rewrite L3, inner_rsqr. rewrite <- Lb. f_equal.
    rewrite (lane_map b (map1 Rsqr b) 2 _ Rsqr); auto; [|rewrite Sb; cbn; lia|rewrite Sb; cbn; destruct (Nat.eqb_spec m 1); lia].
    f_equal. unfold lane. rewrite Sb. cbn. apply map_ext_in. intros l Hl. apply in_seq in Hl. rewrite Sb. cbn. 
    destruct (Nat.eqb_spec d 1); repeat f_equal; lia. }
  rewrite G1, G2, G3. apply cos_fun_cosine.
Qed.

(** ** Symmetrised divergence with normalisation. *)
Lemma shared_idem l : lsum l <> 0 -> shared (shared l) = shared l.
Proof.
  intro H. assert (T : lsum (shared l) = 1). { unfold shared. rewrite lsum_div. unfold Rdiv. now rewrite Rinv_r. }
  unfold shared at 1. rewrite T. rewrite <- (map_id (shared l)) at 2. apply map_ext. intro v. lra.
Qed.
Lemma sym_normalized_value a b z eps k : shape a = shape b -> axis_number (length (shape a)) z = Some k ->
  (forall idx, valid (remove k (shape a)) idx -> lsum (lane a k idx) <> 0 /\ lsum (lane b k idx) <> 0) ->
  exists r a' b', sym_kl_div a b z eps true = Ok (r, a', b') /\
    reduced a z r (fun k idx => / 2 * (KL EPSILON (shared (lane a k idx)) (shared (lane b k idx)) +
                                       KL EPSILON (shared (lane b k idx)) (shared (lane a k idx)))).
Proof.
  intros E Ek Hs. unfold sym_kl_div, rev_kl_div.
  destruct (kl_div_normalized a b z eps k E Ek) as (r1 & a1 & b1 & -> & Sa & Sb & L1 & (k1 & K1 & S1 & V1)). cbn [bind].
  assert (k1 = k) by congruence. subst k1.
  destruct (kl_div_normalized b1 a1 z eps k) as (r2 & b2 & a2 & Hk2 & Sb2 & Sa2 & L2 & (k2 & K2 & S2 & V2)); [congruence|rewrite Sb, <- E; auto|].
  rewrite Hk2. cbn [bind]. rewrite Sb, <- E in K2, S2. assert (k2 = k) by congruence. subst k2.
  destruct (map2_same Rplus r1 r2) as (s & -> & Ss & Ls); [congruence|]. cbn [bind]. eexists _, _, _. split; [reflexivity|].
  exists k. split; auto. cbn [shape map1]. rewrite Ss. split; auto. intros idx V. cbn [el map1]. rewrite Ls, V1 by auto.
  rewrite V2 by (rewrite S2, <- S1; auto). rewrite S1 in V. destruct (L1 idx V) as [-> ->]. destruct (Hs idx V) as [Ha Hb].
  rewrite !shared_idem by auto. reflexivity.
Qed.

(** ** Forms used in the properties. *)
Lemma kl_total_bound x y eps r : 0 < eps -> shape x = shape y -> nonneg x -> nonneg y ->
  generalized_KL x y eps None = Ok r -> - (INR (size (shape x)) * eps) <= el r [].
Proof.
  intros He E Nx Ny H. destruct (gKL_total x y eps E) as (r' & H' & _ & L). assert (r' = r) by congruence. subst r'. rewrite L, <- length_entries.
  apply kl_lower; auto; apply nonneg_entries; auto.
Qed.
Lemma kl_axis_bound x y eps z r idx : 0 < eps -> shape x = shape y -> nonneg x -> nonneg y ->
  generalized_KL x y eps (Some z) = Ok r -> valid (shape r) idx ->
  exists n, py_nth (shape x) z = Ok n /\ - (INR n * eps) <= el r idx.
Proof.
  intros He E Nx Ny H V. pose proof (gKL_axis x y eps z E) as G. destruct (axis_number (length (shape x)) z) as [k|] eqn:Ek; [|congruence].
  destruct G as (r' & H' & (k' & K & S & L)). assert (r' = r) by congruence. subst r'. assert (k' = k) by congruence. subst k'.
  pose proof (axis_number_lt _ _ _ Ek) as Hk.
  exists (nth k (shape x) 0%nat). split.
  - unfold py_nth. assert (Q : norm_index (length (shape x)) z = Ok k).
    { unfold axis_number in Ek. unfold norm_index. destruct (_ && _)%bool; [congruence|]. destruct (_ && _)%bool; congruence. }
    rewrite Q. cbn [bind]. rewrite (nth_error_nth' _ 0%nat Hk). reflexivity.
  - rewrite L by auto. rewrite <- (length_lane x k idx). rewrite S in V. apply kl_lower; auto; apply nonneg_lane; auto. rewrite <- E; auto. rewrite <- E. auto.
Qed.
Lemma kl_self_axis x eps z r idx : 0 < eps -> nonneg x -> generalized_KL x x eps (Some z) = Ok r -> valid (shape r) idx -> el r idx = 0.
Proof.
  intros He N H V. pose proof (gKL_axis x x eps z eq_refl) as G. destruct (axis_number (length (shape x)) z) as [k|] eqn:Ek; [|congruence].
  destruct G as (r' & H' & (k' & K & S & L)). assert (r' = r) by congruence. subst r'. pose proof (axis_number_lt _ _ _ K) as Hk.
  rewrite L by auto. rewrite S in V. apply kl_self; auto. apply nonneg_lane; auto.
Qed.
Lemma kl_zero_axis x y eps z r idx : shape x = shape y -> (forall j, valid (shape x) j -> el x j = 0) ->
  generalized_KL x y eps (Some z) = Ok r -> valid (shape r) idx ->
  exists k, axis_number (length (shape x)) z = Some k /\ el r idx = lsum (lane y k idx).
Proof.
  intros E N H V. pose proof (gKL_axis x y eps z E) as G. destruct (axis_number (length (shape x)) z) as [k|] eqn:Ek; [|congruence].
  destruct G as (r' & H' & (k' & K & S & L)). assert (r' = r) by congruence. subst r'. assert (k' = k) by congruence. subst k'.
  pose proof (axis_number_lt _ _ _ K) as Hk. exists k. split; auto. rewrite L by auto. rewrite S in V. apply kl_zero.
  - now rewrite !length_lane, E.
  - apply Forall_forall. intros v Hv. apply in_map_iff in Hv as (i & <- & Hi). apply in_seq in Hi. apply N, lane_valid; auto. lia.
Qed.
Lemma kl_negative eps : 0 < eps < 1 -> exists x y, shape x = shape y /\ nonneg x /\ nonneg y /\
  exists r, generalized_KL x y eps None = Ok r /\ el r [] < 0.
Proof.
  intro He. exists (vec [1]), (vec [1 - eps]). split; [reflexivity|].
  assert (N : forall v, 0 <= v -> nonneg (vec [v])).
  { intros v Hv [|i [|]]; cbn; try tauto. intros [Hi _]. destruct i as [|[|]]; auto; lia. }
  split; [apply N; lra|]. split; [apply N; lra|]. destruct (gKL_total (vec [1]) (vec [1 - eps]) eps eq_refl) as (r & H & _ & L).
  exists r. split; auto. rewrite L. unfold KL, sum2, entries. cbn. replace (1 - eps + eps) with 1 by lra. unfold Rdiv. rewrite Rinv_1, Rmult_1_r.
  pose proof (ln_lt_sub1 (1 + eps) ltac:(lra) ltac:(lra)). lra.
Qed.
Lemma entropy_bounds v : probability (entries v) -> 0 <= entropy v <= ln (INR (size (shape v))).
Proof. intro P. rewrite entropy_shannon, <- length_entries. split; [now apply shannon_nonneg|now apply shannon_le]. Qed.
Lemma entropy_zero v : probability (entries v) -> (entropy v = 0 <->
  exists l1 l2, entries v = l1 ++ 1 :: l2 /\ Forall (fun p => p = 0) (l1 ++ l2)).
Proof. intro P. rewrite entropy_shannon. now apply shannon_zero. Qed.
Lemma entropy_max v : probability (entries v) -> (entropy v = ln (INR (size (shape v))) <->
  Forall (fun p => p = / INR (size (shape v))) (entries v)).
Proof. intro P. rewrite entropy_shannon, <- length_entries. now apply shannon_max. Qed.
Lemma entropy_invariant v w n : Permutation (entries w) (entries v ++ repeat 0 n) -> entropy w = entropy v.
Proof. intro P. rewrite !entropy_shannon, (shannon_perm _ _ P). apply shannon_pad. Qed.
Lemma ce_main h z k : axis_number (length (shape h)) z = Some k -> (2 <= length (shape h))%nat -> nonneg h -> total h = 1 ->
  conditional_entropy h z = Ok (shannon (entries h) - shannon (marginal h k)) /\
  probability (marginal h k) /\ probability (rest_marginal h k) /\
  0 <= shannon (entries h) - shannon (marginal h k) <= shannon (rest_marginal h k).
Proof.
  intros Ek H2 N T. pose proof (axis_number_lt _ _ _ Ek) as Hk. split; [now apply ce_value|].
  destruct (marginal_prob h k Hk N T). split; auto. split; auto. now apply ce_bounds.
Qed.
Lemma marginal_matrix h n m : shape h = [n; m] -> marginal h 0 = row_sums h /\ rest_marginal h 0 = col_sums h /\
  marginal h 1 = col_sums h /\ rest_marginal h 1 = row_sums h.
Proof.
  intro Sh. unfold marginal, rest_marginal, row_sums, col_sums, row, col, lane. rewrite Sh. cbn [nth firstn skipn app indices].
  assert (F : forall (d : nat), flat_map (fun i => [[i]]) (seq 0 d) = map (fun i => [i]) (seq 0 d)).
  { intro d. induction (seq 0 d); cbn; congruence. }
  cbn [map]. rewrite !F, !map_map. repeat split; apply map_ext; intro; f_equal; rewrite ?map_map; reflexivity.
Qed.

(** ** Statements about results of the functions. *)

Lemma rev_plain_value a b z eps : shape a = shape b ->
  match axis_number (length (shape a)) z with
  | None => rev_kl_div a b z eps false = Err ValueError
  | Some _ => exists r, rev_kl_div a b z eps false = Ok (r, a, b) /\
      reduced a z r (fun k idx => KL EPSILON (lane b k idx) (lane a k idx))
  end.
Proof.
  intro S. unfold rev_kl_div, kl_div. cbn [bind]. pose proof (gKL_axis b a EPSILON z (eq_sym S)) as G.
  rewrite <- S in G. destruct (axis_number (length (shape a)) z) eqn:E.
  - destruct G as (r & -> & k & K & Sr & L). exists r. split; [reflexivity|]. exists k. rewrite S. auto.
  - rewrite G. reflexivity.
Qed.

Lemma frob_lane a b z r : shape a = shape b -> frobenius a b z = Ok r ->
  exists k, axis_number (length (shape a)) z = Some k /\ shape r = firstn k (shape a) ++ skipn (S k) (shape a) /\
    forall idx, valid (shape r) idx -> el r idx = distance (lane a k idx) (lane b k idx).
Proof.
  intros S H. pose proof (frob_axis a b z S) as G. destruct (axis_number (length (shape a)) z) as [k|] eqn:E.
  - destruct G as (r' & H' & k' & K & Sr & L). rewrite H in H'. injection H' as <-. exists k'. rewrite <- E, K. auto.
  - congruence.
Qed.
Lemma frob_triangle a b c z r s t idx : shape a = shape b -> shape b = shape c ->
  frobenius a b z = Ok r -> frobenius b c z = Ok s -> frobenius a c z = Ok t -> valid (shape t) idx ->
  el t idx <= el r idx + el s idx.
Proof.
  intros S1 S2 H1 H2 H3 V. assert (S3 : shape a = shape c) by congruence.
  destruct (frob_lane _ _ _ _ S1 H1) as (k1 & K1 & R1 & L1). destruct (frob_lane _ _ _ _ S2 H2) as (k2 & K2 & R2 & L2).
  destruct (frob_lane _ _ _ _ S3 H3) as (k3 & K3 & R3 & L3).
  assert (k1 = k3) by congruence. rewrite <- S1 in K2, R2. assert (k2 = k3) by congruence. subst.
  rewrite L3, L1, L2 by congruence. apply distance_triangle; rewrite !length_lane; congruence.
Qed.
Lemma frob_metric a b z r r' idx : shape a = shape b -> frobenius a b z = Ok r -> frobenius b a z = Ok r' -> valid (shape r) idx ->
  0 <= el r idx /\ el r' idx = el r idx /\
  exists k, axis_number (length (shape a)) z = Some k /\ (el r idx = 0 <-> lane a k idx = lane b k idx).
Proof.
  intros S1 H1 H2 V. destruct (frob_lane _ _ _ _ S1 H1) as (k1 & K1 & R1 & L1).
  destruct (frob_lane _ _ _ _ (eq_sym S1) H2) as (k2 & K2 & R2 & L2). rewrite <- S1 in K2, R2. assert (k2 = k1) by congruence. subst.
  rewrite L1, L2 by congruence. split; [apply norm_nonneg|]. split; [apply distance_sym|]. exists k1. split; auto.
  apply distance_zero. rewrite !length_lane. congruence.
Qed.

Lemma cos_lane a b z r : shape a = shape b -> cosine_similarity a b z = Ok r ->
  exists k, axis_number (length (shape a)) z = Some k /\ shape r = firstn k (shape a) ++ skipn (S k) (shape a) /\
    forall idx, valid (shape r) idx -> el r idx = cosine (lane a k idx) (lane b k idx).
Proof.
  intros S H. pose proof (cos_axis a b z S) as G. destruct (axis_number (length (shape a)) z) as [k|] eqn:E.
  - destruct G as (r' & H' & k' & K & Sr & L). rewrite H in H'. injection H' as <-. exists k'. rewrite <- E, K. auto.
  - congruence.
Qed.
Lemma cos_facts a b z r r' idx : shape a = shape b -> cosine_similarity a b z = Ok r -> cosine_similarity b a z = Ok r' ->
  valid (shape r) idx ->
  -1 <= el r idx <= 1 /\ el r' idx = el r idx /\
  (nonneg a -> nonneg b -> 0 <= el r idx) /\
  exists k, axis_number (length (shape a)) z = Some k /\
    (Forall (fun v => v = 0) (lane a k idx) \/ Forall (fun v => v = 0) (lane b k idx) -> el r idx = 0) /\
    (lane a k idx = lane b k idx -> Exists (fun v => v <> 0) (lane a k idx) -> el r idx = 1).
Proof.
  intros S1 H1 H2 V. destruct (cos_lane _ _ _ _ S1 H1) as (k1 & K1 & R1 & L1).
  destruct (cos_lane _ _ _ _ (eq_sym S1) H2) as (k2 & K2 & R2 & L2). rewrite <- S1 in K2, R2. assert (k2 = k1) by congruence. subst.
  rewrite L1, L2 by congruence. split; [apply cosine_bounds|]. split; [apply cosine_sym|]. split.
  { intros Na Nb. assert (K : (k1 < length (shape a))%nat) by (eapply axis_number_lt; eauto).
    unfold remove in *; apply cosine_nonneg; apply nonneg_lane; auto; unfold remove; congruence. }
  exists k1. split; auto. split.
  - intros [Z|Z]; eapply cosine_zero in Z; apply Z.
  - intros <- X. now apply cosine_self.
Qed.
Lemma cos_scale a b z r r' c idx : shape a = shape b -> 0 < c -> cosine_similarity a b z = Ok r ->
  cosine_similarity (map1 (Rmult c) a) b z = Ok r' -> valid (shape r) idx -> el r' idx = el r idx.
Proof.
  intros S1 Hc H1 H2 V. destruct (cos_lane _ _ _ _ S1 H1) as (k1 & K1 & R1 & L1).
  assert (S2 : shape (map1 (Rmult c) a) = shape b) by exact S1.
  destruct (cos_lane _ _ _ _ S2 H2) as (k2 & K2 & R2 & L2). change (shape (map1 (Rmult c) a)) with (shape a) in *.
  assert (k2 = k1) by congruence. subst.
  rewrite L1, L2 by congruence. rewrite (lane_map a _ k1 idx (Rmult c)); [now apply cosine_scale|reflexivity|eapply axis_number_lt; eauto|unfold remove; congruence|reflexivity].
Qed.

Lemma mi_facts h n m : shape h = [n; m] -> nonneg h -> total h = 1 ->
  exists v, mutual_information h = Ok v /\ 0 <= v /\
    (v = 0 <-> (forall i j, (i < n)%nat -> (j < m)%nat -> el h [i; j] = lsum (row h i) * lsum (col h j))).
Proof.
  intros S N T. eexists. split; [apply (mi_entropies h n m); auto|]. split; [apply (mi_nonneg h n m)|apply (mi_zero h n m)]; auto.
Qed.
