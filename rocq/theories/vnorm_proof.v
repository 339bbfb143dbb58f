(** * Proofs about vector_norm and unit_vector. *)

From Coq Require Import List ZArith Reals Bool Lra Lia.
Import ListNotations.
From Verif Require Import Py nd_model nd_spec nd_proof metrics_proof metrics_more vnorm_model vnorm_spec.
Open Scope py_scope.
Local Open Scope R_scope.

Lemma squares_nonneg l : Forall (fun x => 0 <= x) (map (fun x => x * x) l).
Proof. apply Forall_map, Forall_forall. intros x _. apply Rle_0_sqr. Qed.
Lemma norm_square l : norm l * norm l = lsum (map (fun x => x * x) l).
Proof. apply sqrt_sqrt, lsum_nonneg, squares_nonneg. Qed.
Lemma norm_pos l : Exists (fun x => x <> 0) l -> 0 < norm l.
Proof.
  intro H. apply sqrt_lt_R0. apply Exists_exists in H. destruct H as (x & Hx & Nx).
  apply Rlt_le_trans with (x * x); [apply Rsqr_pos_lt, Nx|]. apply lsum_ge_in; [apply squares_nonneg|].
  apply in_map_iff. eauto.
Qed.
Lemma direction_div l : Exists (fun x => x <> 0) l -> direction l (map (fun x => x / norm l) l).
Proof.
  intro H. pose proof (norm_pos l H) as P. split.
  - unfold norm at 1. rewrite map_map.
    rewrite (lsum_ext _ (fun x => / (norm l * norm l) * (x * x))) by (intros; field; lra).
    rewrite lsum_map_scal. rewrite <- norm_square. rewrite Rinv_l by (apply Rmult_integral_contrapositive_currified; lra).
    apply sqrt_1.
  - rewrite map_map. rewrite <- (map_id l) at 1. apply map_ext. intro x. field. lra.
Qed.

Lemma lane_squared a k idx : lane (squared a) k idx = map (fun x => x * x) (lane a k idx).
Proof. unfold lane. rewrite map_map. reflexivity. Qed.
Lemma sum_squared a : sum_over (shape a) (el (squared a)) = lsum (map (fun x => x * x) (entries a)).
Proof. rewrite sum_over_indices. unfold entries. rewrite map_map. reflexivity. Qed.
Lemma same_shape_refl s : same_shape s s = true.
Proof. induction s; cbn; auto. now rewrite Nat.eqb_refl, IHs. Qed.
Lemma same_shape_eq s t : same_shape s t = true -> s = t.
Proof.
  revert t. induction s; destruct t; cbn; intro H; try discriminate; auto. apply andb_true_iff in H.
  destruct H as (H & H2). apply Nat.eqb_eq in H. f_equal; auto.
Qed.

Lemma vector_norm_vec a n axis : shape a = [n] ->
  exists r, vector_norm a axis = Ok r /\ shape r = [] /\ el r [] = norm (entries a).
Proof.
  intro S. unfold vector_norm, ndim. rewrite S. cbn [length Nat.eqb]. eexists. split; [reflexivity|]. split; auto.
  cbn [el]. unfold norm. rewrite <- sum_squared, S. reflexivity.
Qed.
Lemma vector_norm_all a : length (shape a) <> 1%nat ->
  exists r, vector_norm a None = Ok r /\ shape r = [1%nat] /\ el r [0%nat] = norm (entries a).
Proof.
  intro S. unfold vector_norm, ndim. apply Nat.eqb_neq in S. rewrite S. cbn. eexists. split; [reflexivity|]. split; auto.
  cbn [el]. unfold norm. rewrite <- sum_squared. reflexivity.
Qed.
Lemma sum_squared_axis a z k : axis_number (length (shape a)) z = Some k ->
  exists s, sum_axis (squared a) (Some z) = Ok s /\ shape s = remove k (shape a) /\
    forall idx, valid (remove k (shape a)) idx -> el s idx = lsum (map (fun x => x * x) (lane a k idx)).
Proof.
  intro Ek. pose proof (sum_axis_some (squared a) z) as H. cbn [squared map1 shape] in H. rewrite Ek in H.
  destruct H as (s & E & Ss & L). exists s. split; [exact E|]. split; [exact Ss|]. intros idx V. rewrite L by (rewrite ?Ss; auto).
  rewrite <- lane_squared. reflexivity.
Qed.
Lemma atleast_1d_same a : shape a <> [] -> atleast_1d a = a.
Proof. unfold atleast_1d. destruct (shape a); [congruence|auto]. Qed.
Lemma remove_not_nil k (s : list nat) : (2 <= length s)%nat -> (k < length s)%nat -> remove k s <> [].
Proof. intros H Hk E. pose proof (remove_length s k Hk) as L. rewrite E in L. cbn in L. lia. Qed.
Lemma vector_norm_axis a z k : (2 <= length (shape a))%nat -> axis_number (length (shape a)) z = Some k ->
  exists r, vector_norm a (Some z) = Ok r /\ shape r = firstn k (shape a) ++ skipn (S k) (shape a) /\
    forall idx, valid (shape r) idx -> el r idx = norm (lane a k idx).
Proof.
  intros H Ek. destruct (sum_squared_axis a z k Ek) as (s & E & Ss & L). pose proof (axis_number_lt _ _ _ Ek) as Hk.
  unfold vector_norm, ndim. replace (length (shape a) =? 1)%nat with false by (symmetry; apply Nat.eqb_neq; lia).
  rewrite E. cbn [bind]. rewrite atleast_1d_same by (rewrite Ss; now apply remove_not_nil).
  eexists. split; [reflexivity|]. split; [exact Ss|]. intros idx V. cbn [map1 el shape] in *. rewrite Ss in V. rewrite L; auto.
Qed.
Lemma sum_squared_bad a z : axis_number (length (shape a)) z = None -> sum_axis (squared a) (Some z) = Err ValueError.
Proof.
  intro Ek. unfold sum_axis, ndim. cbn [squared map1 shape]. rewrite norm_axis_number, Ek. reflexivity.
Qed.

Lemma bcast_one s : s <> [] -> bcast s [1%nat] = Ok s.
Proof.
  intro H. unfold bcast. destruct (rev s) as [|d t] eqn:E.
  - apply (f_equal (@rev nat)) in E. rewrite rev_involutive in E. cbn in E. congruence.
  - assert (F : bcast_rev (d :: t) (rev [1%nat]) = Ok (d :: t)).
    { cbn. destruct (d =? 1)%nat eqn:D; [apply Nat.eqb_eq in D; subst d|]; destruct t; reflexivity. }
    rewrite F. cbn [bind]. rewrite <- E, rev_involutive. reflexivity.
Qed.

Lemma divide_axis a z k : (2 <= length (shape a))%nat -> axis_number (length (shape a)) z = Some k ->
  exists c, divide_by_length a (Some z) = Ok c /\ shape c = shape a /\
    forall j, valid (shape a) j -> el c j = el a j / norm (lane a k (remove k j)).
Proof.
  intros H Ek. pose proof (axis_number_lt _ _ _ Ek) as Hk.
  destruct (lane_op_value (fun _ y => y) (squared a) z k Ek) as (s & e & c & E1 & E2 & E3 & Sc & Lc).
  destruct (sum_squared_axis a z k Ek) as (s' & E1' & Ss & _). rewrite E1 in E1'. injection E1' as <-.
  unfold divide_by_length. rewrite E1. cbn [bind]. rewrite atleast_1d_same by (rewrite Ss; now apply remove_not_nil).
  assert (E2' : expand_dims (map1 sqrt s) z = Ok (map1 sqrt e)).
  { unfold expand_dims, ndim in *. cbn [map1 shape]. destruct (norm_axis _ z); [|discriminate].
    cbn [bind] in *. injection E2 as <-. reflexivity. }
  rewrite E2'. cbn [bind]. unfold idiv, map2 in *. cbn [map1 squared shape] in *.
  destruct (bcast (shape a) (shape e)) as [u|]; [|discriminate]. cbn [bind] in *. injection E3 as <-.
  cbn [shape el] in *. subst u. rewrite same_shape_refl. eexists. split; [reflexivity|]. split; [reflexivity|].
  intros j V. cbn [el]. rewrite bindex_same by auto. specialize (Lc j V). fold (squared a) in Lc. rewrite lane_squared in Lc.
  unfold norm. rewrite <- Lc. reflexivity.
Qed.
Lemma divide_all a : shape a <> [] ->
  exists c, divide_by_length a None = Ok c /\ shape c = shape a /\
    forall j, valid (shape a) j -> el c j = el a j / norm (entries a).
Proof.
  intro H. unfold divide_by_length, idiv, map2. cbn. rewrite bcast_one by auto. cbn [bind shape]. rewrite same_shape_refl.
  eexists. split; [reflexivity|]. split; [reflexivity|]. intros j V. cbn [el]. rewrite bindex_same by auto.
  unfold norm. rewrite <- sum_squared. reflexivity.
Qed.
Lemma divide_entries a c t : shape c = shape a -> (forall j, valid (shape a) j -> el c j = el a j / t) ->
  entries c = map (fun x => x / t) (entries a).
Proof. intros S H. unfold entries. rewrite S, map_map. apply map_ext_in. intros j Hj. apply H, in_indices, Hj. Qed.
Lemma divide_lane a c k idx : shape c = shape a -> (k < length (shape a))%nat -> valid (remove k (shape a)) idx ->
  (forall j, valid (shape a) j -> el c j = el a j / norm (lane a k (remove k j))) ->
  lane c k idx = map (fun v => v / norm (lane a k idx)) (lane a k idx).
Proof.
  intros Sc Hk V H. unfold lane at 1 3. rewrite Sc, map_map. apply map_ext_in. intros i Hi. apply in_seq in Hi.
  rewrite H by (apply lane_valid; auto; lia). do 2 f_equal. change (firstn k idx ++ [i] ++ skipn k idx) with (insert k i idx).
  rewrite remove_insert; auto. rewrite (valid_length _ _ V), remove_length by auto. lia.
Qed.

Lemma unit_axis a z k : (2 <= length (shape a))%nat -> axis_number (length (shape a)) z = Some k ->
  exists u, unit_vector a (Some z) = Ok u /\ unit_vector_out a (Some z) = Ok u /\ shape u = shape a /\
    forall idx, valid (firstn k (shape a) ++ skipn (S k) (shape a)) idx -> Exists (fun x => x <> 0) (lane a k idx) ->
      direction (lane a k idx) (lane u k idx).
Proof.
  intros H Ek. destruct (divide_axis a z k H Ek) as (c & E & Sc & L). exists c. unfold unit_vector, unit_vector_out, ndim.
  replace (length (shape a) =? 1)%nat with false by (symmetry; apply Nat.eqb_neq; lia). do 3 (split; auto).
  intros idx V N. rewrite (divide_lane a c k idx Sc (axis_number_lt _ _ _ Ek) V L). now apply direction_div.
Qed.
Lemma unit_all a : (2 <= length (shape a))%nat -> Exists (fun x => x <> 0) (entries a) ->
  exists u, unit_vector a None = Ok u /\ shape u = shape a /\ direction (entries a) (entries u).
Proof.
  intros H N. destruct (divide_all a) as (c & E & Sc & L); [destruct (shape a); [cbn in H; lia|congruence]|].
  exists c. unfold unit_vector, ndim. replace (length (shape a) =? 1)%nat with false by (symmetry; apply Nat.eqb_neq; lia).
  do 2 (split; auto). rewrite (divide_entries a c _ Sc L). now apply direction_div.
Qed.
Lemma unit_vec a n axis : shape a = [n] -> Exists (fun x => x <> 0) (entries a) ->
  exists u, unit_vector a axis = Ok u /\ shape u = [n] /\ direction (entries a) (entries u).
Proof.
  intros S N. unfold unit_vector, ndim. rewrite S. cbn [length Nat.eqb]. eexists. split; [reflexivity|]. split; [exact S|].
  match goal with |- direction _ (entries ?c) => rewrite (divide_entries a c (norm (entries a))) end; [now apply direction_div|reflexivity|].
  intros j _. cbn [map1 el]. unfold norm. rewrite <- sum_squared, S. reflexivity.
Qed.
Lemma unit_out_all a : shape a <> [] -> Exists (fun x => x <> 0) (entries a) ->
  exists u, unit_vector_out a None = Ok u /\ shape u = shape a /\ direction (entries a) (entries u).
Proof.
  intros H N. destruct (divide_all a H) as (c & E & Sc & L). exists c. do 2 (split; auto).
  rewrite (divide_entries a c _ Sc L). now apply direction_div.
Qed.
Lemma unit_out_vec a n z : shape a = [n] -> unit_vector_out a (Some z) = Err ValueError.
Proof.
  intro S. unfold unit_vector_out, divide_by_length. destruct (axis_number (length (shape a)) z) as [k|] eqn:Ek.
  - destruct (sum_squared_axis a z k Ek) as (s & E & Ss & _). rewrite E. cbn [bind].
    pose proof (axis_number_lt _ _ _ Ek) as Hk. rewrite S in Hk, Ss. cbn in Hk. assert (k = 0%nat) by lia. subst k. cbn in Ss.
    unfold atleast_1d. rewrite Ss. unfold expand_dims, ndim. cbn [map1 shape length]. rewrite norm_axis_number.
    destruct (axis_number 2 z) as [k|] eqn:E2; [|reflexivity]. cbn [bind]. apply axis_number_lt in E2.
    assert (I : insert k 1%nat [1%nat] = [1; 1]%nat) by (destruct k as [|[|k]]; [reflexivity..|lia]).
    assert (B : bcast [n] [1; 1]%nat = Ok [1%nat; n]).
    { unfold bcast. cbn. destruct (n =? 1)%nat eqn:En; [apply Nat.eqb_eq in En; subst n|]; reflexivity. }
    unfold idiv, map2. cbn [shape]. rewrite I, S, B. cbn [bind shape same_shape]. rewrite andb_false_r. reflexivity.
  - rewrite sum_squared_bad by auto. reflexivity.
Qed.
Lemma unit_bad a z : length (shape a) <> 1%nat -> axis_number (length (shape a)) z = None ->
  unit_vector a (Some z) = Err ValueError /\ vector_norm a (Some z) = Err ValueError.
Proof.
  intros H Ek. unfold unit_vector, vector_norm, divide_by_length, ndim. apply Nat.eqb_neq in H. rewrite H.
  rewrite sum_squared_bad by auto. auto.
Qed.
Lemma norm_out a axis o r : vector_norm_out a axis o = Ok r -> shape r = o /\
  match axis with
  | None => o = [] /\ el r [] = norm (entries a)
  | Some z => exists k, axis_number (length (shape a)) z = Some k /\ o = firstn k (shape a) ++ skipn (S k) (shape a) /\
      forall idx, valid o idx -> el r idx = norm (lane a k idx)
  end.
Proof.
  unfold vector_norm_out. destruct axis as [z|].
  - destruct (axis_number (length (shape a)) z) as [k|] eqn:Ek; [|rewrite sum_squared_bad by auto; discriminate].
    destruct (sum_squared_axis a z k Ek) as (s & E & Ss & L). rewrite E. cbn [bind].
    destruct (same_shape (shape s) o) eqn:So; [|discriminate]. apply same_shape_eq in So. intro H. injection H as <-.
    split; [exact So|]. exists k. split; auto. split; [rewrite <- So; exact Ss|]. intros idx V. cbn [map1 el].
    rewrite L by (rewrite <- Ss, So; exact V). reflexivity.
  - cbn. destruct o; cbn; [|discriminate]. intro H. injection H as <-. split; auto. split; auto. cbn [map1 el].
    unfold norm. rewrite <- sum_squared. reflexivity.
Qed.
Lemma norm_out_ok a z k : axis_number (length (shape a)) z = Some k ->
  exists r, vector_norm_out a (Some z) (firstn k (shape a) ++ skipn (S k) (shape a)) = Ok r.
Proof.
  intro Ek. destruct (sum_squared_axis a z k Ek) as (s & E & Ss & L). unfold vector_norm_out. rewrite E. cbn [bind].
  rewrite Ss. unfold remove. rewrite same_shape_refl. eauto.
Qed.
Lemma norm_out_refused a axis o :
  match axis with
  | None => o <> []
  | Some z => forall k, axis_number (length (shape a)) z = Some k -> o <> firstn k (shape a) ++ skipn (S k) (shape a)
  end -> vector_norm_out a axis o = Err ValueError.
Proof.
  unfold vector_norm_out. destruct axis as [z|]; intro H.
  - destruct (axis_number (length (shape a)) z) as [k|] eqn:Ek; [|rewrite sum_squared_bad by auto; reflexivity].
    destruct (sum_squared_axis a z k Ek) as (s & E & Ss & L). rewrite E. cbn [bind].
    destruct (same_shape (shape s) o) eqn:So; [|reflexivity]. apply same_shape_eq in So. elim (H k eq_refl). rewrite <- So. exact Ss.
  - cbn. destruct o; [contradiction|reflexivity].
Qed.
Lemma scalar x : exists r, vector_norm (Nd [] (fun _ => x)) None = Ok r /\ shape r = [1%nat] /\ el r [0%nat] = Rabs x.
Proof. eexists. split; [reflexivity|]. split; [reflexivity|]. cbn. apply sqrt_Rsqr_abs. Qed.
Lemma scalar_unit a : shape a = [] -> unit_vector a None = Err ValueError.
Proof. intro S. unfold unit_vector, ndim. rewrite S. unfold divide_by_length, idiv, map2. cbn. rewrite S. reflexivity. Qed.
