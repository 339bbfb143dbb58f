(** * Lemmas on the arrays of nd_model.v. *)

From Coq Require Import List ZArith Reals Bool Lia Lra Permutation.
Import ListNotations.
From Verif Require Import Py Py_proof ListUtil nd_model nd_spec.
Local Open Scope R_scope.

(** ** Sums of lists. *)
Lemma lsum_app l m : lsum (l ++ m) = lsum l + lsum m.
Proof. induction l; cbn; [lra|]. rewrite IHl. lra. Qed.
Lemma lsum_perm l m : Permutation l m -> lsum l = lsum m.
Proof. induction 1; cbn in *; lra. Qed.
Lemma lsum_ext {X} (f g : X -> R) l : (forall x, In x l -> f x = g x) -> lsum (map f l) = lsum (map g l).
Proof. intro H. f_equal. apply map_ext_in. exact H. Qed.
Lemma lsum_le {X} (f g : X -> R) l : (forall x, In x l -> f x <= g x) -> lsum (map f l) <= lsum (map g l).
Proof.
  induction l; cbn; intro H; [lra|]. pose proof (H a (or_introl eq_refl)).
  specialize (IHl (fun x Hx => H x (or_intror Hx))). lra.
Qed.
Lemma lsum_nonneg l : Forall (fun x => 0 <= x) l -> 0 <= lsum l.
Proof. induction 1; cbn; lra. Qed.
Lemma lsum_map_plus {X} (f g : X -> R) l : lsum (map (fun x => f x + g x) l) = lsum (map f l) + lsum (map g l).
Proof. induction l; cbn; [lra|]. rewrite IHl. lra. Qed.
Lemma lsum_map_minus {X} (f g : X -> R) l : lsum (map (fun x => f x - g x) l) = lsum (map f l) - lsum (map g l).
Proof. induction l; cbn; [lra|]. rewrite IHl. lra. Qed.
Lemma lsum_map_opp {X} (f : X -> R) l : lsum (map (fun x => - f x) l) = - lsum (map f l).
Proof. induction l; cbn; [lra|]. rewrite IHl. lra. Qed.
Lemma lsum_map_scal {X} c (f : X -> R) l : lsum (map (fun x => c * f x) l) = c * lsum (map f l).
Proof. induction l; cbn; [lra|]. rewrite IHl. lra. Qed.
Lemma lsum_const {X} c (l : list X) : lsum (map (fun _ => c) l) = INR (length l) * c.
Proof. induction l; [cbn; lra|]. cbn [map lsum length]. rewrite S_INR, IHl. lra. Qed.
Lemma lsum_zero {X} (f : X -> R) l : (forall x, In x l -> f x = 0) -> lsum (map f l) = 0.
Proof. intro H. rewrite (lsum_ext f (fun _ => 0)) by auto. rewrite lsum_const. lra. Qed.
Lemma lsum_flat_map {X Y} (f : Y -> R) (g : X -> list Y) l :
  lsum (map f (flat_map g l)) = lsum (map (fun x => lsum (map f (g x))) l).
Proof. induction l; cbn; auto. rewrite map_app, lsum_app, IHl. reflexivity. Qed.
Lemma lsum_swap {X Y} (f : X -> Y -> R) l m :
  lsum (map (fun x => lsum (map (f x) m)) l) = lsum (map (fun y => lsum (map (fun x => f x y) l)) m).
Proof.
  induction l; cbn.
  - symmetry. apply lsum_zero. auto.
  - rewrite IHl. rewrite <- lsum_map_plus. reflexivity.
Qed.
Lemma lsum_pos_zero l : Forall (fun x => 0 <= x) l -> lsum l = 0 -> Forall (fun x => x = 0) l.
Proof.
  induction 1 as [|x l Hx Hl IH]; cbn; intro E; constructor.
  - pose proof (lsum_nonneg l Hl). lra.
  - apply IH. pose proof (lsum_nonneg l Hl). lra.
Qed.
Lemma lsum_ge_in l x : Forall (fun x => 0 <= x) l -> In x l -> x <= lsum l.
Proof.
  induction 1 as [|y l Hy Hl IH]; cbn; [tauto|]. pose proof (lsum_nonneg l Hl). intros [->|Hi]; [lra|].
  specialize (IH Hi). lra.
Qed.

Lemma rsum_ext n f g : (forall i, (i < n)%nat -> f i = g i) -> rsum n f = rsum n g.
Proof. induction n; cbn; intro H; auto. rewrite IHn, H; auto. Qed.
Lemma rsum_lsum n f : rsum n f = lsum (map f (seq 0 n)).
Proof.
  induction n; auto. rewrite seq_S, map_app, lsum_app. cbn [rsum]. rewrite IHn. cbn. lra.
Qed.
Lemma rsum_nonneg n f : (forall i, (i < n)%nat -> 0 <= f i) -> 0 <= rsum n f.
Proof. induction n; cbn; intro H; [lra|]. pose proof (H n ltac:(lia)). assert (0 <= rsum n f) by (apply IHn; auto). lra. Qed.
Lemma rsum_le n f g : (forall i, (i < n)%nat -> f i <= g i) -> rsum n f <= rsum n g.
Proof. induction n; cbn; intro H; [lra|]. pose proof (H n ltac:(lia)). assert (rsum n f <= rsum n g) by (apply IHn; auto). lra. Qed.
Lemma rsum_zero n f : (forall i, (i < n)%nat -> f i = 0) -> rsum n f = 0.
Proof. induction n; cbn; intro H; auto. rewrite H, IHn by auto. lra. Qed.
Lemma rsum_scal n c f : rsum n (fun i => c * f i) = c * rsum n f.
Proof. induction n; cbn; [lra|]. rewrite IHn. lra. Qed.
Lemma rsum_plus n f g : rsum n (fun i => f i + g i) = rsum n f + rsum n g.
Proof. induction n; cbn; [lra|]. rewrite IHn. lra. Qed.
Lemma rsum_minus n f g : rsum n (fun i => f i - g i) = rsum n f - rsum n g.
Proof. induction n; cbn; [lra|]. rewrite IHn. lra. Qed.
Lemma rsum_opp n f : rsum n (fun i => - f i) = - rsum n f.
Proof. induction n; cbn; [lra|]. rewrite IHn. lra. Qed.
Lemma rsum_swap n m f : rsum n (fun i => rsum m (fun j => f i j)) = rsum m (fun j => rsum n (fun i => f i j)).
Proof.
  induction n; cbn.
  - symmetry. apply rsum_zero. auto.
  - rewrite IHn. rewrite <- rsum_plus. reflexivity.
Qed.
Lemma rsum_const n c : rsum n (fun _ => c) = INR n * c.
Proof. induction n; [cbn; lra|]. cbn [rsum]. rewrite IHn, S_INR. lra. Qed.
Lemma rsum_add n m f : rsum (n + m) f = rsum n f + rsum m (fun i => f (n + i)%nat).
Proof. induction m; rewrite ?Nat.add_0_r, ?Nat.add_succ_r; cbn; [lra|]. rewrite IHm. lra. Qed.
Lemma rsum_single n k f : (k < n)%nat -> (forall i, (i < n)%nat -> i <> k -> f i = 0) -> rsum n f = f k.
Proof.
  induction n; [lia|]. intros Hk H. cbn [rsum]. destruct (Nat.eq_dec k n) as [->|Hne].
  - rewrite rsum_zero; [lra|]. intros i Hi. apply H; lia.
  - rewrite IHn, (H n) by (try lia; intros; apply H; lia). lra.
Qed.

(** ** All indices of a shape. *)
Lemma sum_over_indices s f : sum_over s f = lsum (map f (indices s)).
Proof.
  revert f. induction s as [|d s IH]; intro f; cbn [sum_over indices map lsum].
  - lra.
  - rewrite rsum_lsum, lsum_flat_map. apply lsum_ext. intros i _. rewrite IH, map_map. reflexivity.
Qed.
Lemma in_indices s idx : In idx (indices s) <-> valid s idx.
Proof.
  revert idx. induction s as [|d s IH]; intro idx; cbn.
  - destruct idx; cbn; intuition congruence.
  - rewrite in_flat_map. split.
    + intros (i & Hi & H). apply in_seq in Hi. apply in_map_iff in H as (idx' & <- & H). cbn. split; [lia|]. now apply IH.
    + destruct idx as [|i idx']; cbn; [tauto|]. intros (Hi & H). exists i. split; [apply in_seq; lia|].
      apply in_map. now apply IH.
Qed.
Lemma NoDup_flat_map_disj {X Y} (f : X -> list Y) l :
  NoDup l -> (forall x, In x l -> NoDup (f x)) ->
  (forall x x' y, In x l -> In x' l -> In y (f x) -> In y (f x') -> x = x') -> NoDup (flat_map f l).
Proof.
  induction 1 as [|x l Hx Hl IH]; cbn; intros H1 H2; [constructor|].
  apply NoDup_app_intro; auto.
  - apply IH; auto. intros. eapply H2; eauto.
  - intros y Hy Hy'. apply in_flat_map in Hy' as (x' & Hx' & Hy'). assert (x = x') by (eapply H2; eauto). congruence.
Qed.
Lemma NoDup_indices s : NoDup (indices s).
Proof.
  induction s as [|d s IH]; cbn; [repeat constructor; auto|]. apply NoDup_flat_map_disj.
  - apply seq_NoDup.
  - intros i _. apply FinFun.Injective_map_NoDup; auto. intros a b; congruence.
  - intros i i' y _ _ H H'. apply in_map_iff in H as (? & <- & _). apply in_map_iff in H' as (? & E & _). congruence.
Qed.
Lemma length_indices s : length (indices s) = size s.
Proof.
  induction s as [|d s IH]; auto. cbn [indices]. change (size (d :: s)) with (d * size s)%nat. rewrite <- IH. clear IH.
  replace d with (length (seq 0 d)) at 2 by apply seq_length.
  induction (seq 0 d); cbn; auto. rewrite app_length, map_length, IHl. lia.
Qed.
Lemma sum_over_ext s f g : (forall idx, valid s idx -> f idx = g idx) -> sum_over s f = sum_over s g.
Proof. intro H. rewrite !sum_over_indices. apply lsum_ext. intros idx Hi. apply H, in_indices, Hi. Qed.
Lemma sum_over_2 n m f : sum_over [n; m] f = rsum n (fun i => rsum m (fun j => f [i; j])).
Proof. reflexivity. Qed.

Lemma valid_length s idx : valid s idx -> length idx = length s.
Proof. revert idx. induction s; destruct idx; cbn; try tauto. intros (_ & H). f_equal. auto. Qed.
Lemma valid_app s t i j : length s = length i -> (valid (s ++ t) (i ++ j) <-> valid s i /\ valid t j).
Proof.
  revert i. induction s; destruct i; cbn; intro H; try discriminate; [tauto|]. injection H as H. rewrite IHs; auto. tauto.
Qed.
Lemma valid_rev s idx : valid s idx -> valid (rev s) (rev idx).
Proof.
  revert idx. induction s as [|d s IH]; destruct idx as [|i idx]; cbn; try tauto. intros (Hi & H).
  apply valid_app; [now rewrite !rev_length, (valid_length _ _ H)|]. split; auto. cbn. auto.
Qed.

(** ** Inserting and removing an axis. *)
Lemma valid_split s idx k : (k < length s)%nat -> valid s idx ->
  valid (firstn k s) (firstn k idx) /\ (nth k idx 0 < nth k s 0)%nat /\ valid (skipn (S k) s) (skipn (S k) idx).
Proof.
  revert s idx. induction k as [|k IH]; intros [|d s] [|i idx]; cbn -[skipn]; try lia; try tauto.
  intros Hk (Hi & H). destruct (IH s idx ltac:(lia) H) as (A & B & C). auto.
Qed.
Lemma valid_insert s idx k i : (k < length s)%nat -> valid (remove k s) idx -> (i < nth k s 0)%nat ->
  valid s (insert k i idx).
Proof.
  unfold remove, insert. revert s idx. induction k as [|k IH]; intros [|d s] idx; cbn -[skipn]; try lia.
  - intros _ H Hi. auto.
  - destruct idx as [|j idx]; cbn [valid]; [tauto|]. intros Hk (Hj & H) Hi. cbn. split; auto. apply IH; auto. lia.
Qed.
Lemma insert_remove idx k : (k < length idx)%nat -> insert k (nth k idx 0%nat) (remove k idx) = idx.
Proof.
  intro H. unfold insert, remove. rewrite firstn_app, skipn_app, firstn_length, !firstn_firstn, Nat.min_id.
  replace (k - Nat.min k (length idx))%nat with 0%nat by lia. cbn [firstn skipn].
  rewrite app_nil_r, (skipn_all2 (firstn k idx)) by (rewrite firstn_length; lia).
  cbn [app]. rewrite <- (firstn_skipn k idx) at 4. f_equal.
  clear - H. revert idx H. induction k; destruct idx; cbn -[skipn]; intro H; try lia; auto. cbn [skipn]. apply IHk. lia.
Qed.
Lemma remove_insert idx k i : (k <= length idx)%nat -> remove k (insert k i idx) = idx.
Proof.
  intro H. unfold insert, remove. rewrite firstn_app, skipn_app, firstn_length, firstn_firstn, Nat.min_id.
  replace (k - Nat.min k (length idx))%nat with 0%nat by lia. cbn [firstn].
  rewrite app_nil_r, (skipn_all2 (firstn k idx)) by (rewrite firstn_length; lia).
  replace (S k - Nat.min k (length idx))%nat with 1%nat by lia. cbn. apply firstn_skipn.
Qed.
Lemma nth_insert idx k i : (k <= length idx)%nat -> nth k (insert k i idx) 0%nat = i.
Proof.
  intro H. unfold insert. rewrite app_nth2; rewrite firstn_length; [|lia].
  replace (k - Nat.min k (length idx))%nat with 0%nat by lia. reflexivity.
Qed.
Lemma insert_length idx k i : length (insert k i idx) = S (length idx).
Proof. unfold insert. rewrite app_length. cbn. rewrite firstn_length, skipn_length. lia. Qed.
Lemma remove_length idx k : (k < length idx)%nat -> length (remove k idx) = pred (length idx).
Proof. intro H. unfold remove. rewrite app_length, firstn_length, skipn_length. lia. Qed.
Lemma valid_remove s idx k : (k < length s)%nat -> valid s idx -> valid (remove k s) (remove k idx).
Proof.
  intros Hk V. destruct (valid_split s idx k Hk V) as (A & _ & C). unfold remove. apply valid_app; auto.
  rewrite !firstn_length, (valid_length _ _ V). reflexivity.
Qed.

(** The sum over all indices, one axis being summed first. *)
Lemma sum_over_axis s k f : (k < length s)%nat ->
  sum_over s f = rsum (nth k s 0%nat) (fun i => sum_over (remove k s) (fun idx => f (insert k i idx))).
Proof.
  revert s f. induction k as [|k IH]; intros [|d s] f; cbn [length]; try lia; intro H.
  - reflexivity.
  - cbn [sum_over nth]. change (remove (S k) (d :: s)) with (d :: remove k s). cbn [sum_over].
    rewrite (rsum_swap (nth k s 0%nat) d). apply rsum_ext. intros i _. rewrite IH by lia. reflexivity.
Qed.
Lemma sum_over_axis' s k f : (k < length s)%nat ->
  sum_over s f = sum_over (remove k s) (fun idx => rsum (nth k s 0%nat) (fun i => f (insert k i idx))).
Proof.
  revert s f. induction k as [|k IH]; intros [|d s] f; cbn [length]; try lia; intro H.
  - rewrite (sum_over_axis (d :: s) 0) by (cbn; lia). cbn [nth]. change (remove 0 (d :: s)) with s.
    unfold insert. cbn [firstn skipn app]. rewrite rsum_lsum.
    rewrite sum_over_indices. rewrite (lsum_ext _ (fun i => lsum (map (fun idx => f (i :: idx)) (indices s)))) by (intros; apply sum_over_indices).
    rewrite lsum_swap. apply lsum_ext. intros. symmetry. apply rsum_lsum.
  - change (remove (S k) (d :: s)) with (d :: remove k s). cbn [sum_over nth]. apply rsum_ext. intros i _. rewrite (IH s) by lia. reflexivity.
Qed.
Lemma size_remove s k : (k < length s)%nat -> size s = (nth k s 0 * size (remove k s))%nat.
Proof.
  revert s. induction k as [|k IH]; intros [|d s]; cbn [length]; try lia; intro H; auto.
  change (remove (S k) (d :: s)) with (d :: remove k s). cbn -[remove]. specialize (IH s ltac:(lia)). unfold size in *. rewrite IH. lia.
Qed.

(** ** Broadcasting. *)
Lemma bcast_rev_same s : bcast_rev s s = Ok s.
Proof. induction s; cbn; auto. rewrite Nat.eqb_refl. cbn. rewrite IHs. reflexivity. Qed.
Lemma bcast_same s : bcast s s = Ok s.
Proof. unfold bcast. rewrite bcast_rev_same. cbn. rewrite rev_involutive. reflexivity. Qed.
Lemma bindex_same s idx : valid s idx -> bindex s idx = idx.
Proof.
  intro V. unfold bindex. rewrite (valid_length _ _ V), Nat.sub_diag. cbn [skipn].
  revert idx V. induction s; destruct idx; cbn; try tauto. intros (H & V). rewrite IHs by auto. f_equal.
  destruct (a =? 1)%nat eqn:E; auto. apply Nat.eqb_eq in E. lia.
Qed.
Lemma map2_same f a b : shape a = shape b ->
  exists c, map2 f a b = Ok c /\ shape c = shape a /\ forall idx, valid (shape a) idx -> el c idx = f (el a idx) (el b idx).
Proof.
  intro H. unfold map2. rewrite <- H, bcast_same. eexists. split; [reflexivity|]. split; [reflexivity|].
  intros idx V. cbn. rewrite !bindex_same by auto. reflexivity.
Qed.
Lemma bcast_rev_comm s t : bcast_rev s t = bcast_rev t s.
Proof.
  revert t. induction s as [|a s IH]; destruct t as [|b t]; cbn; auto. rewrite (IH t), (Nat.eqb_sym b a).
  destruct (Nat.eqb_spec a b); subst; auto. destruct (Nat.eqb_spec a 1); destruct (Nat.eqb_spec b 1); auto. lia.
Qed.
Lemma bcast_comm s t : bcast s t = bcast t s.
Proof. unfold bcast. now rewrite bcast_rev_comm. Qed.

Lemma Req_bool_true a b : Req_bool a b = true <-> a = b.
Proof. unfold Req_bool. destruct (Req_EM_T a b); intuition congruence. Qed.
Lemma Req_bool_false a b : Req_bool a b = false <-> a <> b.
Proof. unfold Req_bool. destruct (Req_EM_T a b); intuition congruence. Qed.
Lemma norm_axis_ok n z k : norm_axis n z = Ok k -> (k < n)%nat.
Proof.
  unfold norm_axis. destruct (norm_index n z) eqn:E; [|discriminate]. intros [= ->].
  unfold norm_index in E. destruct (_ && _)%bool eqn:B in E.
  - injection E as <-. lia.
  - destruct (_ && _)%bool eqn:B' in E; [|discriminate]. injection E as <-. lia.
Qed.

(** ** Reduction along an axis. *)
Lemma norm_axis_number n z : norm_axis n z = match axis_number n z with Some k => Ok k | None => Err ValueError end.
Proof.
  unfold norm_axis, norm_index, axis_number. destruct (_ && _)%bool; auto. destruct (_ && _)%bool; auto.
Qed.
Lemma axis_number_lt n z k : axis_number n z = Some k -> (k < n)%nat.
Proof. intro H. apply (norm_axis_ok n z). rewrite norm_axis_number, H. reflexivity. Qed.
Lemma sum_axis_total a : sum_axis a None = Ok (Nd [] (fun _ => total a)).
Proof. cbn. unfold total, entries. rewrite sum_over_indices. reflexivity. Qed.
Lemma sum_over_total a : sum_over (shape a) (el a) = total a.
Proof. apply sum_over_indices. Qed.
Lemma sum_axis_some a z : match axis_number (length (shape a)) z with
  | Some k => exists r, sum_axis a (Some z) = Ok r /\ shape r = remove k (shape a) /\
      forall idx, el r idx = lsum (lane a k idx)
  | None => sum_axis a (Some z) = Err ValueError end.
Proof.
  unfold sum_axis. unfold ndim. rewrite norm_axis_number. destruct (axis_number _ z) as [k|]; [|reflexivity].
  eexists. split; [reflexivity|]. split; [reflexivity|]. intro idx. cbn. rewrite rsum_lsum. reflexivity.
Qed.
Lemma lane_valid a k idx i : (k < length (shape a))%nat -> valid (remove k (shape a)) idx -> (i < nth k (shape a) 0)%nat ->
  valid (shape a) (firstn k idx ++ [i] ++ skipn k idx).
Proof. intros. apply valid_insert; auto. Qed.
Lemma lane_map a b k idx f : shape a = shape b -> (k < length (shape a))%nat -> valid (remove k (shape a)) idx ->
  (forall j, valid (shape a) j -> el b j = f (el a j)) -> lane b k idx = map f (lane a k idx).
Proof.
  intros E Hk V H. unfold lane. rewrite map_map, <- E. apply map_ext_in. intros i Hi. apply in_seq in Hi.
  apply H, lane_valid; auto. lia.
Qed.
Lemma lane_map2 a b c k idx f : shape a = shape b -> shape c = shape a -> (k < length (shape a))%nat -> valid (remove k (shape a)) idx ->
  (forall j, valid (shape a) j -> el c j = f (el a j) (el b j)) ->
  lane c k idx = map (fun p => f (fst p) (snd p)) (combine (lane a k idx) (lane b k idx)).
Proof.
  intros E E' Hk V H. unfold lane. rewrite E', <- E. generalize (lane_valid a k idx). intro L.
  assert (G : forall l, (forall i, In i l -> (i < nth k (shape a) 0)%nat) ->
    map (fun i => el c (firstn k idx ++ [i] ++ skipn k idx)) l = map (fun p => f (fst p) (snd p))
      (combine (map (fun i => el a (firstn k idx ++ [i] ++ skipn k idx)) l) (map (fun i => el b (firstn k idx ++ [i] ++ skipn k idx)) l))).
  { induction l; intro HI; auto. cbn [map combine]. rewrite IHl by (intros; apply HI; right; auto). f_equal. cbn [fst snd].
    apply H. apply L; auto. apply HI. left. reflexivity. }
  apply G. intros i Hi. apply in_seq in Hi. lia.
Qed.
Lemma entries_map2 a b c f : shape a = shape b -> shape c = shape a ->
  (forall j, valid (shape a) j -> el c j = f (el a j) (el b j)) ->
  entries c = map (fun p => f (fst p) (snd p)) (combine (entries a) (entries b)).
Proof.
  intros E E' H. unfold entries. rewrite E', <- E.
  assert (G : forall l, (forall i, In i l -> valid (shape a) i) ->
    map (el c) l = map (fun p => f (fst p) (snd p)) (combine (map (el a) l) (map (el b) l))).
  { induction l; intro HI; auto. cbn [map combine]. rewrite IHl by (intros; apply HI; right; auto). f_equal. cbn [fst snd].
    apply H. apply HI. left. reflexivity. }
  apply G. intros i Hi. now apply in_indices.
Qed.
Lemma entries_map a b f : shape b = shape a -> (forall j, valid (shape a) j -> el b j = f (el a j)) ->
  entries b = map f (entries a).
Proof.
  intros E H. unfold entries. rewrite E, map_map. apply map_ext_in. intros i Hi. apply H, in_indices, Hi.
Qed.
Lemma nonneg_lane a k idx : nonneg a -> (k < length (shape a))%nat -> valid (remove k (shape a)) idx ->
  Forall (fun v => 0 <= v) (lane a k idx).
Proof.
  intros N Hk V. apply Forall_forall. intros v Hv. apply in_map_iff in Hv as (i & <- & Hi). apply in_seq in Hi.
  apply N, lane_valid; auto. lia.
Qed.
Lemma nonneg_entries a : nonneg a -> Forall (fun v => 0 <= v) (entries a).
Proof.
  intros N. apply Forall_forall. intros v Hv. apply in_map_iff in Hv as (i & <- & Hi). apply N, in_indices, Hi.
Qed.
Lemma length_lane a k idx : length (lane a k idx) = nth k (shape a) 0%nat.
Proof. unfold lane. now rewrite map_length, seq_length. Qed.
Lemma length_entries a : length (entries a) = size (shape a).
Proof. unfold entries. now rewrite map_length, length_indices. Qed.
