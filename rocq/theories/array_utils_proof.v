(** * Lemmas about sparse matrices and array_utils.py. *)

From Coq Require Import List ZArith Reals Bool Arith Lia Lra Sorted.
Import ListNotations.
From Verif Require Import Py Py_proof nd_model nd_spec nd_proof sparse_model array_utils_model array_utils_spec pairing_proof metrics_more.
Open Scope py_scope.
Local Open Scope R_scope.

(** ** Rows. *)
Lemma at_col_app j l m : at_col j (l ++ m) = at_col j l + at_col j m.
Proof. induction l as [|[c v] l IH]; cbn; [lra|]. destruct (c =? j)%nat; rewrite IH; lra. Qed.
Lemma at_col_filter j l f : (forall c v, f (c, v) = false -> v = 0) -> at_col j (filter f l) = at_col j l.
Proof.
  intro H. induction l as [|[c v] l IH]; cbn; auto. destruct (f (c, v)) eqn:E; cbn.
  - rewrite IH. reflexivity.
  - rewrite IH, (H _ _ E). destruct (c =? j)%nat; lra.
Qed.
Lemma at_col_notin j l : ~ In j (map fst l) -> at_col j l = 0.
Proof.
  induction l as [|[c v] l IH]; cbn; auto. intro H. destruct (Nat.eqb_spec c j) as [->|]; [tauto|]. apply IH. tauto.
Qed.
Lemma at_col_scale j l t : at_col j (map (fun p => (fst p, snd p / t (fst p))) l) = at_col j l / t j.
Proof.
  induction l as [|[c v] l IH]; cbn; [unfold Rdiv; lra|]. destruct (Nat.eqb_spec c j) as [->|]; rewrite IH; unfold Rdiv; lra.
Qed.
Lemma at_col_put j c v l : at_col j (put c v l) = at_col j [(c, v)] + at_col j l.
Proof.
  induction l as [|[c' v'] l IH]; cbn [put]; [cbn; lra|]. destruct (c <? c')%nat.
  - change ((c, v) :: (c', v') :: l) with ([(c, v)] ++ (c', v') :: l). apply at_col_app.
  - destruct (Nat.eqb_spec c c') as [->|].
    + cbn. destruct (c' =? j)%nat; lra.
    + change ((c', v') :: put c v l) with ([(c', v')] ++ put c v l). rewrite at_col_app, IH.
      change ((c', v') :: l) with ([(c', v')] ++ l). rewrite at_col_app. lra.
Qed.
Lemma at_col_canonical j l : at_col j (canonical_line l) = at_col j l.
Proof.
  induction l as [|[c v] l IH]; cbn [canonical_line fold_right]; auto. rewrite at_col_put. cbn [fst snd].
  change ((c, v) :: l) with ([(c, v)] ++ l). rewrite at_col_app. f_equal. exact IH.
Qed.
Lemma line_dot_at_col l f n : Forall (fun p => (fst p < n)%nat) l -> line_dot l f = rsum n (fun j => at_col j l * f j).
Proof.
  induction 1 as [|[c v] l H _ IH]; cbn [line_dot fold_right].
  - symmetry. apply rsum_zero. intros. cbn. lra.
  - cbn [fst snd] in *. change (fold_right _ 0 l) with (line_dot l f). rewrite IH.
    rewrite (rsum_ext n (fun j => at_col j ((c, v) :: l) * f j) (fun j => (if (c =? j)%nat then v * f j else 0) + at_col j l * f j)).
    + rewrite rsum_plus. f_equal. rewrite (rsum_single n c); auto.
      * now rewrite Nat.eqb_refl.
      * intros i _ Hi. destruct (Nat.eqb_spec c i); congruence.
    + intros i _. cbn. destruct (c =? i)%nat; lra.
Qed.

(** A canonical row has sorted columns, without repetition. *)
Lemma put_sorted c v l : StronglySorted lt (map fst l) -> StronglySorted lt (map fst (put c v l)) /\
  forall k, In k (map fst (put c v l)) <-> k = c \/ In k (map fst l).
Proof.
  induction l as [|[c' v'] l IH]; cbn [put map fst]; intro S.
  - split; [repeat constructor|]. cbn. intuition.
  - inversion S as [|? ? S' F]; subst. destruct (Nat.ltb_spec c c').
    + split; [|cbn; intuition]. cbn. constructor; auto. constructor; auto. revert F. apply Forall_impl. intros; lia.
    + destruct (Nat.eqb_spec c c') as [->|].
      * split; [cbn; constructor; auto|cbn; intuition].
      * destruct (IH S') as [S1 I1]. split.
        -- cbn. constructor; auto. apply Forall_forall. intros k Hk. apply I1 in Hk as [->|Hk]; [lia|].
           rewrite Forall_forall in F. auto.
        -- intro k. cbn. rewrite I1. intuition.
Qed.
Lemma canonical_sorted l : StronglySorted lt (map fst (canonical_line l)) /\
  forall k, In k (map fst (canonical_line l)) <-> In k (map fst l).
Proof.
  induction l as [|[c v] l IH]; cbn [canonical_line fold_right].
  - split; [constructor|tauto].
  - destruct IH as [S I]. destruct (put_sorted c v _ S) as [S' I']. split; [exact S'|]. intro k. cbn [fst snd]. rewrite I'.
    change (fold_right _ [] l) with (canonical_line l). rewrite I. cbn. intuition.
Qed.
Lemma put_front c v l : Forall (fun p => (c < fst p)%nat) l -> put c v l = (c, v) :: l.
Proof. destruct 1 as [|[c' v'] l H _]; auto. cbn [put fst] in *. destruct (Nat.ltb_spec c c'); [reflexivity|lia]. Qed.
Lemma canonical_id l : StronglySorted lt (map fst l) -> canonical_line l = l.
Proof.
  induction l as [|[c v] l IH]; cbn; auto. intro S. inversion S as [|? ? S' F]; subst. fold (canonical_line l). rewrite IH by auto.
  apply put_front. apply Forall_forall. intros p Hp. rewrite Forall_forall in F. apply F. now apply in_map.
Qed.

Lemma nth_map_out {X Y} (f : X -> Y) l i d d' : f d = d' -> nth i (map f l) d' = f (nth i l d).
Proof. intros <-. apply map_nth. Qed.

(** Removing stored zeros does not change the matrix. *)
Lemma eliminate_same x : same (toarray (eliminate_zeros x)) (toarray x).
Proof.
  split; [cbn; unfold csr_shape; cbn; now rewrite map_length|]. intros idx _. cbn.
  rewrite (nth_map_out _ _ _ []) by reflexivity. apply at_col_filter.
  intros c v H. apply negb_false_iff, Req_bool_true in H. exact H.
Qed.

(** ** normalize_sum. *)
Lemma normalize_sum_value a z eps k : axis_number (length (shape a)) z = Some k ->
  exists c, normalize_sum a z eps = Ok c /\ shape c = shape a /\
    forall j, valid (shape a) j -> el c j = el a j / (eps + lsum (lane a k (remove k j))).
Proof.
  intro Ek. destruct (lane_op_value (fun x y => x / (eps + y)) a z k Ek) as (s & e & c & E1 & E2 & E3 & Sc & Lc).
  exists c. unfold normalize_sum.
  assert (L : (Z.of_nat (ndim a) <=? z)%Z = false).
  { apply Z.leb_gt. unfold axis_number in Ek. unfold ndim. destruct (_ && _) eqn:E; [apply andb_true_iff in E as [_ E]; apply Z.ltb_lt in E; exact E|].
    destruct (_ && (z <? 0)%Z) eqn:E'; [|discriminate]. apply andb_true_iff in E' as [_ E']. apply Z.ltb_lt in E'. lia. }
  rewrite L, E1. cbn [bind]. rewrite E2. cbn [bind]. split; [exact E3|]. auto.
Qed.
Lemma normalize_sum_lane a z eps k : axis_number (length (shape a)) z = Some k ->
  exists c, normalize_sum a z eps = Ok c /\ shape c = shape a /\
    forall idx, valid (firstn k (shape a) ++ skipn (S k) (shape a)) idx ->
      lane c k idx = map (fun v => v / (eps + lsum (lane a k idx))) (lane a k idx) /\
      lsum (lane c k idx) = lsum (lane a k idx) / (eps + lsum (lane a k idx)).
Proof.
  intro Ek. destruct (normalize_sum_value a z eps k Ek) as (c & E & Sc & L). exists c. split; auto. split; auto. intros idx V.
  pose proof (axis_number_lt _ _ _ Ek) as Hk.
  assert (H : lane c k idx = map (fun v => v / (eps + lsum (lane a k idx))) (lane a k idx)).
  { unfold lane at 1 3. rewrite Sc, map_map. apply map_ext_in. intros i Hi. apply in_seq in Hi.
    rewrite L by (apply lane_valid; auto; lia). do 3 f_equal. change (firstn k idx ++ [i] ++ skipn k idx) with (insert k i idx).
    rewrite remove_insert; auto. fold (remove k (shape a)) in V. rewrite (valid_length _ _ V), remove_length by auto. lia. }
  split; auto. rewrite H. apply lsum_div.
Qed.
Lemma normalize_sum_bad a z eps : axis_number (length (shape a)) z = None -> normalize_sum a z eps = Err ValueError.
Proof.
  intro E. unfold normalize_sum. destruct (_ <=? _)%Z; auto. pose proof (sum_axis_some a z) as H. rewrite E in H. now rewrite H.
Qed.

(** ** normalize_features. *)
Lemma enumerate_sorted {X} (l : list X) : StronglySorted lt (map fst (enumerate l)).
Proof.
  unfold enumerate. assert (G : forall (l : list X) n, StronglySorted lt (map fst (combine (seq n (length l)) l))).
  { clear. induction l as [|x l IH]; intro n; cbn; constructor; auto. apply Forall_forall. intros k Hk.
    apply in_map_iff in Hk as ([k' v] & <- & Hk). apply in_combine_l, in_seq in Hk. cbn. lia. }
  apply G.
Qed.
Lemma sorted_filter {X} (f : X -> nat) (g : X -> bool) l : StronglySorted lt (map f l) -> StronglySorted lt (map f (filter g l)).
Proof.
  induction l; cbn; intro S; [constructor|]. inversion S as [|? ? S' F]; subst. destruct (g a); cbn; auto. constructor; auto.
  apply Forall_forall. intros k Hk. apply in_map_iff in Hk as (x & <- & Hx). apply filter_In in Hx as [Hx _]. rewrite Forall_forall in F.
  apply F. now apply in_map.
Qed.
Lemma in_nonzero l k : In k (nonzero l) <-> exists v, nth_error l k = Some v /\ v <> 0.
Proof.
  unfold nonzero. rewrite in_map_iff. split.
  - intros ([k' v] & <- & H). apply filter_In in H as [H E]. apply negb_true_iff, Req_bool_false in E. cbn in *.
    apply In_nth_error in H as [i Hi]. rewrite nth_error_enumerate in Hi. destruct (nth_error l i) eqn:El; [|discriminate].
    injection Hi as <- <-. eauto.
  - intros (v & H & E). exists (k, v). split; auto. apply filter_In. split.
    + apply nth_error_In with (n := k). rewrite nth_error_enumerate, H. reflexivity.
    + apply negb_true_iff, Req_bool_false. exact E.
Qed.
Lemma nonzero_sorted l : StronglySorted lt (nonzero l).
Proof. unfold nonzero. apply sorted_filter, enumerate_sorted. Qed.
Lemma col_totals_nth n m a j : shape a = [n; m] -> (j < m)%nat -> nth_error (col_totals n m a) j = Some (lsum (col a j)).
Proof.
  intros S H. unfold col_totals. rewrite nth_error_map. rewrite (nth_error_nth' _ 0%nat) by (rewrite seq_length; auto). cbn.
  rewrite seq_nth by auto. cbn. rewrite rsum_lsum. unfold col. rewrite S. reflexivity.
Qed.
Lemma col_totals_length n m a : length (col_totals n m a) = m.
Proof. unfold col_totals. now rewrite map_length, seq_length. Qed.
Lemma in_nonzero_totals n m a k : shape a = [n; m] ->
  In k (nonzero (col_totals n m a)) <-> (k < m)%nat /\ lsum (col a k) <> 0.
Proof.
  intro S. rewrite in_nonzero. split.
  - intros (v & H & E). assert (Hk : (k < m)%nat).
    { rewrite <- (col_totals_length n m a). apply nth_error_Some. congruence. }
    rewrite (col_totals_nth n m a k S Hk) in H. injection H as <-. auto.
  - intros [Hk E]. exists (lsum (col a k)). split; auto. now apply col_totals_nth.
Qed.

Lemma dense_features x n m : shape x = [n; m] -> exists r, normalize_features_dense x = Ok r /\ features_of x r.
Proof.
  intro S. unfold normalize_features_dense. rewrite S. eexists. split; [reflexivity|].
  exists (nonzero (col_totals n m x)). rewrite S. cbn [nth]. split; [apply nonzero_sorted|].
  split; [intro j; now apply in_nonzero_totals|]. split; [reflexivity|]. intros i q k Hi Hq. cbn [el nth].
  rewrite (nth_error_nth _ _ 0%nat Hq). assert (Hk := nth_error_In _ _ Hq). apply (in_nonzero_totals n m x k S) in Hk as [Hk E].
  rewrite (nth_error_nth _ _ 0 (col_totals_nth n m x k S Hk)). unfold ind. destruct (Req_bool _ 0) eqn:Z.
  - apply Req_bool_true in Z. contradiction.
  - f_equal. lra.
Qed.

Lemma at_col_tag i k l j : at_col i (map (fun e : nat * R => (k, snd e)) (filter (fun e => fst e =? j)%nat l)) =
  if (k =? i)%nat then at_col j l else 0.
Proof.
  induction l as [|[c v] l IH]; cbn; [now destruct (k =? i)%nat|]. destruct (c =? j)%nat; cbn; rewrite IH; destruct (k =? i)%nat; auto.
Qed.
Lemma at_col_tocsc ls i j : at_col i (concat (map (fun p : nat * line => map (fun e => (fst p, snd e)) (filter (fun e => fst e =? j)%nat (snd p))) (enumerate ls))) =
  at_col j (nth i ls []).
Proof.
  unfold enumerate. assert (G : forall ls n, at_col i (concat (map (fun p : nat * line => map (fun e => (fst p, snd e)) (filter (fun e => fst e =? j)%nat (snd p))) (combine (seq n (length ls)) ls))) =
    if (n <=? i)%nat then at_col j (nth (i - n) ls []) else 0).
  { clear. induction ls as [|l ls IH]; intro n; cbn [length seq combine map concat].
    - cbn. destruct (n <=? i)%nat; [|reflexivity]. destruct (i - n)%nat; reflexivity.
    - rewrite at_col_app, at_col_tag, IH. cbn [fst snd]. destruct (Nat.eqb_spec n i) as [->|].
      + rewrite Nat.leb_refl, Nat.sub_diag. replace (S i <=? i)%nat with false by (symmetry; apply Nat.leb_gt; lia). cbn. lra.
      + destruct (Nat.leb_spec n i), (Nat.leb_spec (S n) i); try lia; [|lra].
        replace (i - n)%nat with (S (i - S n)) by lia. cbn. lra. }
  rewrite G. cbn [Nat.leb]. now rewrite Nat.sub_0_r.
Qed.

Lemma sparse_features x : let '(y, x') := normalize_features_sparse x in
  features_of (toarray x) (csc_toarray y) /\ same (toarray x') (toarray x).
Proof.
  unfold normalize_features_sparse. split; [|apply eliminate_same].
  set (n := length (lines x)). set (sums := col_totals n (ncol x) (toarray x)).
  assert (Sx : shape (toarray x) = [n; ncol x]) by reflexivity.
  exists (nonzero sums). rewrite Sx. cbn [nth]. split; [apply nonzero_sorted|]. split; [intro j; now apply in_nonzero_totals|].
  split; [cbn; rewrite !map_length; reflexivity|]. intros i q k Hi Hq.
  assert (Hk := nth_error_In _ _ Hq). apply (in_nonzero_totals n _ _ k Sx) in Hk as [Hk E].
  cbn [csc_toarray el nth columns].
  assert (Hn : nth q (map (fun j => nth j (columns (tocsc (Csr (ncol (eliminate_zeros x)) (map (map (fun p : nat * R => (fst p, snd p / nth (fst p) sums 0))) (lines (eliminate_zeros x)))))) []) (nonzero sums)) [] =
    nth k (columns (tocsc (Csr (ncol (eliminate_zeros x)) (map (map (fun p : nat * R => (fst p, snd p / nth (fst p) sums 0))) (lines (eliminate_zeros x)))))) []).
  { apply nth_error_nth. rewrite nth_error_map, Hq. reflexivity. }
  rewrite Hn. cbn [tocsc columns ncol eliminate_zeros lines].
  erewrite nth_error_nth.
  2:{ rewrite nth_error_map. rewrite (nth_error_nth' _ 0%nat) by (rewrite seq_length; auto). rewrite seq_nth by auto. cbn. reflexivity. }
  rewrite at_col_tocsc. rewrite (nth_map_out _ _ i []) by reflexivity. rewrite (nth_map_out _ _ i []) by reflexivity.
  rewrite (at_col_scale k _ (fun c => nth c sums 0)). cbv beta.
  unfold sums. rewrite (nth_error_nth _ _ 0 (col_totals_nth n _ _ k Sx Hk)). f_equal.
  cbn. apply at_col_filter. intros c v H. apply negb_false_iff, Req_bool_true in H. exact H.
Qed.

(** The specification determines the result, and its columns sum to 1. *)
Lemma sorted_unique (l m : list nat) : StronglySorted lt l -> StronglySorted lt m -> (forall k, In k l <-> In k m) -> l = m.
Proof.
  revert m. induction l as [|a l IH]; intros [|b m] Sl Sm H; auto.
  - exfalso. apply (H b). now left.
  - exfalso. apply (H a). now left.
  - inversion Sl as [|? ? Sl' Fl]; inversion Sm as [|? ? Sm' Fm]; subst. rewrite Forall_forall in Fl, Fm.
    assert (a = b). { destruct (proj1 (H a) (or_introl eq_refl)) as [|Ha]; auto. destruct (proj2 (H b) (or_introl eq_refl)) as [|Hb]; auto.
      specialize (Fl _ Hb). specialize (Fm _ Ha). lia. }
    subst b. f_equal. apply IH; auto. intro k. split; intro Hk.
    + destruct (proj1 (H k) (or_intror Hk)) as [<-|]; auto. specialize (Fl _ Hk). lia.
    + destruct (proj2 (H k) (or_intror Hk)) as [<-|]; auto. specialize (Fm _ Hk). lia.
Qed.
Lemma features_unique x r r' : features_of x r -> features_of x r' -> same r r'.
Proof.
  intros (ks & S1 & I1 & H1 & L1) (ks' & S2 & I2 & H2 & L2). assert (ks' = ks).
  { apply sorted_unique; auto. intro k. now rewrite I1, I2. } subst ks'. split; [congruence|]. rewrite H1.
  intros [|i [|q [|]]]; cbn; try tauto. intros (Hi & Hq & _). destruct (nth_error ks q) as [k|] eqn:E.
  - rewrite (L1 i q k), (L2 i q k); auto.
  - apply nth_error_None in E. lia.
Qed.
Lemma features_sum x n m r q : shape x = [n; m] -> features_of x r -> (q < nth 1 (shape r) 0)%nat -> lsum (col r q) = 1.
Proof.
  intros S (ks & _ & I1 & H1 & L1). rewrite H1. cbn [nth]. intro Hq. destruct (nth_error ks q) as [k|] eqn:E.
  2:{ apply nth_error_None in E. lia. }
  assert (Hk := proj1 (I1 k) (nth_error_In _ _ E)). unfold col at 1. rewrite H1, S in *. cbn [nth] in *.
  rewrite (lsum_ext _ (fun i => / lsum (col x k) * el x [i; k])).
  - rewrite lsum_map_scal. replace (lsum (map (fun i => el x [i; k]) (seq 0 n))) with (lsum (col x k)) by (unfold col; now rewrite S).
    field. tauto.
  - intros i Hi. apply in_seq in Hi. rewrite (L1 i q k) by (auto; lia). unfold Rdiv. lra.
Qed.

(** ** GrowingLILMatrix. *)
Lemma at_col_row row j : at_col j (combine (map fst (filter (fun p => negb (Req_bool (snd p) 0)) (enumerate row)))
                                           (map snd (filter (fun p => negb (Req_bool (snd p) 0)) (enumerate row)))) =
  match nth_error row j with Some v => v | None => 0 end.
Proof.
  set (f := fun p : nat * R => negb (Req_bool (snd p) 0)).
  assert (C : forall l : list (nat * R), combine (map fst l) (map snd l) = l).
  { clear. induction l as [|[a b] l IH]; cbn; congruence. }
  rewrite C, at_col_filter.
  2:{ intros c v H. apply negb_false_iff, Req_bool_true in H. exact H. }
  unfold enumerate. assert (G : forall row n, at_col j (combine (seq n (length row)) row) =
    if (n <=? j)%nat then match nth_error row (j - n) with Some v => v | None => 0 end else 0).
  { clear. induction row as [|v row IH]; intro n; cbn [length seq combine at_col].
    - destruct (n <=? j)%nat; [|reflexivity]. destruct (j - n)%nat; reflexivity.
    - rewrite IH. destruct (Nat.eqb_spec n j) as [->|].
      + rewrite Nat.leb_refl, Nat.sub_diag. replace (S j <=? j)%nat with false by (symmetry; apply Nat.leb_gt; lia). cbn. lra.
      + destruct (Nat.leb_spec n j), (Nat.leb_spec (S n) j); try lia; auto. replace (j - n)%nat with (S (j - S n)) by lia. reflexivity. }
  rewrite G. cbn [Nat.leb]. now rewrite Nat.sub_0_r.
Qed.

Definition lil_inv (rows : list (list R)) (m : lil) : Prop :=
  lshape m = (length rows, longest rows) /\ lrows m = concat (map (fun r => lrows (lil_of_row r)) rows) /\
  ldata m = concat (map (fun r => ldata (lil_of_row r)) rows).
Lemma longest_app rows row : longest (rows ++ [row]) = Nat.max (length row) (longest rows).
Proof. unfold longest. rewrite map_app, list_max_app. cbn. rewrite Nat.max_0_r. lia. Qed.
Lemma add_row_inv rows m row : rows <> [] -> lil_inv rows m -> lil_inv (rows ++ [row]) (add_row m row).
Proof.
  intros N (S & R & D). unfold add_row. rewrite S. cbn [fst snd].
  assert (L : (length rows =? 0)%nat = false) by (destruct rows; [tauto|reflexivity]). rewrite L. cbn [andb]. split; [|split].
  - cbn [lshape]. rewrite app_length, longest_app. cbn. f_equal. lia.
  - cbn [lrows]. rewrite map_app, concat_app, R. reflexivity.
  - cbn [ldata]. rewrite map_app, concat_app, D. reflexivity.
Qed.
Lemma add_rows_inv rows : rows <> [] -> lil_inv rows (fold_left add_row rows lil_new).
Proof.
  induction rows as [|row rows IH] using rev_ind; [tauto|]. intros _. rewrite fold_left_app. cbn [fold_left].
  destruct rows as [|r rows].
  - cbn. unfold add_row. cbn. split; [|split]; cbn; auto. unfold longest. cbn. now rewrite Nat.max_0_r.
  - apply add_row_inv; [discriminate|]. apply IH. discriminate.
Qed.
Lemma nth_concat_single {X} (f : list R -> X) rows i d :
  nth i (concat (map (fun r => [f r]) rows)) d = nth i (map f rows) d.
Proof. f_equal. induction rows; cbn; congruence. Qed.
Lemma growing_value rows : rows <> [] -> padded rows (lil_toarray (fold_left add_row rows lil_new)).
Proof.
  intro N. destruct (add_rows_inv rows N) as (S & R & D). unfold lil_toarray. split; [cbn; rewrite S; reflexivity|].
  intros i row j Hi Hj. cbn [el nth]. rewrite R, D. cbn [lrows ldata lil_of_row]. rewrite !nth_concat_single.
  erewrite !nth_error_nth by (rewrite nth_error_map, Hi; reflexivity). apply at_col_row.
Qed.
