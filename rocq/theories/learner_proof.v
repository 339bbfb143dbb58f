(** * Lemmas about learner.py. *)

From Coq Require Import List ZArith Reals Bool Arith String Lia Lra Sorted.
Import ListNotations.
From Verif Require Import Py Py_proof nd_model nd_spec nd_proof sparse_model array_utils_proof metrics_proof nmf_model nmf_spec nmf_proof nmf_laws nmf_fit
  learner_model learner_spec.
Local Open Scope R_scope.
Notation length := List.length.

(** ** Indices of modalities. *)
Lemma index_from_ok m l : forall pos q, nth_error l q = Some m -> NoDup l -> index_from String.eqb m l pos 0 = Ok (pos + q)%nat.
Proof.
  induction l as [|y l IH]; intros pos [|q] H N; try discriminate.
  - injection H as ->. cbn. rewrite String.eqb_refl. cbn. f_equal. lia.
  - inversion N; subst. cbn in H |- *. destruct (String.eqb_spec y m) as [->|_].
    + exfalso. apply nth_error_In in H. auto.
    + rewrite (IH (S pos) q) by auto. f_equal. lia.
Qed.
Lemma index_from_no m l : forall pos, ~ In m l -> index_from String.eqb m l pos 0 = Err ValueError.
Proof.
  induction l as [|y l IH]; intros pos H; auto. cbn. destruct (String.eqb_spec y m) as [->|_]; [exfalso; apply H; now left|].
  apply IH. intro. apply H. now right.
Qed.
Lemma get_index_ok l m q : NoDup (mods l) -> nth_error (mods l) q = Some m -> get_index l m = Ok q.
Proof. intros N H. unfold get_index, list_index. now rewrite (index_from_ok m (mods l) 0 q). Qed.
Lemma get_index_no l m : ~ In m (mods l) -> get_index l m = Err ValueError.
Proof. intro H. now apply index_from_no. Qed.

Lemma assoc_nth {A} (d : A) m ms (vs : list A) q : NoDup ms -> length vs = length ms -> nth_error ms q = Some m ->
  nth_error vs q = Some (assoc d m (combine ms vs)).
Proof.
  revert vs q. induction ms as [|y ms IH]; intros [|v vs] [|q] N L H; try discriminate; inversion N; subst; cbn in *.
  - injection H as ->. now destruct (string_dec m m).
  - destruct (string_dec m y) as [->|_]; [apply nth_error_In in H; tauto|]. apply IH; auto.
Qed.
Lemma py_nth_ok {A} (l : list A) q v : nth_error l q = Some v -> py_nth l (Z.of_nat q) = Ok v.
Proof.
  intro H. assert (q < length l)%nat by (apply nth_error_Some; congruence). unfold py_nth.
  rewrite norm_index_in by lia. cbn [bind]. now rewrite Nat2Z.id, H.
Qed.

Section Learner.
Context (l : learner) (W : well_formed l).
Lemma dim_nth q m : nth_error (mods l) q = Some m -> nth_error (dims l) q = Some (dim_of l m).
Proof using W. intro H. destruct W as (N & D & _). now apply assoc_nth. Qed.
Lemma coef_nth q m : nth_error (mods l) q = Some m -> nth_error (coefs l) q = Some (coef_of l m).
Proof using W. intro H. destruct W as (N & _ & C). now apply assoc_nth. Qed.
Lemma dims_map : dims l = map (dim_of l) (mods l).
Proof using W.
  destruct W as (N & D & _). apply (nth_ext _ _ 0%nat 0%nat).
  - now rewrite map_length.
  - intros q Hq. rewrite D in Hq. destruct (nth_error (mods l) q) as [m|] eqn:E; [|apply nth_error_None in E; lia].
    rewrite (nth_error_nth _ _ _ (dim_nth q m E)). symmetry. apply nth_error_nth. now rewrite nth_error_map, E.
Qed.

Lemma axis_range q m : nth_error (mods l) q = Some m ->
  get_axis_range l m = Ok (width l (firstn q (mods l)), (width l (firstn q (mods l)) + dim_of l m)%nat).
Proof using W.
  intro H. unfold get_axis_range. rewrite (get_index_ok l m q) by (auto; apply W). cbn [bind].
  rewrite (py_nth_ok _ _ _ (dim_nth q m H)). cbn [bind]. unfold width. rewrite <- firstn_map, <- dims_map. reflexivity.
Qed.
Lemma axis_range_no m : ~ In m (mods l) -> get_axis_range l m = Err ValueError.
Proof using. intro H. unfold get_axis_range. now rewrite get_index_no. Qed.

(** Every column belongs to one modality. *)
Lemma sum_split (ds : list nat) j : (j < list_sum ds)%nat -> exists q d, nth_error ds q = Some d /\
  (list_sum (firstn q ds) <= j < list_sum (firstn q ds) + d)%nat.
Proof using.
  revert j. induction ds as [|d ds IH]; intros j H; [cbn in H; lia|]. change (list_sum (d :: ds)) with (d + list_sum ds)%nat in H. destruct (Nat.lt_ge_cases j d) as [L|L].
  - exists 0%nat, d. split; auto. change (list_sum (firstn 0 (d :: ds))) with 0%nat. lia.
  - destruct (IH (j - d)%nat) as (q & d' & E & B); [lia|]. exists (S q), d'. change (list_sum (firstn (S q) (d :: ds))) with (d + list_sum (firstn q ds))%nat. split; auto. lia.
Qed.
Lemma firstn_sum_le (ds : list nat) q q' d : (q < q')%nat -> nth_error ds q = Some d -> (list_sum (firstn q ds) + d <= list_sum (firstn q' ds))%nat.
Proof using.
  revert q q'. induction ds as [|x ds IH]; intros [|q] [|q'] H E; try discriminate; try lia;
    change (list_sum (firstn (S q') (x :: ds))) with (x + list_sum (firstn q' ds))%nat.
  - injection E as ->. change (list_sum (firstn 0 (d :: ds))) with 0%nat. lia.
  - change (list_sum (firstn (S q) (x :: ds))) with (x + list_sum (firstn q ds))%nat. specialize (IH q q' ltac:(lia) E). lia.
Qed.
Lemma ranges_partition j : (j < list_sum (dims l))%nat ->
  exists m, (In m (mods l) /\ exists a b, get_axis_range l m = Ok (a, b) /\ (a <= j < b)%nat) /\
    forall m', In m' (mods l) -> forall a b, get_axis_range l m' = Ok (a, b) -> (a <= j < b)%nat -> m' = m.
Proof using W.
  intro H. destruct (sum_split _ _ H) as (q & d & E & B). destruct (nth_error (mods l) q) as [m|] eqn:Em.
  2:{ apply nth_error_None in Em. assert (q < length (dims l))%nat by (apply nth_error_Some; congruence). destruct W as (_ & D & _). lia. }
  exists m. pose proof (dim_nth q m Em) as Dm. rewrite E in Dm. injection Dm as ->. rewrite dims_map, firstn_map in B. split.
  - split; [eapply nth_error_In; eauto|]. rewrite (axis_range q m Em). eauto.
  - intros m' I a b R B'. apply In_nth_error in I as [q' Em']. rewrite (axis_range q' m' Em') in R. injection R as <- <-.
    unfold width in *. destruct (Nat.lt_trichotomy q q') as [L|[->|L]]; [| congruence |]; exfalso.
    + pose proof (firstn_sum_le (dims l) q q' (dim_of l m) L (dim_nth q m Em)) as X. rewrite dims_map, !firstn_map in X. lia.
    + pose proof (firstn_sum_le (dims l) q' q (dim_of l m') L (dim_nth q' m' Em')) as X. rewrite dims_map, !firstn_map in X. lia.
Qed.
End Learner.

(** ** Stacking. *)
Lemma fits_shape n d x : fits n d x -> mshape x = [n; d].
Proof. destruct x; cbn; tauto. Qed.
Lemma fits_value n d x : fits n d x -> shape (mvalue x) = [n; d].
Proof. destruct x; cbn; tauto. Qed.
Lemma fits_cols n d x : fits n d x -> cols_of x = d.
Proof. intro H. unfold cols_of. now rewrite (fits_shape n d). Qed.
Lemma fits_rows n d x : fits n d x -> rows_of x = n.
Proof. intro H. unfold rows_of. now rewrite (fits_shape n d). Qed.
Definition fit_in (n : nat) (x : matrix) : Prop := fits n (cols_of x) x.

Lemma same_rows_ok n bs : Forall (fit_in n) bs -> same_rows n bs = true.
Proof.
  intro F. unfold same_rows. apply forallb_forall. intros b Hb. rewrite Forall_forall in F. specialize (F b Hb). unfold fit_in in F.
  rewrite (fits_rows _ _ _ F), Nat.eqb_refl, (fits_shape _ _ _ F). reflexivity.
Qed.
Lemma hcat_at_block bs : forall p b i j, nth_error bs p = Some b -> (j < cols_of b)%nat ->
  hcat_at bs i (list_sum (map cols_of (firstn p bs)) + j) = el (mvalue b) [i; j].
Proof.
  induction bs as [|b0 bs IH]; intros [|p] b i j H Hj; try discriminate; cbn [hcat_at firstn map list_sum fold_right].
  - injection H as ->. cbn [plus]. destruct (Nat.ltb_spec j (cols_of b)); [reflexivity|lia].
  - fold (list_sum (map cols_of (firstn p bs))). destruct (Nat.ltb_spec (cols_of b0 + list_sum (map cols_of (firstn p bs)) + j) (cols_of b0)); [lia|].
    rewrite <- (IH p b i j H Hj). f_equal. lia.
Qed.
Lemma at_col_shift off j c : at_col j (map (fun p : nat * R => ((off + fst p)%nat, snd p)) c) =
  if (off <=? j)%nat then at_col (j - off) c else 0.
Proof.
  induction c as [|[k v] c IH]; cbn [map at_col fst snd]; [now destruct (off <=? j)%nat|].
  rewrite IH. destruct (Nat.leb_spec off j).
  - destruct (Nat.eqb_spec (off + k) j), (Nat.eqb_spec k (j - off)); try lia; reflexivity.
  - destruct (Nat.eqb_spec (off + k) j); [lia|reflexivity].
Qed.
Lemma dense_line f m j : (j < m)%nat -> at_col j (filter (fun p => negb (Req_bool (snd p) 0)) (map (fun j => (j, f j)) (seq 0 m))) = f j.
Proof.
  intro Hj. rewrite at_col_filter.
  - rewrite (at_col_in j (f j)); auto.
    + rewrite map_map. cbn. rewrite map_id. apply seq_NoDup.
    + apply in_map_iff. exists j. split; auto. apply in_seq. lia.
  - intros c v. cbn. rewrite negb_false_iff. apply Req_bool_true.
Qed.
Lemma stored_value n b i : fit_in n b -> (i < n)%nat ->
  (forall j, (j < cols_of b)%nat -> at_col j (nth i (stored b) []) = el (mvalue b) [i; j]) /\
  Forall (fun c => (c < cols_of b)%nat) (map fst (nth i (stored b) [])).
Proof.
  intros F Hi. unfold fit_in in F. destruct b as [a|s]; cbn [stored mvalue].
  - cbn in F. rewrite F in *. cbn [nth of_dense lines]. set (g := fun i => filter (fun p => negb (Req_bool (snd p) 0)) (map (fun j => (j, el a [i; j])) (seq 0 (cols_of (Dense a))))).
    rewrite (nth_indep _ [] (g 0%nat)) by (rewrite map_length, seq_length; auto). rewrite (map_nth g), seq_nth by auto. unfold g. cbn [plus]. split.
    + intros j Hj. apply dense_line; auto.
    + apply Forall_forall. intros c Hc. apply in_map_iff in Hc as ([c' v] & <- & Hc). apply filter_In in Hc as [Hc _].
      apply in_map_iff in Hc as (j & E & Hj). injection E as <- _. apply in_seq in Hj. cbn [fst]. lia.
  - destruct F as [S R]. split; [reflexivity|]. injection S as S1. unfold in_range in R. rewrite Forall_forall in R.
    change (cols_of (Sparse s)) with (ncol s). apply R. apply nth_In. lia.
Qed.
Lemma hcat_line_value n bs : forall off i, Forall (fit_in n) bs -> (i < n)%nat ->
  (forall j, (j < off)%nat -> at_col j (hcat_line bs off i) = 0) /\
  (forall j, at_col (off + j) (hcat_line bs off i) = hcat_at bs i j) /\
  Forall (fun c => (c < off + total_cols bs)%nat) (map fst (hcat_line bs off i)).
Proof.
  induction bs as [|b bs IH]; intros off i F Hi; cbn [hcat_line hcat_at].
  - cbn. repeat split; auto.
  - inversion F as [|? ? Fb Fs]; subst. destruct (stored_value n b i Fb Hi) as [V B].
    destruct (IH (off + cols_of b)%nat i Fs Hi) as (I1 & I2 & I3). split; [|split].
    + intros j Hj. rewrite at_col_app, at_col_shift, I1 by lia. destruct (Nat.leb_spec off j); [lia|lra].
    + intro j. rewrite at_col_app, at_col_shift. destruct (Nat.leb_spec off (off + j)); [|lia].
      replace (off + j - off)%nat with j by lia. destruct (Nat.ltb_spec j (cols_of b)) as [L|L].
      * rewrite V by auto. rewrite I1 by lia. lra.
      * replace (off + j)%nat with (off + cols_of b + (j - cols_of b))%nat by lia. rewrite I2. rewrite at_col_notin; [lra|].
        intro H'. rewrite Forall_forall in B. apply B in H'. lia.
    + rewrite map_app. apply Forall_app. unfold total_cols in *. cbn [map list_sum fold_right]. fold (list_sum (map cols_of bs)). split.
      * apply Forall_forall. intros c Hc. rewrite map_map in Hc. cbn in Hc. apply in_map_iff in Hc as (p & <- & Hp).
        rewrite Forall_forall in B. specialize (B (fst p) (in_map fst _ _ Hp)). lia.
      * eapply Forall_impl; [|exact I3]. cbn. intros. lia.
Qed.

(** What safe_hstack gives. *)
Lemma safe_hstack_value n bs : bs <> [] -> Forall (fit_in n) bs ->
  exists x, safe_hstack bs = Ok x /\ proper x n (total_cols bs) /\ is_sparse_matrix x = existsb is_sparse_matrix bs /\
    forall i j, (i < n)%nat -> (j < total_cols bs)%nat -> el (mvalue x) [i; j] = hcat_at bs i j.
Proof.
  intros N F. destruct bs as [|b bs]; [tauto|]. inversion F as [|? ? Fb Fs]; subst.
  assert (R : rows_of b = n) by (eapply fits_rows; exact Fb).
  unfold safe_hstack. destruct (existsb is_sparse_matrix (b :: bs)) eqn:E.
  - unfold sp_hstack. rewrite R, (same_rows_ok n (b :: bs) F). eexists. split; [reflexivity|]. split; [|split; [reflexivity|]].
    + cbn [proper]. unfold csr_shape, canonical, coo_tocsr. cbn [lines ncol]. rewrite !map_length, seq_length. split; auto.
      apply Forall_forall. intros li Hl. apply in_map_iff in Hl as (l0 & <- & Hl). apply in_map_iff in Hl as (i & <- & Hi). apply in_seq in Hi.
      destruct (canonical_sorted (hcat_line (b :: bs) 0 i)) as [Sd I]. split; auto.
      destruct (hcat_line_value n (b :: bs) 0 i F ltac:(lia)) as (_ & _ & B). apply Forall_forall. intros c Hc. apply I in Hc.
      rewrite Forall_forall in B. apply B in Hc. lia.
    + intros i j Hi Hj. cbn [mvalue]. unfold toarray, coo_tocsr. cbn [el lines nth].
      rewrite (nth_indep _ [] (canonical_line (hcat_line (b :: bs) 0 0))) by (rewrite !map_length, seq_length; auto).
      rewrite (map_nth canonical_line), (map_nth (hcat_line (b :: bs) 0)), seq_nth by auto. cbn [plus]. rewrite at_col_canonical.
      destruct (hcat_line_value n (b :: bs) 0 i F Hi) as (_ & V & _). exact (V j).
  - unfold np_hstack. rewrite R, (same_rows_ok n (b :: bs) F). eexists. split; [reflexivity|]. split; [reflexivity|]. split; [reflexivity|].
    intros i j Hi Hj. reflexivity.
Qed.

Lemma at_col_times c j l : at_col j (map (fun p : nat * R => (fst p, c * snd p)) l) = c * at_col j l.
Proof. induction l as [|[k v] l IH]; cbn; [lra|]. destruct (k =? j)%nat; rewrite IH; lra. Qed.
Lemma mscale_fits c n d x : fits n d x -> fits n d (mscale c x) /\ forall i j, (i < n)%nat -> el (mvalue (mscale c x)) [i; j] = c * el (mvalue x) [i; j].
Proof.
  destruct x as [a|s]; cbn.
  - intro H. auto.
  - intros [S R]. injection S as S1 S2. split.
    + unfold csr_shape. cbn. rewrite map_length, S1, S2. split; auto. unfold in_range in *. cbn. apply Forall_forall. intros l Hl.
      apply in_map_iff in Hl as (l0 & <- & Hl). rewrite Forall_forall in R. specialize (R l0 Hl). rewrite map_map. rewrite <- S2. exact R.
    + intros i j Hi. rewrite (nth_indep _ [] (map (fun p => (fst p, c * snd p)) [])) by (rewrite map_length; lia). rewrite map_nth. apply at_col_times.
Qed.

Lemma width_in l ms p m : nth_error ms p = Some m -> (width l (firstn p ms) + dim_of l m <= width l ms)%nat.
Proof.
  intro E. unfold width. rewrite <- firstn_map. pose proof (firstn_sum_le (map (dim_of l) ms) p (length (map (dim_of l) ms)) (dim_of l m)) as X.
  rewrite firstn_all in X. apply X; [|now rewrite nth_error_map, E]. rewrite map_length. apply nth_error_Some. congruence.
Qed.

Section Stack.
Context (l : learner) (W : well_formed l).

Lemma coefs_mapM ms : Forall (fun m => In m (mods l)) ms ->
  mapM (fun m => bind (get_index l m) (fun idx => py_nth (coefs l) (Z.of_nat idx))) ms = Ok (map (coef_of l) ms).
Proof using W.
  intro F. apply mapM_pure. intros m Hm. rewrite Forall_forall in F. destruct (In_nth_error _ _ (F m Hm)) as [q E].
  rewrite (get_index_ok l m q) by (auto; apply W). cbn [bind]. apply py_nth_ok. now apply coef_nth.
Qed.
Lemma stack_blocks n ms data : Forall (fun m => In m (mods l)) ms -> Forall2 (fun m x => fits n (dim_of l m) x) ms data ->
  let bs := map (fun p => mscale (snd p) (fst p)) (combine data (map (coef_of l) ms)) in
  Forall (fit_in n) bs /\ map cols_of bs = map (dim_of l) ms /\
  forall p m x, nth_error ms p = Some m -> nth_error data p = Some x -> nth_error bs p = Some (mscale (coef_of l m) x).
Proof using.
  intros _ F. induction F as [|m x ms data H F IH]; cbn zeta; cbn [combine map].
  - repeat split; auto. intros [|p] m x H; discriminate.
  - destruct IH as (I1 & I2 & I3). destruct (mscale_fits (coef_of l m) n _ x H) as [Hf _]. cbn [fst snd]. split; [|split].
    + constructor; auto. unfold fit_in. now rewrite (fits_cols _ _ _ Hf).
    + rewrite (fits_cols _ _ _ Hf). now f_equal.
    + intros [|p] m' x' E E'; cbn in *; [congruence|]. eapply I3; eauto.
Qed.
Lemma stack_value n ms data : ms <> [] -> Forall (fun m => In m (mods l)) ms -> Forall2 (fun m x => fits n (dim_of l m) x) ms data ->
  exists x, stack_data l ms data = Ok x /\ proper x n (width l ms) /\ is_sparse_matrix x = existsb is_sparse_matrix data /\
    forall p m d, nth_error ms p = Some m -> nth_error data p = Some d ->
      forall i j, (i < n)%nat -> (j < dim_of l m)%nat ->
        el (mvalue x) [i; (width l (firstn p ms) + j)%nat] = coef_of l m * el (mvalue d) [i; j].
Proof using W.
  intros Ne K F. destruct (stack_blocks n ms data K F) as (B1 & B2 & B3). unfold stack_data. rewrite (coefs_mapM ms K). cbn [bind].
  set (bs := map _ (combine data (map (coef_of l) ms))) in *.
  assert (T : total_cols bs = width l ms) by (unfold total_cols, width; now rewrite B2).
  assert (Lm : length data = length ms) by (clear - F; induction F; cbn; auto).
  assert (Nb : bs <> []). { intro E. apply Ne. rewrite E in B2. cbn in B2. now destruct ms. }
  destruct (safe_hstack_value n bs Nb B1) as (x & E & P & Sp & V). exists x. rewrite T in *. split; auto. split; auto. split.
  - rewrite Sp. unfold bs. clear - Lm. revert ms Lm. induction data as [|d data IH]; intros [|m ms] H; try discriminate; auto. cbn.
    rewrite IH by (injection H as H; auto). destruct d; reflexivity.
  - intros p m d Em Ed i j Hi Hj. pose proof (B3 p m d Em Ed) as Eb.
    assert (Fd : fits n (dim_of l m) d).
    { clear - F Em Ed. revert p Em Ed. induction F; intros [|p] Em Ed; cbn in *; try discriminate; [congruence|]. eauto. }
    destruct (mscale_fits (coef_of l m) n _ d Fd) as [Ff Fv].
    assert (O : width l (firstn p ms) = list_sum (map cols_of (firstn p bs))) by (unfold width; now rewrite <- !firstn_map, B2).
    rewrite V; auto.
    + rewrite O. rewrite (hcat_at_block bs p _ i j Eb) by (now rewrite (fits_cols _ _ _ Ff)). now apply Fv.
    + pose proof (width_in l ms p m Em). lia.
Qed.

(** The dictionaries. *)
Context (d : nd) (T : trained l d).
Lemma get_dico_value q m : nth_error (mods l) q = Some m ->
  exists b, get_dico l m = Ok b /\ shape b = [lk l; dim_of l m] /\
    forall i j, el b [i; j] = el d [i; (width l (firstn q (mods l)) + j)%nat].
Proof using W T.
  intro E. destruct T as [Ed Sd]. unfold get_dico. rewrite (axis_range l W q m E). cbn [bind]. rewrite Ed. eexists. split; [reflexivity|].
  unfold slice_cols. rewrite Sd. cbn [nth shape el]. pose proof (width_in l (mods l) q m E) as B.
  rewrite !Nat.min_l by lia. split; [do 2 f_equal; lia|]. reflexivity.
Qed.
Lemma get_dico_no m : ~ In m (mods l) -> get_dico l m = Err ValueError.
Proof using. intro H. unfold get_dico. now rewrite axis_range_no. Qed.

Lemma dicos_mapM ms : Forall (fun m => In m (mods l)) ms -> exists bs, mapM (get_dico l) ms = Ok bs /\
  Forall (fit_in (lk l)) (map Dense bs) /\ map cols_of (map Dense bs) = map (dim_of l) ms /\
  forall p m q, nth_error ms p = Some m -> nth_error (mods l) q = Some m ->
    exists b, get_dico l m = Ok b /\ nth_error bs p = Some b /\ forall i j, el b [i; j] = el d [i; (width l (firstn q (mods l)) + j)%nat].
Proof using W T.
  induction 1 as [|m ms H F IH]; cbn [mapM].
  - exists []. repeat split; auto; try constructor. intros [|p] m q H; discriminate.
  - destruct (In_nth_error _ _ H) as [q E]. destruct (get_dico_value q m E) as (b & Eb & S & L). rewrite Eb. cbn [bind].
    destruct IH as (bs & -> & I1 & I2 & I3). cbn [bind]. exists (b :: bs). split; auto. cbn [map].
    assert (C : cols_of (Dense b) = dim_of l m) by (unfold cols_of; cbn; now rewrite S).
    split; [constructor; auto; unfold fit_in; rewrite C; exact S|]. split; [rewrite C; now f_equal|].
    intros [|p] m' q' Em Eq; cbn in Em.
    + injection Em as <-. assert (q' = q).
      { assert (X : Some q' = Some q). { pose proof (get_index_ok l m q (proj1 W) E) as A. pose proof (get_index_ok l m q' (proj1 W) Eq) as B. congruence. } now injection X. }
      subst q'. exists b. auto.
    + destruct (I3 p m' q' Em Eq) as (b' & A & B & D). exists b'. auto.
Qed.
Lemma stacked_dicos_value ms : ms <> [] -> Forall (fun m => In m (mods l)) ms ->
  exists a, get_stacked_dicos l ms = Ok (Dense a) /\ shape a = [lk l; width l ms] /\
    forall p m q, nth_error ms p = Some m -> nth_error (mods l) q = Some m ->
      forall i j, (i < lk l)%nat -> (j < dim_of l m)%nat ->
        el a [i; (width l (firstn p ms) + j)%nat] = el d [i; (width l (firstn q (mods l)) + j)%nat].
Proof using W T.
  intros Ne F. destruct (dicos_mapM ms F) as (bs & E & B1 & B2 & B3). unfold get_stacked_dicos. rewrite E. cbn [bind].
  assert (Nb : map Dense bs <> []). { intro X. apply Ne. rewrite X in B2. cbn in B2. now destruct ms. }
  destruct (safe_hstack_value (lk l) (map Dense bs) Nb B1) as (x & -> & P & Sp & V).
  assert (X : existsb is_sparse_matrix (map Dense bs) = false) by (clear; induction bs; auto). rewrite X in Sp.
  destruct x as [a|s]; [|discriminate]. cbn [proper] in P.
  assert (Tc : total_cols (map Dense bs) = width l ms) by (unfold total_cols, width; now rewrite B2). rewrite Tc in *.
  exists a. split; auto. split; auto. intros p m q Em Eq i j Hi Hj. destruct (B3 p m q Em Eq) as (b & Gb & Eb & L).
  assert (Eb' : nth_error (map Dense bs) p = Some (Dense b)) by (now rewrite nth_error_map, Eb).
  assert (Cb : cols_of (Dense b) = dim_of l m).
  { assert (Y : nth_error (map cols_of (map Dense bs)) p = Some (cols_of (Dense b))) by (now rewrite nth_error_map, Eb').
    rewrite B2, nth_error_map, Em in Y. now injection Y. }
  assert (O : width l (firstn p ms) = list_sum (map cols_of (firstn p (map Dense bs)))) by (unfold width; now rewrite <- !firstn_map, B2).
  cbn [mvalue] in V. rewrite V; auto.
  - rewrite O, (hcat_at_block _ p _ i j Eb') by (now rewrite Cb). apply L.
  - pose proof (width_in l ms p m Em). lia.
Qed.
(** All modalities in order: the whole dictionary. *)
Lemma all_dicos : mods l <> [] -> exists a, get_stacked_dicos l (mods l) = Ok (Dense a) /\ shape a = shape d /\
  forall i j, (i < lk l)%nat -> (j < width l (mods l))%nat -> el a [i; j] = el d [i; j].
Proof using W T.
  intro Ne. destruct (stacked_dicos_value (mods l) Ne) as (a & E & S & L); [apply Forall_forall; auto|].
  exists a. destruct T as [_ Sd]. split; auto. split; [congruence|]. intros i j Hi Hj.
  destruct (sum_split (map (dim_of l) (mods l)) j Hj) as (p & w & Ep & B). rewrite nth_error_map in Ep.
  destruct (nth_error (mods l) p) as [m|] eqn:Em; [|discriminate]. injection Ep as <-. rewrite firstn_map in B. fold (width l (firstn p (mods l))) in B.
  specialize (L p m p Em Em i (j - width l (firstn p (mods l)))%nat Hi ltac:(lia)).
  replace (width l (firstn p (mods l)) + (j - width l (firstn p (mods l))))%nat with j in L by lia. exact L.
Qed.
End Stack.

