(** * Lemmas about nmf.py: the value of the updates and of the error. *)

From Coq Require Import List ZArith Reals Bool Arith Lia Lra Sorted.
Import ListNotations.
From Verif Require Import Py Py_proof nd_model nd_spec nd_proof sparse_model array_utils_model array_utils_proof
  metrics_model metrics_spec metrics_proof nmf_model nmf_spec pairing_proof.
Open Scope py_scope.
Local Open Scope R_scope.

Lemma sum_to_rsum n f : sum_to n f = rsum n f.
Proof. unfold sum_to. now rewrite rsum_lsum. Qed.
Lemma valid2 n m idx : valid [n; m] idx <-> exists i j, idx = [i; j] /\ (i < n)%nat /\ (j < m)%nat.
Proof.
  split.
  - destruct idx as [|i [|j [|]]]; cbn; try tauto. intros (Hi & Hj & _). eauto.
  - intros (i & j & -> & Hi & Hj). cbn. auto.
Qed.

(** ** Rows with the columns of a given matrix. *)
Definition relabel (f : nat -> nat * R -> R) (ls : list line) : list line :=
  map (fun p => map (fun e => (fst e, f (fst p) e)) (snd p)) (enumerate ls).
Definition values (f : nat -> nat * R -> R) (ls : list line) : list R :=
  concat (map (fun p => map (f (fst p)) (snd p)) (enumerate ls)).

Lemma data_relabel nc f ls : data (Csr nc (relabel f ls)) = values f ls.
Proof.
  unfold data, values, relabel. cbn. rewrite map_map. f_equal. apply map_ext. intros p. rewrite map_map. reflexivity.
Qed.
Lemma data_values nc ls : data (Csr nc ls) = values (fun _ e => snd e) ls.
Proof.
  unfold data, values, enumerate. cbn. assert (G : forall n, map (map snd) ls = map (fun p : nat * line => map (fun e => snd e) (snd p)) (combine (seq n (length ls)) ls)).
  { induction ls as [|l ls IH]; intro n; cbn; auto. f_equal. apply IH. }
  f_equal. apply G.
Qed.
Lemma values_combine f g h (F : R -> R -> R) ls : (forall i e, h i e = F (f i e) (g i e)) ->
  map (fun p => F (fst p) (snd p)) (combine (values f ls) (values g ls)) = values h ls.
Proof.
  intro H. unfold values. generalize (enumerate ls). intro L. induction L as [|[i l] L IH]; cbn; auto.
  rewrite <- IH. clear IH. induction l as [|e l IHl]; cbn; auto. f_equal; auto.
Qed.
Lemma values_length f g ls : length (values f ls) = length (values g ls).
Proof.
  unfold values. generalize (enumerate ls). intro L. induction L as [|[i l] L IH]; cbn; auto. rewrite !app_length, !map_length. lia.
Qed.
Lemma set_line_values f (g : nat * R -> R) l rest :
  set_line (map (fun e => (fst e, f e)) l) (map g l ++ rest) = (map (fun e => (fst e, g e)) l, rest).
Proof.
  induction l as [|e l IH]; cbn.
  - destruct rest; reflexivity.
  - rewrite IH. reflexivity.
Qed.
Lemma set_lines_values f g ls : set_lines (relabel f ls) (values g ls) = relabel g ls.
Proof.
  unfold relabel, values. generalize (enumerate ls). intro L. induction L as [|[i l] L IH]; cbn; auto.
  rewrite set_line_values. now rewrite IH.
Qed.
Lemma nth_relabel f ls i : (i < length ls)%nat ->
  nth i (relabel f ls) [] = map (fun e => (fst e, f i e)) (nth i ls []).
Proof.
  intro H. unfold relabel. destruct (nth_error ls i) as [l|] eqn:E; [|apply nth_error_None in E; lia].
  rewrite (nth_error_nth _ _ [] E). apply nth_error_nth. rewrite nth_error_map, nth_error_enumerate, E. reflexivity.
Qed.
Lemma length_relabel f ls : length (relabel f ls) = length ls.
Proof. unfold relabel. now rewrite map_length, enumerate_length. Qed.
Lemma map_fst_relabel f ls : map (map fst) (relabel f ls) = map (map fst) ls.
Proof.
  unfold relabel, enumerate. rewrite map_map. generalize 0%nat. induction ls as [|l ls IH]; intro n; cbn; auto. f_equal; auto.
  now rewrite map_map.
Qed.

Lemma seq_combine (F : R -> R -> R) l m : length l = length m ->
  map (fun i => F (nth i l 0) (nth i m 0)) (seq 0 (length l)) = map (fun p => F (fst p) (snd p)) (combine l m).
Proof.
  revert m. induction l as [|x l IH]; intros [|y m] H; try discriminate; auto. cbn [length seq map combine]. f_equal.
  rewrite <- seq_shift, map_map. rewrite <- IH by (cbn in H; lia). reflexivity.
Qed.
Lemma map2_vec F l m : length l = length m -> exists q, map2 F (vec l) (vec m) = Ok q /\ shape q = [length l] /\
  forall i, (i < length l)%nat -> el q [i] = F (nth i l 0) (nth i m 0).
Proof.
  intro H. destruct (map2_same F (vec l) (vec m)) as (q & E & S & L); [cbn; congruence|]. exists q. split; auto. split; auto.
  intros i Hi. rewrite L by (cbn; auto). reflexivity.
Qed.

(** ** Canonical matrices. *)
Lemma canonical_eliminate s : canonical s -> canonical (eliminate_zeros s).
Proof.
  unfold canonical. cbn. rewrite Forall_map. apply Forall_impl. intros l [S F]. split; [now apply sorted_filter|].
  rewrite Forall_forall in *. intros c Hc. apply F. apply in_map_iff in Hc as (e & <- & He). apply filter_In in He as [He _]. now apply in_map.
Qed.
Lemma canonical_relabel nc f ls : canonical (Csr nc ls) -> canonical (Csr nc (relabel f ls)).
Proof.
  unfold canonical. cbn [lines ncol].
  assert (G : forall P ls, Forall (fun l : line => P (map fst l)) ls <-> Forall P (map (map fst) ls)).
  { intros P l. now rewrite Forall_map. }
  intro H. apply (G (fun cs => StronglySorted lt cs /\ Forall (fun c => (c < nc)%nat) cs)). rewrite map_fst_relabel.
  apply (G (fun cs => StronglySorted lt cs /\ Forall (fun c => (c < nc)%nat) cs)). exact H.
Qed.
Lemma canonical_lines nc ls : canonical (Csr nc ls) -> map canonical_line ls = ls.
Proof.
  unfold canonical. cbn. induction 1 as [|l ls [S _] _ IH]; cbn; auto. now rewrite IH, canonical_id.
Qed.
Lemma sorted_nodup l : StronglySorted lt l -> NoDup l.
Proof. induction 1 as [|a l S IH F]; constructor; auto. intro H. rewrite Forall_forall in F. specialize (F _ H). lia. Qed.

Lemma at_col_one j l : NoDup (map fst l) -> (~ In j (map fst l) /\ at_col j l = 0) \/ In (j, at_col j l) l.
Proof.
  induction l as [|[c v] l IH]; cbn; intro N; [left; tauto|]. inversion N; subst. destruct (Nat.eqb_spec c j) as [->|].
  - right. left. rewrite at_col_notin by auto. f_equal. lra.
  - destruct IH as [[I ->]|I]; auto. left. tauto.
Qed.
Lemma at_col_in j v l : NoDup (map fst l) -> In (j, v) l -> at_col j l = v.
Proof.
  induction l as [|[c u] l IH]; cbn; [tauto|]. intros N [H|H]; inversion N; subst.
  - injection H as -> ->. rewrite Nat.eqb_refl, at_col_notin by auto. lra.
  - destruct (Nat.eqb_spec c j) as [->|]; auto. exfalso. apply H2. now apply (in_map fst) in H.
Qed.
Lemma at_col_relabel j l (g : nat * R -> R) : NoDup (map fst l) -> Forall (fun e => snd e <> 0) l ->
  at_col j (map (fun e => (fst e, g e)) l) = if Req_EM_T (at_col j l) 0 then 0 else g (j, at_col j l).
Proof.
  intros N F. assert (N' : NoDup (map fst (map (fun e : nat * R => (fst e, g e)) l))) by (rewrite map_map; exact N).
  destruct (at_col_one j l N) as [[I E]|I].
  - rewrite E. destruct (Req_EM_T 0 0) as [_|]; [|tauto]. apply at_col_notin. rewrite map_map. exact I.
  - rewrite Forall_forall in F. specialize (F _ I). cbn in F. destruct (Req_EM_T _ 0) as [|_]; [tauto|]. apply at_col_in; auto.
    apply in_map_iff. eexists. split; [|exact I]. reflexivity.
Qed.

Section Sparse.
Context (s : csr) (n m : nat) (Hs : csr_shape s = [n; m]) (Hc : canonical s).
Let s' := eliminate_zeros s.
Lemma elim_shape : csr_shape s' = [n; m].
Proof. rewrite <- Hs. unfold s', csr_shape. cbn. now rewrite map_length. Qed.
Lemma elim_canonical : canonical s'.
Proof. now apply canonical_eliminate. Qed.
Lemma elim_rows : length (lines s') = n.
Proof. pose proof elim_shape as H. unfold csr_shape in H. congruence. Qed.
Lemma elim_ncol : ncol s' = m.
Proof. pose proof elim_shape as H. unfold csr_shape in H. congruence. Qed.
Lemma elim_value i j : (i < n)%nat -> (j < m)%nat -> at_col j (nth i (lines s') []) = el (toarray s) [i; j].
Proof. intros Hi Hj. destruct (eliminate_same s) as [_ E]. apply (E [i; j]). fold s'. cbn [toarray shape]. rewrite elim_shape. cbn. auto. Qed.
Lemma elim_line i : (i < n)%nat -> NoDup (map fst (nth i (lines s') [])) /\ Forall (fun e => snd e <> 0) (nth i (lines s') []) /\
  Forall (fun e => (fst e < m)%nat) (nth i (lines s') []).
Proof.
  intro Hi. pose proof elim_canonical as C. unfold canonical in C. rewrite Forall_forall in C.
  assert (L : In (nth i (lines s') []) (lines s')) by (apply nth_In; rewrite elim_rows; auto).
  destruct (C _ L) as [S F]. split; [now apply sorted_nodup|]. split.
  - unfold s' in L. cbn in L. apply in_map_iff in L as (l & E & _). unfold s'. cbn [lines eliminate_zeros] in *. rewrite <- E.
    apply Forall_forall. intros e He. apply filter_In in He as [_ He]. now apply negb_true_iff, Req_bool_false in He.
  - rewrite Forall_map in F. rewrite elim_ncol in F. exact F.
Qed.

Lemma special_value w h k : shape w = [n; k] -> shape h = [k; m] ->
  special_sparse_dot w h s' = Ok (Csr m (relabel (fun i e => rsum k (fun l => el w [i; l] * el h [l; fst e])) (lines s'))).
Proof.
  intros Sw Sh. unfold special_sparse_dot. rewrite Sw, Sh, Nat.eqb_refl. f_equal. unfold coo_tocsr. rewrite elim_ncol. f_equal.
  apply canonical_lines with (nc := m). apply (canonical_relabel m (fun i e => rsum k (fun l => el w [i; l] * el h [l; fst e]))).
  rewrite <- elim_ncol. exact elim_canonical.
Qed.
Lemma relabel_value g i j : (i < n)%nat -> (j < m)%nat ->
  el (toarray (Csr m (relabel g (lines s')))) [i; j] = if Req_EM_T (el (toarray s) [i; j]) 0 then 0 else g i (j, el (toarray s) [i; j]).
Proof.
  intros Hi Hj. cbn [toarray el nth lines]. rewrite nth_relabel by (rewrite elim_rows; auto).
  destruct (elim_line i Hi) as (N & F & _). rewrite at_col_relabel by auto. rewrite elim_value by auto. reflexivity.
Qed.
Lemma sum_values_row (g : nat -> nat * R -> R) (i : nat) : (i < n)%nat ->
  lsum (map (g i) (nth i (lines s') [])) = rsum m (fun j => if Req_EM_T (el (toarray s) [i; j]) 0 then 0 else g i (j, el (toarray s) [i; j])).
Proof.
  intro Hi. destruct (elim_line i Hi) as (N & F & B).
  assert (A : forall l : line, lsum (map (g i) l) = line_dot (map (fun e => (fst e, g i e)) l) (fun _ => 1)).
  { induction l as [|e l IH]; cbn; auto. rewrite IH. unfold line_dot. lra. }
  rewrite A. rewrite (line_dot_at_col _ _ m).
  - apply rsum_ext. intros j Hj. rewrite at_col_relabel by auto. rewrite elim_value by auto. cbn [fst]. destruct (Req_EM_T _ 0); lra.
  - rewrite Forall_map. exact B.
Qed.
Lemma sum_values (g : nat -> nat * R -> R) :
  lsum (values g (lines s')) = rsum n (fun i => rsum m (fun j => if Req_EM_T (el (toarray s) [i; j]) 0 then 0 else g i (j, el (toarray s) [i; j]))).
Proof.
  rewrite (rsum_ext n _ (fun i => lsum (map (g i) (nth i (lines s') [])))).
  - unfold values, enumerate. rewrite <- elim_rows. generalize (lines s'). intro L.
    assert (G : forall L (o : nat), lsum (concat (map (fun p : nat * line => map (g (fst p)) (snd p)) (combine (seq o (length L)) L))) =
      lsum (map (fun i => lsum (map (g (o + i)%nat) (nth i L []))) (seq 0 (length L)))).
    { clear. induction L as [|l L IH]; intro o; cbn [length seq combine map concat lsum]; auto.
      rewrite lsum_app, IH. cbn [fst snd nth]. rewrite Nat.add_0_r. f_equal. rewrite <- seq_shift, map_map. f_equal. apply map_ext.
      intro i. cbn [nth]. now rewrite Nat.add_succ_r. }
    rewrite G, rsum_lsum. reflexivity.
  - intros i Hi. symmetry. now apply sum_values_row.
Qed.
End Sparse.

(** ** The ratio. *)
Lemma Q_value eps x w h n k m : proper x n m -> shape w = [n; k] -> shape h = [k; m] ->
  exists q, Q eps x w h = Ok q /\ proper q n m /\
    forall i j, (i < n)%nat -> (j < m)%nat -> el (mvalue q) [i; j] = ratio_of x eps k (mvalue x) w h i j.
Proof.
  intros P Sw Sh. destruct x as [a|s]; cbn [proper] in P.
  - unfold Q, dot. rewrite Sw, Sh, Nat.eqb_refl. cbn [bind]. set (wh := Nd [n; m] _).
    destruct (map2_same Rdiv (map1 (fun v => v + eps) a) (map1 (fun v => v + eps) wh)) as (q & -> & S & L); [cbn; auto|].
    cbn [bind]. eexists. split; [reflexivity|]. cbn. cbn in S. rewrite S. split; [exact P|]. intros i j Hi Hj. rewrite L.
    + cbn. unfold ratio, prod. rewrite sum_to_rsum. reflexivity.
    + cbn. rewrite P. cbn. auto.
  - destruct P as [Hs Hc]. unfold Q. cbv zeta. rewrite (special_value s n m Hs Hc w h k Sw Sh). cbn [bind].
    set (s' := eliminate_zeros s). set (g := fun i (e : nat * R) => rsum k (fun l => el w [i; l] * el h [l; fst e])).
    assert (Ed : data s' = values (fun _ e => snd e) (lines s')) by (destruct s' as [c l]; apply data_values).
    rewrite data_relabel, Ed.
    assert (Hl : length (values (fun _ e => snd e) (lines s')) = length (values g (lines s'))) by apply values_length.
    destruct (map2_vec (fun a b => (a + eps) / (b + eps)) _ _ Hl) as (q & E & S & L).
    change (map2 Rdiv (map1 (fun v => v + eps) (vec (values (fun _ e => snd e) (lines s')))) (map1 (fun v => v + eps) (vec (values g (lines s')))))
      with (map2 (fun a b => (a + eps) / (b + eps)) (vec (values (fun _ e => snd e) (lines s'))) (vec (values g (lines s')))).
    rewrite E. cbn [bind]. eexists. split; [reflexivity|].
    assert (Eq : map (fun i => el q [i]) (seq 0 (size (shape q))) = values (fun i e => (snd e + eps) / (g i e + eps)) (lines s')).
    { rewrite S. cbn [size fold_right]. rewrite Nat.mul_1_r.
      rewrite <- (values_combine (fun _ e => snd e) g (fun i e => (snd e + eps) / (g i e + eps)) (fun a b => (a + eps) / (b + eps)) (lines s')) by reflexivity.
      rewrite <- (seq_combine (fun a b => (a + eps) / (b + eps))) by exact Hl. apply map_ext_in. intros i Hi. apply in_seq in Hi. apply L. lia. }
    rewrite Eq. unfold set_data. cbn [ncol lines]. rewrite set_lines_values. split.
    + cbn [proper]. split.
      * unfold csr_shape. cbn [lines ncol]. rewrite length_relabel. unfold s'. now rewrite (elim_rows s n m Hs).
      * apply canonical_relabel. unfold s'. rewrite <- (elim_ncol s n m Hs). pose proof (elim_canonical s Hc) as C.
        destruct (eliminate_zeros s). exact C.
    + intros i j Hi Hj. cbn [mvalue]. unfold s'. rewrite (relabel_value s n m Hs Hc) by auto. cbn [ratio_of mvalue]. unfold ratio_sparse.
      destruct (Req_EM_T _ 0); auto. unfold ratio, prod, g. cbn [fst snd]. rewrite sum_to_rsum. reflexivity.
Qed.

(** ** Products. *)
Lemma proper_line s n m i : csr_shape s = [n; m] -> canonical s -> (i < n)%nat -> Forall (fun p : nat * R => (fst p < m)%nat) (nth i (lines s) []).
Proof.
  intros S C Hi. injection S as S1 S2. unfold canonical in C. rewrite Forall_forall in C.
  assert (L : In (nth i (lines s) []) (lines s)) by (apply nth_In; rewrite S1; auto).
  destruct (C _ L) as [_ F]. rewrite Forall_map, S2 in F. exact F.
Qed.
Lemma mdot_l_value x b n m k : proper x n m -> shape b = [m; k] ->
  exists t, mdot_l x b = Ok t /\ shape t = [n; k] /\
    forall i l, (i < n)%nat -> (l < k)%nat -> el t [i; l] = rsum m (fun j => el (mvalue x) [i; j] * el b [j; l]).
Proof.
  intros P Sb. destruct x as [a|s]; cbn [proper] in P; cbn [mdot_l].
  - unfold dot. rewrite P, Sb, Nat.eqb_refl. eexists. split; [reflexivity|]. split; reflexivity.
  - destruct P as [Hs Hc]. unfold sparse_dense_dot. rewrite Sb. injection Hs as H1 H2. rewrite H2, Nat.eqb_refl.
    eexists. split; [reflexivity|]. split; [cbn; now rewrite H1|]. intros i l Hi Hl. cbn [el nth mvalue toarray].
    apply line_dot_at_col. apply (proper_line s n m); auto. unfold csr_shape. congruence.
Qed.
Lemma mdot_r_value a x n m k : proper x n m -> shape a = [k; n] ->
  exists t, mdot_r a x = Ok t /\ shape t = [k; m] /\
    forall l j, (l < k)%nat -> (j < m)%nat -> el t [l; j] = rsum n (fun i => el a [l; i] * el (mvalue x) [i; j]).
Proof.
  intros P Sa. destruct x as [b|s]; cbn [proper] in P; cbn [mdot_r].
  - unfold dot. rewrite P, Sa, Nat.eqb_refl. eexists. split; [reflexivity|]. split; reflexivity.
  - destruct P as [Hs Hc]. unfold dense_sparse_dot. rewrite Sa. injection Hs as H1 H2. rewrite H1, H2, Nat.eqb_refl.
    eexists. split; [reflexivity|]. split; reflexivity.
Qed.

(** ** The update. *)
Lemma update_value eps x w h n k m fit : proper x n m -> shape w = [n; k] -> shape h = [k; m] ->
  exists w' h', update eps x w h fit = Ok (w', h') /\ step eps x n k m fit w h w' h'.
Proof.
  intros P Sw Sh. unfold update. destruct (Q_value eps x w h n k m P Sw Sh) as (q & -> & Pq & Lq). cbn [bind].
  unfold updated_W. destruct (mdot_l_value q (transpose h) n m k Pq) as (t & -> & St & Lt); [cbn; rewrite Sh; reflexivity|]. cbn [bind].
  destruct (map2_same Rmult w t) as (w' & -> & Sw' & Lw'); [congruence|]. cbn [bind]. set (r := ratio_of x eps k (mvalue x) w h).
  assert (W : forall i l, (i < n)%nat -> (l < k)%nat -> el w' [i; l] = new_coefficient r m w h i l).
  { intros i l Hi Hl. rewrite Lw' by (rewrite Sw; cbn; auto). unfold new_coefficient. rewrite sum_to_rsum. f_equal. rewrite Lt by auto.
    apply rsum_ext. intros j Hj. rewrite Lq by auto. reflexivity. }
  destruct fit.
  - unfold updated_H. destruct (mdot_r_value (transpose w') q n m k Pq) as (t' & -> & St' & Lt'); [cbn; rewrite Sw', Sw; reflexivity|]. cbn [bind].
    destruct (map2_same Rmult h t') as (h1 & -> & Sh1 & Lh1); [congruence|]. cbn [bind].
    assert (R : forall l j, (l < k)%nat -> (j < m)%nat -> el h1 [l; j] = raw_atom r n w' h l j).
    { intros l j Hl Hj. rewrite Lh1 by (rewrite Sh; cbn; auto). unfold raw_atom. rewrite sum_to_rsum. f_equal. rewrite Lt' by auto.
      apply rsum_ext. intros i Hi. rewrite Lq by auto. reflexivity. }
    destruct (normalize_sum_value h1 1 EPS_SUM 1) as (h' & -> & Sh' & Lh'); [rewrite Sh1, Sh; reflexivity|]. cbn [bind].
    exists w', h'. split; auto. split; [congruence|]. split; [congruence|]. split; auto. intros l j Hl Hj.
    rewrite Lh' by (rewrite Sh1, Sh; cbn; auto). rewrite R by auto. f_equal. rewrite Rplus_comm. f_equal. unfold lane. rewrite Sh1, Sh. cbn [nth].
    rewrite <- rsum_lsum, sum_to_rsum. apply rsum_ext. intros j' Hj'. cbn. apply R; auto.
  - exists w', h. cbn [bind]. split; auto. split; [congruence|]. auto.
Qed.

(** ** The error. *)
Lemma EPS_EPSILON : EPS = EPSILON.
Proof. reflexivity. Qed.

Lemma error_dense eps a w h n k m : shape a = [n; m] -> shape w = [n; k] -> shape h = [k; m] ->
  error eps (Dense a) w h = Ok (divergence EPS n k m a w h, Dense a).
Proof.
  intros Sa Sw Sh. unfold error, dot. rewrite Sw, Sh, Nat.eqb_refl. cbn [bind]. set (wh := Nd [n; m] _).
  destruct (gKL_total a wh EPSILON) as (r & -> & Sr & Lr); [exact Sa|]. cbn [bind]. rewrite Lr. do 2 f_equal.
  rewrite KL_kl_fun. rewrite <- (entries_map2 a wh (Nd [n; m] (fun idx => kl_fun EPSILON (el a idx) (el wh idx))) (kl_fun EPSILON)).
  - unfold entries. cbn [shape]. rewrite <- sum_over_indices, sum_over_2. unfold divergence, cells. rewrite sum_to_rsum. apply rsum_ext.
    intros i Hi. rewrite sum_to_rsum. apply rsum_ext. intros j Hj. cbn. unfold kl_fun, prod. rewrite sum_to_rsum. reflexivity.
  - exact Sa.
  - cbn. now rewrite Sa.
  - intros. reflexivity.
Qed.

Lemma sum_vec l : sum_over (shape (vec l)) (el (vec l)) = lsum l.
Proof.
  cbn. rewrite rsum_lsum. induction l as [|x l IH]; cbn [length seq map lsum]; auto. rewrite <- seq_shift, map_map. cbn [nth].
  rewrite <- IH. reflexivity.
Qed.
Lemma total_product n k m w h : rsum k (fun l => rsum n (fun i => el w [i; l]) * rsum m (fun j => el h [l; j])) =
  rsum n (fun i => rsum m (fun j => rsum k (fun l => el w [i; l] * el h [l; j]))).
Proof.
  rewrite (rsum_ext k _ (fun l => rsum n (fun i => rsum m (fun j => el w [i; l] * el h [l; j])))).
  - rewrite rsum_swap. apply rsum_ext. intros i Hi. rewrite rsum_swap. reflexivity.
  - intros l Hl. rewrite Rmult_comm, <- rsum_scal. apply rsum_ext. intros i Hi. rewrite Rmult_comm, <- rsum_scal. reflexivity.
Qed.

Lemma error_sparse eps s w h n k m : csr_shape s = [n; m] -> canonical s -> shape w = [n; k] -> shape h = [k; m] ->
  error eps (Sparse s) w h = Ok (divergence eps n k m (toarray s) w h, Sparse (eliminate_zeros s)).
Proof.
  intros Hs Hc Sw Sh. unfold error. cbv zeta. rewrite (special_value s n m Hs Hc w h k Sw Sh). cbn [bind].
  pose proof (sum_axis_some w 0) as Hw. rewrite Sw in Hw. cbn in Hw. destruct Hw as (ws & E1 & S1 & L1).
  pose proof (sum_axis_some h 1) as Hh. rewrite Sh in Hh. cbn in Hh. destruct Hh as (hs & E2 & S2 & L2).
  cbn [sum_axis] in *. rewrite E1. cbn [bind]. rewrite E2. cbn [bind].
  destruct (map2_same Rmult ws hs) as (p & -> & Sp & Lp); [rewrite S1, S2; reflexivity|]. cbn [bind].
  set (s' := eliminate_zeros s). set (g := fun i (e : nat * R) => rsum k (fun l => el w [i; l] * el h [l; fst e])).
  assert (Ed : data s' = values (fun _ e => snd e) (lines s')) by (destruct s' as [c l]; apply data_values).
  rewrite data_relabel, Ed. set (xd := values (fun _ e => snd e) (lines s')). set (wd := values g (lines s')).
  assert (Hl : length xd = length wd) by apply values_length.
  destruct (map2_vec (fun a b => (a + eps) / (b + eps)) xd wd Hl) as (q & E & S & L).
  change (map2 Rdiv (map1 (fun v => v + eps) (vec xd)) (map1 (fun v => v + eps) (vec wd))) with (map2 (fun a b => (a + eps) / (b + eps)) (vec xd) (vec wd)).
  rewrite E. cbn [bind]. destruct (map2_same Rmult (vec xd) (map1 ln q)) as (t & -> & St & Lt); [exact (eq_sym S)|]. cbn [bind].
  do 2 f_equal. rewrite sum_vec.
  assert (Et : sum_over (shape t) (el t) = lsum (values (fun i e => snd e * ln ((snd e + eps) / (g i e + eps))) (lines s'))).
  { rewrite St. cbn [shape vec sum_over]. rewrite rsum_lsum.
    rewrite <- (values_combine (fun _ e => snd e) g _ (fun a b => a * ln ((a + eps) / (b + eps))) (lines s')) by reflexivity.
    rewrite <- (seq_combine (fun a b => a * ln ((a + eps) / (b + eps)))) by exact Hl. f_equal. apply map_ext_in. intros i Hi. apply in_seq in Hi. assert (Hi' : (i < length xd)%nat) by apply Hi. rewrite Lt by (change (valid [length xd] [i]); split; [exact Hi'|exact Logic.I]).
    cbn [map1 el vec nth]. rewrite L by exact Hi'. reflexivity. }
  rewrite Et. unfold xd, s'. rewrite !(sum_values s n m Hs Hc).
  assert (Ep : sum_over (shape p) (el p) = rsum k (fun l => rsum n (fun i => el w [i; l]) * rsum m (fun j => el h [l; j]))).
  { rewrite Sp, S1. cbn [sum_over remove firstn skipn app]. apply rsum_ext. intros l Hl'. rewrite Lp by (rewrite S1; cbn; auto).
    rewrite L1, L2. unfold lane. rewrite Sw, Sh. cbn [nth]. rewrite <- !rsum_lsum. reflexivity. }
  rewrite Ep, total_product. rewrite <- rsum_minus, <- rsum_plus. unfold divergence, cells. rewrite sum_to_rsum. apply rsum_ext. intros i Hi.
  rewrite <- rsum_minus, <- rsum_plus, sum_to_rsum. apply rsum_ext. intros j Hj. unfold g, prod. rewrite sum_to_rsum. cbn [fst snd].
  destruct (Req_EM_T _ 0) as [Z|]; [rewrite Z; lra|reflexivity].
Qed.
