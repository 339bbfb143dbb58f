(** * Lemmas about the updates of nmf.py: signs, zeros, sums and the objective. *)

From Coq Require Import List ZArith Reals Bool Arith Lia Lra Sorted.
Import ListNotations.
From Verif Require Import Py Py_proof nd_model nd_spec nd_proof sparse_model nmf_model nmf_spec nmf_proof.
Local Open Scope R_scope.

Lemma sum_to_ext n f g : (forall i, (i < n)%nat -> f i = g i) -> sum_to n f = sum_to n g.
Proof. intro H. rewrite !sum_to_rsum. now apply rsum_ext. Qed.
Lemma sum_to_nonneg n f : (forall i, (i < n)%nat -> 0 <= f i) -> 0 <= sum_to n f.
Proof. intro H. rewrite sum_to_rsum. now apply rsum_nonneg. Qed.
Lemma nonneg2 a n m : shape a = [n; m] -> (nonneg a <-> forall i j, (i < n)%nat -> (j < m)%nat -> 0 <= el a [i; j]).
Proof.
  intro S. unfold nonneg. rewrite S. split.
  - intros H i j Hi Hj. apply H. cbn. auto.
  - intros H idx V. apply valid2 in V as (i & j & -> & Hi & Hj). auto.
Qed.
Lemma prod_nonneg k w h n m i j : shape w = [n; k] -> shape h = [k; m] -> nonneg w -> nonneg h -> (i < n)%nat -> (j < m)%nat ->
  0 <= prod k w h i j.
Proof.
  intros Sw Sh Nw Nh Hi Hj. apply sum_to_nonneg. intros l Hl. apply Rmult_le_pos; [apply Nw; rewrite Sw|apply Nh; rewrite Sh]; cbn; auto.
Qed.

Section Step.
Context (eps : R) (x : matrix) (n k m : nat) (w h : nd).
Context (He : 0 < eps) (Px : proper x n m) (Nx : nonneg (mvalue x)) (Sw : shape w = [n; k]) (Sh : shape h = [k; m]).
Context (Nw : nonneg w) (Nh : nonneg h).
Let r := ratio_of x eps k (mvalue x) w h.

Lemma value_shape : shape (mvalue x) = [n; m].
Proof using Px. clear - Px. destruct x; cbn in *; tauto. Qed.
Lemma ratio_nonneg i j : (i < n)%nat -> (j < m)%nat -> 0 <= r i j.
Proof using All.
  intros Hi Hj. assert (X : 0 <= el (mvalue x) [i; j]) by (apply (proj1 (nonneg2 _ _ _ value_shape) Nx); auto).
  pose proof (prod_nonneg k w h n m i j Sw Sh Nw Nh Hi Hj) as P.
  assert (R : 0 <= ratio eps k (mvalue x) w h i j).
  { unfold ratio. apply Rmult_le_pos; [lra|]. left. apply Rinv_0_lt_compat. lra. }
  unfold r, ratio_of. destruct x; auto. unfold ratio_sparse. destruct (Req_EM_T _ 0); auto. lra.
Qed.
(** The coefficient of the logarithm in the objective. *)
Definition weight (i j : nat) : R :=
  match x with
  | Dense _ => el (mvalue x) [i; j] + eps
  | Sparse _ => if Req_EM_T (el (mvalue x) [i; j]) 0 then 0 else el (mvalue x) [i; j] + eps
  end.
Lemma ratio_weight i j : r i j = weight i j / (prod k w h i j + eps).
Proof using.
  unfold r. clear. unfold weight, ratio_of. destruct x; [reflexivity|]. unfold ratio_sparse. destruct (Req_EM_T _ 0); [unfold Rdiv; lra|reflexivity].
Qed.
Lemma weight_nonneg i j : (i < n)%nat -> (j < m)%nat -> 0 <= weight i j.
Proof using He Px Nx.
  clear - He Px Nx. intros Hi Hj. assert (X : 0 <= el (mvalue x) [i; j]) by (apply (proj1 (nonneg2 _ _ _ value_shape) Nx); auto).
  unfold weight. destruct x; [lra|]. destruct (Req_EM_T _ 0); lra.
Qed.

Context (fit : bool) (w' h' : nd) (H : step eps x n k m fit w h w' h').

Lemma step_w_nonneg : nonneg w'.
Proof using All.
  destruct H as (S1 & S2 & L & _). apply (nonneg2 _ _ _ S1). intros i l Hi Hl. rewrite L by auto. unfold new_coefficient.
  apply Rmult_le_pos; [apply (proj1 (nonneg2 _ _ _ Sw) Nw); auto|]. apply sum_to_nonneg. intros j Hj.
  apply Rmult_le_pos; [apply ratio_nonneg; auto|apply (proj1 (nonneg2 _ _ _ Sh) Nh); auto].
Qed.
Lemma raw_nonneg l j : (l < k)%nat -> (j < m)%nat -> 0 <= raw_atom r n w' h l j.
Proof using All.
  intros Hl Hj. unfold raw_atom. apply Rmult_le_pos; [apply (proj1 (nonneg2 _ _ _ Sh) Nh); auto|]. apply sum_to_nonneg. intros i Hi.
  apply Rmult_le_pos; [|apply ratio_nonneg; auto]. destruct H as (S1 & _). apply (proj1 (nonneg2 _ _ _ S1) step_w_nonneg); auto.
Qed.
Lemma step_h_nonneg : nonneg h'.
Proof using All.
  pose proof raw_nonneg as RN. pose proof H as (S1 & S2 & _ & L). destruct fit; [|subst; auto]. apply (nonneg2 _ _ _ S2). intros l j Hl Hj.
  rewrite L by auto. apply Rmult_le_pos; [apply RN; auto|]. left. apply Rinv_0_lt_compat.
  assert (0 <= sum_to m (raw_atom r n w' h l)) by (apply sum_to_nonneg; intros; apply RN; auto). unfold r in *. lra.
Qed.
Lemma step_w_zero i l : (i < n)%nat -> (l < k)%nat -> el w [i; l] = 0 -> el w' [i; l] = 0.
Proof using H. intros Hi Hl Z. destruct H as (_ & _ & L & _). rewrite L by auto. unfold new_coefficient. rewrite Z. lra. Qed.
Lemma step_h_zero l j : (l < k)%nat -> (j < m)%nat -> el h [l; j] = 0 -> el h' [l; j] = 0.
Proof using H.
  intros Hl Hj Z. destruct H as (_ & _ & _ & L). destruct fit; [|subst; auto]. rewrite L by auto. unfold raw_atom at 1. rewrite Z. unfold Rdiv. lra.
Qed.

Definition raw_sum (l : nat) : R := sum_to m (raw_atom r n w' h l).
Lemma raw_sum_nonneg l : (l < k)%nat -> 0 <= raw_sum l.
Proof using All. intro Hl. apply sum_to_nonneg. intros j Hj. apply raw_nonneg; auto. Qed.
Lemma step_row_sum l : fit = true -> (l < k)%nat -> lsum (row h' l) = raw_sum l / (raw_sum l + / 10000000000000000).
Proof using H.
  intros F Hl. destruct H as (_ & S2 & _ & L). rewrite F in L. unfold row. rewrite S2. cbn [nth].
  change (lsum (map (fun j => el h' [l; j]) (seq 0 m))) with (sum_to m (fun j => el h' [l; j])). unfold raw_sum at 1. rewrite !sum_to_rsum.
  rewrite (rsum_ext m _ (fun j => / (raw_sum l + / 10000000000000000) * raw_atom r n w' h l j)).
  - rewrite rsum_scal. unfold Rdiv. lra.
  - intros j Hj. rewrite L by auto. unfold Rdiv, raw_sum. fold r. lra.
Qed.
Lemma step_row_zero l : fit = true -> (l < k)%nat -> raw_sum l = 0 -> forall j, (j < m)%nat -> el h' [l; j] = 0.
Proof using All.
  intros F Hl Z j Hj. pose proof H as (_ & S2 & _ & L). rewrite F in L. rewrite L by auto.
  assert (R : raw_atom r n w' h l j = 0).
  { unfold raw_sum, sum_to in Z. apply lsum_pos_zero in Z.
    - rewrite Forall_forall in Z. apply Z. apply in_map. apply in_seq. lia.
    - apply Forall_forall. intros v Hv. apply in_map_iff in Hv as (j' & <- & Hj'). apply in_seq in Hj'. apply raw_nonneg; auto; lia. }
  fold r. rewrite R. unfold Rdiv. lra.
Qed.

(** The coefficients of a sample sum to no more than its data. *)
Lemma step_mass i : (i < n)%nat -> lsum (row w' i) <= sum_to m (fun j => weight i j).
Proof using All.
  intro Hi. destruct H as (S1 & _ & L & _). unfold row. rewrite S1. cbn [nth].
  change (lsum (map (fun j => el w' [i; j]) (seq 0 k))) with (sum_to k (fun l => el w' [i; l])). rewrite !sum_to_rsum.
  rewrite (rsum_ext k _ (fun l => rsum m (fun j => r i j * (el w [i; l] * el h [l; j])))).
  - rewrite rsum_swap. apply rsum_le. intros j Hj. rewrite rsum_scal. rewrite ratio_weight.
    pose proof (prod_nonneg k w h n m i j Sw Sh Nw Nh Hi Hj) as P. pose proof (weight_nonneg i j Hi Hj) as W.
    replace (rsum k (fun l => el w [i; l] * el h [l; j])) with (prod k w h i j) by (unfold prod; now rewrite sum_to_rsum).
    set (p := prod k w h i j) in *. set (v := weight i j) in *.
    replace (v / (p + eps) * p) with (v * (p / (p + eps))) by (unfold Rdiv; lra).
    rewrite <- (Rmult_1_r v) at 2. apply Rmult_le_compat_l; auto. apply Rmult_le_reg_r with (p + eps); [lra|]. unfold Rdiv.
    rewrite Rmult_assoc, Rinv_l by lra. lra.
  - intros l Hl. rewrite L by auto. unfold new_coefficient. rewrite sum_to_rsum, <- rsum_scal. apply rsum_ext. intros j _. fold r. lra.
Qed.

(** ** The objective. *)
Lemma jensen (a q : nat -> R) (c : R) : 0 < c -> (forall l, (l < k)%nat -> 0 <= a l) -> rsum k a + c = 1 ->
  (forall l, (l < k)%nat -> 0 < a l -> 0 < q l) -> (forall l, (l < k)%nat -> 0 <= q l) ->
  rsum k (fun l => a l * ln (q l)) <= ln (rsum k (fun l => a l * q l) + c).
Proof using.
  intros Hc Ha S Hq Hq'. set (s := rsum k (fun l => a l * q l) + c).
  assert (P : 0 < s). { unfold s. assert (0 <= rsum k (fun l => a l * q l)) by (apply rsum_nonneg; intros; apply Rmult_le_pos; auto). lra. }
  assert (T : forall y, 0 < y -> ln y <= ln s + (y / s - 1)).
  { intros y Hy. assert (0 < y / s) by (apply Rmult_lt_0_compat; auto; now apply Rinv_0_lt_compat).
    assert (ln (y / s) <= y / s - 1). { pose proof (exp_ineq1_le (ln (y / s))). rewrite exp_ln in H1 by auto. lra. }
    unfold Rdiv in *. rewrite ln_mult in H1 by (auto; now apply Rinv_0_lt_compat). rewrite ln_Rinv in H1 by auto. lra. }
  assert (B : rsum k (fun l => a l * ln (q l)) <= rsum k (fun l => a l * (ln s + (q l / s - 1)))).
  { apply rsum_le. intros l Hl. destruct (Ha l Hl) as [A|<-]; [|lra]. apply Rmult_le_compat_l; [lra|]. apply T. auto. }
  assert (C : 0 <= c * (ln s + (1 / s - 1))).
  { apply Rmult_le_pos; [lra|]. pose proof (T 1 Rlt_0_1). rewrite ln_1 in H0. lra. }
  assert (D : rsum k (fun l => a l * (ln s + (q l / s - 1))) = (ln s - 1) * rsum k a + / s * (s - c)).
  { replace (s - c) with (rsum k (fun l => a l * q l)) by (unfold s; lra). rewrite <- !rsum_scal, <- rsum_plus. apply rsum_ext. intros. unfold Rdiv. lra. }
  rewrite D in B. replace (rsum k a) with (1 - c) in B by lra. unfold Rdiv in C.
  assert (E : / s * s = 1) by (apply Rinv_l; lra). 
  replace ((ln s - 1) * (1 - c) + / s * (s - c)) with (ln s - c * (ln s + (1 * / s - 1)) + (/ s * s - 1)) in B by ring. lra.
Qed.

Definition q_of (i l : nat) : R := rsum m (fun j => r i j * el h [l; j]).
Lemma q_nonneg i l : (i < n)%nat -> (l < k)%nat -> 0 <= q_of i l.
Proof using All.
  intros Hi Hl. apply rsum_nonneg. intros j Hj. apply Rmult_le_pos; [apply ratio_nonneg; auto|apply (proj1 (nonneg2 _ _ _ Sh) Nh); auto].
Qed.
Lemma new_prod i j : (i < n)%nat -> prod k w' h i j = rsum k (fun l => el w [i; l] * el h [l; j] * q_of i l).
Proof using H.
  intro Hi. unfold prod. rewrite sum_to_rsum. apply rsum_ext. intros l Hl. destruct H as (_ & _ & L & _). rewrite L by auto.
  unfold new_coefficient, q_of. rewrite sum_to_rsum. fold r. ring.
Qed.

Lemma cell_bound i j : (i < n)%nat -> (j < m)%nat ->
  r i j * rsum k (fun l => el w [i; l] * el h [l; j] * ln (q_of i l)) <=
  weight i j * (ln (prod k w' h i j + eps) - ln (prod k w h i j + eps)).
Proof using All.
  intros Hi Hj. pose proof (prod_nonneg k w h n m i j Sw Sh Nw Nh Hi Hj) as P. set (p := prod k w h i j) in *.
  assert (Hw : forall l, (l < k)%nat -> 0 <= el w [i; l]) by (intros; apply (proj1 (nonneg2 _ _ _ Sw) Nw); auto).
  assert (Hh : forall l j, (l < k)%nat -> (j < m)%nat -> 0 <= el h [l; j]) by (intros; apply (proj1 (nonneg2 _ _ _ Sh) Nh); auto).
  rewrite ratio_weight. fold p. destruct (weight_nonneg i j Hi Hj) as [W|W].
  2:{ rewrite <- W. unfold Rdiv. rewrite !Rmult_0_l. lra. }
  assert (Hr : 0 < r i j). { rewrite ratio_weight. apply Rmult_lt_0_compat; auto. apply Rinv_0_lt_compat. fold p. lra. }
  assert (J : rsum k (fun l => el w [i; l] * el h [l; j] / (p + eps) * ln (q_of i l)) <=
    ln (rsum k (fun l => el w [i; l] * el h [l; j] / (p + eps) * q_of i l) + eps / (p + eps))).
  { assert (Ip : 0 < / (p + eps)) by (apply Rinv_0_lt_compat; lra). apply jensen.
    - apply Rmult_lt_0_compat; auto.
    - intros l Hl. apply Rmult_le_pos; [apply Rmult_le_pos; auto|lra].
    - rewrite (rsum_ext k _ (fun l => / (p + eps) * (el w [i; l] * el h [l; j]))) by (intros; unfold Rdiv; lra). rewrite rsum_scal.
      replace (rsum k (fun l => el w [i; l] * el h [l; j])) with p by (unfold p, prod; now rewrite sum_to_rsum). field. lra.
    - intros l Hl A. assert (Hp : 0 < el h [l; j]).
      { destruct (Hh l j Hl Hj) as [|Z]; auto. rewrite <- Z in A. unfold Rdiv in A. rewrite Rmult_0_r, Rmult_0_l in A. lra. }
      apply Rlt_le_trans with (r i j * el h [l; j]); [now apply Rmult_lt_0_compat|]. unfold q_of. rewrite rsum_lsum.
      apply (lsum_ge_in _ (r i j * el h [l; j])).
      + apply Forall_forall. intros v Hv. apply in_map_iff in Hv as (j' & <- & Hj'). apply in_seq in Hj'.
        apply Rmult_le_pos; [apply ratio_nonneg; auto; lia|apply Hh; auto; lia].
      + apply (in_map (fun j => r i j * el h [l; j])). apply in_seq. lia.
    - intros l Hl. apply q_nonneg; auto. }
  assert (E1 : rsum k (fun l => el w [i; l] * el h [l; j] / (p + eps) * q_of i l) + eps / (p + eps) = (prod k w' h i j + eps) / (p + eps)).
  { rewrite new_prod by auto. unfold Rdiv. rewrite Rmult_plus_distr_r. f_equal. rewrite (Rmult_comm _ (/ (p + eps))), <- rsum_scal.
    apply rsum_ext. intros. lra. }
  rewrite E1 in J.
  assert (P' : 0 <= prod k w' h i j). { rewrite new_prod by auto. apply rsum_nonneg. intros l Hl. apply Rmult_le_pos; [apply Rmult_le_pos; auto|apply q_nonneg; auto]. }
  unfold Rdiv in J at 2. rewrite ln_mult in J by (try apply Rinv_0_lt_compat; lra). rewrite ln_Rinv in J by lra.
  replace (weight i j / (p + eps) * rsum k (fun l => el w [i; l] * el h [l; j] * ln (q_of i l))) with
    (weight i j * rsum k (fun l => el w [i; l] * el h [l; j] / (p + eps) * ln (q_of i l))).
  - apply Rmult_le_compat_l; lra.
  - unfold Rdiv. rewrite Rmult_assoc. f_equal. rewrite <- rsum_scal. apply rsum_ext. intros. lra.
Qed.

Lemma entropy_bound q t : 0 <= q -> - (q * ln q) + (q - 1) * t <= exp (t - 1) - t.
Proof using.
  intros [Hq|<-].
  - pose proof (exp_ineq1_le (t - 1 - ln q)) as E. replace (exp (t - 1)) with (q * exp (t - 1 - ln q)).
    + assert (q * (1 + (t - 1 - ln q)) <= q * exp (t - 1 - ln q)) by (apply Rmult_le_compat_l; lra). lra.
    + rewrite <- (exp_ln q) at 1 by auto. rewrite <- exp_plus. f_equal. lra.
  - pose proof (exp_pos (t - 1)). lra.
Qed.

Definition excess : R := cells n k (fun i l => el w [i; l] * (exp (lsum (row h l) - 1) - lsum (row h l))).

Lemma objective_step : objective x eps n k m (mvalue x) w' h <= objective x eps n k m (mvalue x) w h + excess.
Proof using All.
  assert (X0 : forall i j, (i < n)%nat -> (j < m)%nat -> 0 <= el (mvalue x) [i; j]) by (apply nonneg2; [apply value_shape|apply Nx]).
  assert (O : forall u, (forall i j, (i < n)%nat -> (j < m)%nat -> 0 <= prod k u h i j) -> objective x eps n k m (mvalue x) u h =
    rsum n (fun i => rsum m (fun j => weight i j * ln (el (mvalue x) [i; j] + eps) - el (mvalue x) [i; j] + (prod k u h i j - weight i j * ln (prod k u h i j + eps))))).
  { clear - X0 He. intros u Hu. unfold objective, smoothed, smoothed_sparse, cells, weight.
    destruct x as [a|s]; cbn [mvalue] in *; rewrite sum_to_rsum; apply rsum_ext; intros i Hi; rewrite sum_to_rsum; apply rsum_ext; intros j Hj;
    specialize (Hu i j Hi Hj); specialize (X0 i j Hi Hj);
    match goal with |- context [ln ((?y + eps) / (?v + eps))] =>
      assert (D : ln ((y + eps) / (v + eps)) = ln (y + eps) - ln (v + eps))
        by (unfold Rdiv; rewrite ln_mult by (try apply Rinv_0_lt_compat; lra); rewrite ln_Rinv by lra; reflexivity)
    end.
    - rewrite D. lra.
    - destruct (Req_EM_T _ 0); [lra|]. rewrite D. lra. }
  rewrite (O w), (O w').
  2:{ intros i j Hi Hj. apply (prod_nonneg k w' h n m); auto. - apply H. - apply step_w_nonneg. }
  2:{ intros i j Hi Hj. apply (prod_nonneg k w h n m); auto. }
  assert (G : rsum n (fun i => rsum m (fun j => weight i j * (ln (prod k w' h i j + eps) - ln (prod k w h i j + eps)))) >=
              rsum n (fun i => rsum k (fun l => el w [i; l] * (q_of i l * ln (q_of i l))))).
  { apply Rle_ge. apply rsum_le. intros i Hi.
    rewrite (rsum_ext k _ (fun l => rsum m (fun j => r i j * (el w [i; l] * el h [l; j] * ln (q_of i l))))).
    - rewrite rsum_swap. apply rsum_le. intros j Hj. rewrite rsum_scal. apply cell_bound; auto.
    - intros l Hl. unfold q_of at 1. replace (el w [i; l] * (rsum m (fun j => r i j * el h [l; j]) * ln (q_of i l))) with
        (el w [i; l] * ln (q_of i l) * rsum m (fun j => r i j * el h [l; j])) by lra. rewrite <- rsum_scal. apply rsum_ext. intros; lra. }
  assert (V : rsum n (fun i => rsum m (fun j => prod k w' h i j - prod k w h i j)) =
              rsum n (fun i => rsum k (fun l => el w [i; l] * ((q_of i l - 1) * lsum (row h l))))).
  { apply rsum_ext. intros i Hi.
    rewrite (rsum_ext m _ (fun j => rsum k (fun l => el w [i; l] * el h [l; j] * (q_of i l - 1)))).
    - rewrite rsum_swap. apply rsum_ext. intros l Hl. unfold row. rewrite Sh. cbn [nth]. rewrite <- rsum_lsum.
      replace (el w [i; l] * ((q_of i l - 1) * rsum m (fun j => el h [l; j]))) with (el w [i; l] * (q_of i l - 1) * rsum m (fun j => el h [l; j])) by lra.
      rewrite <- rsum_scal. apply rsum_ext. intros; lra.
    - intros j Hj. rewrite new_prod by auto. unfold prod. rewrite sum_to_rsum, <- rsum_minus. apply rsum_ext. intros; lra. }
  assert (B : rsum n (fun i => rsum k (fun l => el w [i; l] * ((q_of i l - 1) * lsum (row h l)))) -
              rsum n (fun i => rsum k (fun l => el w [i; l] * (q_of i l * ln (q_of i l)))) <= excess).
  { rewrite <- rsum_minus. unfold excess, cells. rewrite sum_to_rsum. apply rsum_le. intros i Hi. rewrite sum_to_rsum, <- rsum_minus. apply rsum_le.
    intros l Hl. pose proof (entropy_bound (q_of i l) (lsum (row h l)) (q_nonneg i l Hi Hl)).
    assert (0 <= el w [i; l]) by (apply (proj1 (nonneg2 _ _ _ Sw) Nw); auto).
    assert (el w [i; l] * (- (q_of i l * ln (q_of i l)) + (q_of i l - 1) * lsum (row h l)) <= el w [i; l] * (exp (lsum (row h l) - 1) - lsum (row h l)))
      by (apply Rmult_le_compat_l; auto). lra. }
  assert (D : forall u, rsum n (fun i => rsum m (fun j => weight i j * ln (el (mvalue x) [i; j] + eps) - el (mvalue x) [i; j] + (prod k u h i j - weight i j * ln (prod k u h i j + eps)))) =
    rsum n (fun i => rsum m (fun j => weight i j * ln (el (mvalue x) [i; j] + eps) - el (mvalue x) [i; j])) +
    (rsum n (fun i => rsum m (fun j => prod k u h i j)) - rsum n (fun i => rsum m (fun j => weight i j * ln (prod k u h i j + eps))))).
  { intro u. rewrite <- rsum_minus, <- rsum_plus. apply rsum_ext. intros i _. rewrite <- rsum_minus, <- rsum_plus. reflexivity. }
  rewrite !D.
  assert (V' : rsum n (fun i => rsum m (fun j => prod k w' h i j - prod k w h i j)) =
    rsum n (fun i => rsum m (fun j => prod k w' h i j)) - rsum n (fun i => rsum m (fun j => prod k w h i j))).
  { rewrite <- rsum_minus. apply rsum_ext. intros. apply rsum_minus. }
  assert (G' : rsum n (fun i => rsum m (fun j => weight i j * (ln (prod k w' h i j + eps) - ln (prod k w h i j + eps)))) =
    rsum n (fun i => rsum m (fun j => weight i j * ln (prod k w' h i j + eps))) - rsum n (fun i => rsum m (fun j => weight i j * ln (prod k w h i j + eps)))).
  { rewrite <- rsum_minus. apply rsum_ext. intros. rewrite <- rsum_minus. apply rsum_ext. intros; lra. }
  lra.
Qed.
End Step.

Lemma excess_zero n k w h : (forall l, (l < k)%nat -> lsum (row h l) = 1) -> excess n k w h = 0.
Proof.
  intro H. unfold excess, cells. rewrite sum_to_rsum. apply rsum_zero. intros i _. rewrite sum_to_rsum. apply rsum_zero. intros l Hl.
  rewrite H by auto. replace (1 - 1) with 0 by lra. rewrite exp_0. lra.
Qed.
