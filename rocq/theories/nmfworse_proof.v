(** * A fit that makes the divergence larger: computations on the witness. *)

From Coq Require Import List ZArith Reals Bool Arith Lia Lra.
Import ListNotations.
From Verif Require Import Py nd_model nd_spec nd_proof sparse_model nmf_model nmf_spec nmf_proof nmf_laws nmf_fit nmf_stop.
Local Open Scope R_scope.

Lemma mul_between a x b c y d : 0 <= a -> 0 <= c -> a <= x <= b -> c <= y <= d -> a * c <= x * y <= b * d.
Proof. intros Ha Hc (X1 & X2) (Y1 & Y2). split; apply Rmult_le_compat; lra. Qed.
Lemma div_between a x b y lo hi : a <= x <= b -> 0 < y -> lo * y <= a -> b <= hi * y -> lo <= x / y <= hi.
Proof.
  intros (X1 & X2) Y L H. split; apply Rmult_le_reg_r with y; auto; unfold Rdiv; rewrite Rmult_assoc, Rinv_l by lra; lra.
Qed.
Ltac between H G X := pose proof (fun a b => mul_between _ _ _ _ _ _ a b H G) as X; specialize (X ltac:(lra) ltac:(lra)).
Lemma ln_le_minus y : 0 < y -> ln y <= y - 1.
Proof.
  intro H. destruct (Req_dec y 1) as [->|N]; [rewrite ln_1; lra|].
  pose proof (exp_ineq1 (y - 1) ltac:(lra)) as E. replace (1 + (y - 1)) with y in E by lra.
  apply ln_increasing in E; auto. rewrite ln_exp in E. lra.
Qed.

Definition bad_data : nd := mat 2 [[0; 50]; [1; 0]].
(** Numbers between 0 and 1 as np.random.random gives: 0 in the first column, 0.99 in the
    others. *)
Definition bad_random : nat -> list nat -> R :=
  fun _ idx => match nth 1 idx 0%nat with 0%nat => 0 | _ => 99 / 100 end.

Section Witness.
Variables (w0 h0 w1 h1 : nd).
Hypothesis F : random_dictionary (bad_random 0) 1 2 h0.
Hypothesis C : first_coefficients 2 1 2 bad_data h0 w0.
Hypothesis S : step (/ 100000000) (Dense bad_data) 2 1 2 true w0 h0 w1 h1.

Let e : R := / 100000000.
Let s : R := / 10000000000000000.
Let t : R := / (101 / 100 + s).

Lemma s_small : 0 < s < / 1000000.
Proof. unfold s. split; [apply Rinv_0_lt_compat; lra|apply Rinv_lt_contravar; lra]. Qed.
Lemma e_small : 0 < e < / 10000000.
Proof. unfold e. split; [apply Rinv_0_lt_compat; lra|apply Rinv_lt_contravar; lra]. Qed.
Lemma t_between : 990 / 1000 <= t <= 9901 / 10000.
Proof.
  pose proof s_small. unfold t. replace (/ (101 / 100 + s)) with (1 / (101 / 100 + s)) by (unfold Rdiv; lra).
  apply (div_between 1 1 1); lra.
Qed.
Lemma h0_values : el h0 [0; 0]%nat = t / 100 /\ el h0 [0; 1]%nat = t.
Proof.
  destruct F as (_ & L). rewrite !L by lia. unfold sum_to, bad_random. cbn [seq map lsum nth].
  rewrite Rabs_R0, (Rabs_right (99 / 100)) by lra. pose proof s_small.
  replace (0 + / 100 + (99 / 100 + / 100 + 0) + / 10000000000000000) with (101 / 100 + s) by (unfold s; lra).
  unfold t. split; field; lra.
Qed.
Lemma w0_values : el w0 [0; 0]%nat = 50 * t /\ el w0 [1; 0]%nat = t / 100.
Proof.
  destruct C as (_ & L), h0_values as (H0 & H1). rewrite !L by lia. unfold sum_to. cbn [seq map lsum]. rewrite H0, H1.
  cbn [bad_data mat el nth]. generalize t. intro u. split; lra.
Qed.

Let r11 := e / (t * t / 2 + e).
Let r12 := (50 + e) / (50 * (t * t) + e).
Let r21 := (1 + e) / (t * t / 10000 + e).
Let r22 := e / (t * t / 100 + e).
Lemma tt_between : 9801 / 10000 <= t * t <= 98031 / 100000.
Proof. between t_between t_between X. lra. Qed.
Lemma r11_between : 0 <= r11 <= / 1000000.
Proof. pose proof tt_between. pose proof e_small. unfold r11. apply (div_between e e e); lra. Qed.
Lemma r12_between : 102 / 100 <= r12 <= 1021 / 1000.
Proof. pose proof tt_between. pose proof e_small. unfold r12. apply (div_between 50 _ (50 + / 10000000)); lra. Qed.
Lemma r21_between : 10190 <= r21 <= 10210.
Proof. pose proof tt_between. pose proof e_small. unfold r21. apply (div_between 1 _ (1 + / 10000000)); lra. Qed.
Lemma r22_between : 0 <= r22 <= / 10000.
Proof. pose proof tt_between. pose proof e_small. unfold r22. apply (div_between e e e); lra. Qed.

Lemma ratios i j : (i < 2)%nat -> (j < 2)%nat -> ratio_of (Dense bad_data) (/ 100000000) 1 (mvalue (Dense bad_data)) w0 h0 i j =
  match i, j with 0, 0 => r11 | 0, _ => r12 | _, 0 => r21 | _, _ => r22 end%nat.
Proof.
  intros Hi Hj. destruct h0_values as (H0 & H1), w0_values as (W0 & W1). fold e.
  destruct i as [|[|i]], j as [|[|j]]; try lia; unfold ratio_of, ratio, prod, sum_to; cbn [seq map lsum mvalue];
    rewrite ?H0, ?H1, ?W0, ?W1; unfold r11, r12, r21, r22; cbn [bad_data mat el nth]; f_equal; lra.
Qed.

Let W1 := 50 * t * (r11 * (t / 100) + r12 * t).
Let W2 := t / 100 * (r21 * (t / 100) + r22 * t).
Let A1 := t / 100 * (W1 * r11 + W2 * r21).
Let A2 := t * (W1 * r12 + W2 * r22).
Lemma w1_values : el w1 [0; 0]%nat = W1 /\ el w1 [1; 0]%nat = W2.
Proof.
  destruct S as (_ & _ & L & _), h0_values as (H0 & H1), w0_values as (V0 & V1). rewrite !L by lia.
  unfold new_coefficient, sum_to. cbn [seq map lsum]. rewrite !ratios by lia. rewrite H0, H1, V0, V1. unfold W1, W2. split; lra.
Qed.
Lemma h1_values : el h1 [0; 0]%nat = A1 / (A1 + A2 + s) /\ el h1 [0; 1]%nat = A2 / (A1 + A2 + s).
Proof.
  destruct S as (_ & _ & _ & L), h0_values as (H0 & H1), w1_values as (V0 & V1). rewrite !L by lia.
  unfold sum_to at 1 2, raw_atom, sum_to. cbn [seq map lsum]. rewrite !ratios by lia. rewrite H0, H1, V0, V1.
  fold s. unfold A1, A2. rewrite !Rplus_0_r. split; reflexivity.
Qed.
Lemma W1_between : 499 / 10 <= W1 <= 501 / 10.
Proof.
  pose proof tt_between as T. pose proof r11_between as R1. pose proof r12_between as R2.
  replace W1 with (t * t * (r11 / 2 + 50 * r12)) by (unfold W1; lra).
  pose proof (mul_between (9801 / 10000) (t * t) (98031 / 100000) 51 (r11 / 2 + 50 * r12) (51051 / 1000)). lra.
Qed.
Lemma W2_between : 99 / 100 <= W2 <= 101 / 100.
Proof.
  pose proof tt_between as T. pose proof r21_between as R1. pose proof r22_between as R2.
  replace W2 with (t * t * (r21 / 10000 + r22 / 100)) by (unfold W2; lra).
  pose proof (mul_between (9801 / 10000) (t * t) (98031 / 100000) (1019 / 1000) (r21 / 10000 + r22 / 100) (10211 / 10000)). lra.
Qed.
Lemma A1_between : 99 <= A1 <= 103.
Proof.
  pose proof t_between as T. pose proof r21_between as R1. pose proof r11_between as R2. pose proof W1_between as B1. pose proof W2_between as B2.
  pose proof (mul_between (499 / 10) W1 (501 / 10) 0 r11 (/ 1000000) ltac:(lra) ltac:(lra) B1 R2).
  pose proof (mul_between (99 / 100) W2 (101 / 100) 10190 r21 10210 ltac:(lra) ltac:(lra) B2 R1).
  pose proof (mul_between (99 / 10000) (t / 100) (9901 / 1000000) 10088 (W1 * r11 + W2 * r21) 10313). unfold A1. lra.
Qed.
Lemma A2_between : 50 <= A2 <= 51.
Proof.
  pose proof t_between as T. pose proof r12_between as R1. pose proof r22_between as R2. pose proof W1_between as B1. pose proof W2_between as B2.
  pose proof (mul_between (499 / 10) W1 (501 / 10) (102 / 100) r12 (1021 / 1000) ltac:(lra) ltac:(lra) B1 R1).
  pose proof (mul_between (99 / 100) W2 (101 / 100) 0 r22 (/ 10000) ltac:(lra) ltac:(lra) B2 R2).
  pose proof (mul_between (990 / 1000) t (9901 / 10000) (508 / 10) (W1 * r12 + W2 * r22) (5116 / 100)). unfold A2. lra.
Qed.
Let H1 := A1 / (A1 + A2 + s).
Let H2 := A2 / (A1 + A2 + s).
Lemma H2_between : 0 <= H2 <= 35 / 100.
Proof. pose proof A1_between. pose proof A2_between. pose proof s_small. unfold H2. apply (div_between A2 A2 A2); lra. Qed.
Lemma H1_between : 0 <= H1 <= 1.
Proof. pose proof A1_between. pose proof A2_between. pose proof s_small. unfold H1. apply (div_between A1 A1 A1); lra. Qed.
Lemma H12_between : 999 / 1000 <= H1 + H2 <= 1.
Proof.
  pose proof A1_between. pose proof A2_between. pose proof s_small. unfold H1, H2.
  replace (A1 / (A1 + A2 + s) + A2 / (A1 + A2 + s)) with ((A1 + A2) / (A1 + A2 + s)) by (field; lra).
  apply (div_between (A1 + A2) (A1 + A2) (A1 + A2)); lra.
Qed.

Lemma divergence_before : divergence (/ 100000000) 2 1 2 bad_data w0 h0 =
  t * t / 2 + (50 * ln r12 - 50 + 50 * (t * t)) + (ln r21 - 1 + t * t / 10000) + t * t / 100.
Proof.
  destruct h0_values as (E0 & E1), w0_values as (V0 & V1). fold e.
  unfold divergence, cells, prod, sum_to. cbn [seq map lsum]. rewrite E0, E1, V0, V1. cbn [bad_data mat el nth]. unfold r12, r21.
  replace (50 * t * t + 0 + e) with (50 * (t * t) + e) by lra.
  replace (t / 100 * (t / 100) + 0 + e) with (t * t / 10000 + e) by lra. lra.
Qed.
Lemma divergence_after : divergence (/ 100000000) 2 1 2 bad_data w1 h1 =
  W1 * (H1 + H2) - 50 + 50 * ln ((50 + e) / (W1 * H2 + e)) + (ln ((1 + e) / (W2 * H1 + e)) - 1) + W2 * (H1 + H2).
Proof.
  destruct h1_values as (E0 & E1), w1_values as (V0 & V1). fold e.
  unfold divergence, cells, prod, sum_to. cbn [seq map lsum]. rewrite E0, E1, V0, V1. fold H1 H2. cbn [bad_data mat el nth].
  rewrite !Rplus_0_r. lra.
Qed.
Lemma ln_r21 : ln r21 <= 14.
Proof.
  pose proof r21_between. apply Rle_trans with (ln (2 ^ 14)).
  - apply Rlt_le, ln_increasing; lra.
  - rewrite <- Rpower_pow by lra. unfold Rpower. rewrite ln_exp. pose proof (ln_le_minus 2 ltac:(lra)). cbn [INR]. lra.
Qed.
Lemma before_small : divergence (/ 100000000) 2 1 2 bad_data w0 h0 <= 16.
Proof.
  rewrite divergence_before. pose proof ln_r21. pose proof tt_between. pose proof r12_between.
  pose proof (ln_le_minus r12 ltac:(lra)). lra.
Qed.
Lemma after_large : 20 <= divergence (/ 100000000) 2 1 2 bad_data w1 h1.
Proof.
  rewrite divergence_after. pose proof W1_between as B1. pose proof W2_between as B2. pose proof H1_between as G1.
  pose proof H2_between as G2. pose proof H12_between as G. pose proof e_small as E.
  let X := fresh in between B1 G X.
  let X := fresh in between B2 G X.
  between B1 G2 P12.
  between B2 G1 P21.
  assert (L1 : / 2 <= ln ((50 + e) / (W1 * H2 + e))).
  { pose proof ln_lt_2. apply Rle_trans with (ln 2); [lra|].
    assert (Q : 2 < (50 + e) / (W1 * H2 + e)).
    { apply Rmult_lt_reg_r with (W1 * H2 + e); [lra|]. unfold Rdiv. rewrite Rmult_assoc, Rinv_l by lra. lra. }
    apply Rlt_le, ln_increasing; lra. }
  assert (L2 : -1 <= ln ((1 + e) / (W2 * H1 + e))).
  { pose proof (ln_le_minus 2 ltac:(lra)). apply Rle_trans with (ln (/ 2)); [rewrite ln_Rinv by lra; lra|].
    assert (Q : / 2 < (1 + e) / (W2 * H1 + e)).
    { apply Rmult_lt_reg_r with (W2 * H1 + e); [lra|]. unfold Rdiv. rewrite Rmult_assoc, Rinv_l by lra. lra. }
    apply Rlt_le, ln_increasing; lra. }
  lra.
Qed.
End Witness.

Lemma fit_worse t i weights scale_W : 0 <= t -> (1 <= i)%Z ->
  exists o' w e warn x' c,
    fit_transform bad_random (nmf_new (Some 1%nat) t i 0) (Dense bad_data) weights scale_W true = (o', Ok (w, [e], warn, x')) /\
    components o' = Some c /\ e + 4 <= divergence (/ 100000000) 2 1 2 bad_data w c.
Proof.
  intros Ht Hi.
  assert (N : nonneg bad_data).
  { apply (nonneg2 bad_data 2 2 eq_refl). intros [|[|a]] [|[|b]] Ha Hb; try lia; cbn; lra. }
  destruct (fit_transform_value bad_random (nmf_new (Some 1%nat) t i 0) (Dense bad_data) weights scale_W true 2 2 eq_refl N)
    as (o' & w & errs & warn & x' & w0 & h0 & h & E & Fd & _ & Fc & Rn & Ne & _ & Sp & _ & Co & _);
    [discriminate|discriminate|exact Hi|].
  cbn in Fd, Fc, Rn. inversion Rn as [|? ? w1 h1 errs' ? ? St Rn']; subst; [contradiction|].
  pose proof (before_small w0 h0 Fd Fc) as B.
  pose proof (after_large w0 h0 w1 h1 Fd Fc St) as A.
  inversion Rn' as [|? ? w2 h2 errs2 ? ? St2 Rn2]; subst.
  - exists o', w, (divergence (/ 100000000) 2 1 2 bad_data w0 h0), warn, x', h. split; [exact E|]. split; [exact Co|]. lra.
  - specialize (Sp 0%nat _ _ eq_refl eq_refl). cbn [tol nmf_new mvalue] in Sp.
    assert (0 <= t * INR 2 * INR 2) by (cbn; lra). lra.
Qed.

(** An exact factorisation does not move. *)
Lemma exact_stays eps (x w h : nd) n k m : 0 < eps -> shape x = [n; m] -> shape w = [n; k] -> shape h = [k; m] ->
  nonneg x -> (forall i j, (i < n)%nat -> (j < m)%nat -> el x [i; j] = prod k w h i j) ->
  (forall l, (l < k)%nat -> lsum (row h l) = 1) ->
  exists w' h', update eps (Dense x) w h true = Ok (w', h') /\
    (forall i l, (i < n)%nat -> (l < k)%nat -> el w' [i; l] = el w [i; l]) /\
    (forall l j, (l < k)%nat -> (j < m)%nat ->
       el h' [l; j] = el h [l; j] * (lsum (col w l) / (lsum (col w l) + / 10000000000000000))).
Proof.
  intros He Sx Sw Sh Nx X U. destruct (update_value eps (Dense x) w h n k m true Sx Sw Sh) as (w' & h' & E & S).
  exists w', h'. split; [exact E|]. destruct S as (_ & _ & L & M).
  assert (Q : forall i j, (i < n)%nat -> (j < m)%nat -> ratio_of (Dense x) eps k (mvalue (Dense x)) w h i j = 1).
  { intros i j Hi Hj. unfold ratio_of, ratio. cbn [mvalue]. rewrite <- X by auto.
    assert (0 <= el x [i; j]) by (apply Nx; rewrite Sx; cbn; auto). field. lra. }
  assert (V : forall i l, (i < n)%nat -> (l < k)%nat -> el w' [i; l] = el w [i; l]).
  { intros i l Hi Hl. rewrite L by auto. unfold new_coefficient, sum_to.
    rewrite (lsum_ext _ (fun j => el h [l; j])) by (intros j Hj; apply in_seq in Hj; rewrite Q by lia; lra).
    specialize (U l Hl). unfold row in U. rewrite Sh in U. cbn [nth] in U. rewrite U. lra. }
  split; [exact V|]. intros l j Hl Hj. rewrite M by auto.
  assert (A : forall j, (j < m)%nat ->
    raw_atom (ratio_of (Dense x) eps k (mvalue (Dense x)) w h) n w' h l j = lsum (col w l) * el h [l; j]).
  { intros j' Hj'. unfold raw_atom, sum_to. rewrite (lsum_ext _ (fun i => el w [i; l])).
    - unfold col. rewrite Sw. cbn [nth]. lra.
    - intros i Hi. apply in_seq in Hi. rewrite Q, V by lia. lra. }
  rewrite A by auto. unfold sum_to.
  rewrite (lsum_ext _ (fun j => lsum (col w l) * el h [l; j])) by (intros j' Hj'; apply in_seq in Hj'; apply A; lia).
  rewrite lsum_map_scal. specialize (U l Hl). unfold row in U. rewrite Sh in U. cbn [nth] in U. rewrite U, Rmult_1_r. unfold Rdiv. lra.
Qed.
