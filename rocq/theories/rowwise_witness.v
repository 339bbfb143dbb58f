(** * A sample whose coefficients depend on the other samples: computations on the witness. *)

From Coq Require Import List ZArith Reals Bool Arith Lia Lra.
Import ListNotations.
From Verif Require Import Py nd_model nd_spec nd_proof sparse_model nmf_model nmf_spec nmf_proof nmf_laws nmf_fit nmf_stop nmfworse_proof rowwise_proof.
Local Open Scope R_scope.

Definition two_atoms : nd := mat 2 [[1; 0]; [/ 2; / 2]].
(** The sample (1, 0), followed by [z] samples that are zero. *)
Definition padded (z : nat) : nd := mat 2 ([1; 0] :: repeat [0; 0] z).

Lemma padded_first z : el (padded z) [0; 0]%nat = 1 /\ el (padded z) [0; 1]%nat = 0.
Proof. split; reflexivity. Qed.
Lemma nth_pair_repeat z i j : nth j (nth i (repeat [0; 0] z) []) 0 = 0.
Proof. revert i. induction z as [|z IH]; intros [|i]; cbn [repeat nth]; try (destruct j as [|[|[|j]]]; reflexivity). apply IH. Qed.
Lemma padded_zero z i j : el (padded z) [S i; j] = 0.
Proof. cbn. apply nth_pair_repeat. Qed.
Lemma padded_nonneg z : nonneg (padded z).
Proof.
  apply (nonneg2 (padded z) (length ([1; 0] :: repeat [0; 0] z)) 2 eq_refl). intros [|i] j Hi Hj; [|rewrite padded_zero; lra].
  destruct j as [|[|j]]; try lia; cbn; lra.
Qed.
Lemma padded_shape z : shape (padded z) = [S z; 2]%nat.
Proof. cbn. now rewrite repeat_length. Qed.
Lemma atoms_nonneg : nonneg two_atoms.
Proof. apply (nonneg2 two_atoms 2 2 eq_refl). intros [|[|i]] [|[|j]] Hi Hj; try lia; cbn; lra. Qed.

Section Witness.
Context (z : nat) (w0 w1 w2 h1 h2 : nd).
Context (C : first_coefficients (S z) 2 2 (padded z) two_atoms w0).
Context (S1 : step (/ 100000000) (Dense (padded z)) (S z) 2 2 false w0 two_atoms w1 h1).
Context (S2 : step (/ 100000000) (Dense (padded z)) (S z) 2 2 false w1 h1 w2 h2).
Let e : R := / 100000000.
Let a : R := (1 + e) / (5 / 4 + e).
Let b : R := e / (/ 4 + e).
Let p : R := a + (a + b) / 8.
Let c : R := (1 + e) / (p + e).
Lemma e_range : 0 < e < / 10000000.
Proof using. unfold e. split; [apply Rinv_0_lt_compat; lra|apply Rinv_lt_contravar; lra]. Qed.
Lemma a_range : 799 / 1000 <= a <= 801 / 1000.
Proof using. pose proof e_range. unfold a. apply (div_between (1 + e) _ (1 + e)); lra. Qed.
Lemma b_range : 0 <= b <= / 100000.
Proof using. pose proof e_range. unfold b. apply (div_between e e e); lra. Qed.
Lemma p_range : 898 / 1000 <= p <= 902 / 1000.
Proof using. pose proof a_range. pose proof b_range. unfold p. lra. Qed.
Lemma c_range : 1108 / 1000 <= c <= 1115 / 1000.
Proof using. pose proof p_range. pose proof e_range. unfold c. apply (div_between (1 + e) _ (1 + e)); lra. Qed.
Lemma ac_range : 88 / 100 <= a * c.
Proof using. pose proof a_range as A. pose proof c_range as B. pose proof (mul_between (799 / 1000) a (801 / 1000) (1108 / 1000) c (1115 / 1000) ltac:(lra) ltac:(lra) A B). lra. Qed.

Lemma w0_first : el w0 [0; 0]%nat = 1 /\ el w0 [0; 1]%nat = / 2.
Proof using C. destruct C as (_ & L). rewrite !L by lia. unfold sum_to. cbn. lra. Qed.
Lemma w0_zero i l : (i < z)%nat -> (l < 2)%nat -> el w0 [S i; l] = 0.
Proof using C. intros Hi Hl. destruct C as (_ & L). rewrite L by lia. unfold sum_to. cbn [seq map lsum]. rewrite !padded_zero. lra. Qed.
Lemma h1_same : h1 = two_atoms.
Proof using S1. exact (proj2 (proj2 (proj2 S1))). Qed.
Lemma w1_first : el w1 [0; 0]%nat = a /\ el w1 [0; 1]%nat = (a + b) / 4.
Proof using C S1.
  destruct S1 as (_ & _ & L & _), w0_first as (A & B). rewrite !L by lia. unfold new_coefficient, ratio_of, ratio, prod, sum_to.
  cbn [seq map lsum mvalue]. rewrite A, B, (proj1 (padded_first z)), (proj2 (padded_first z)). cbn [two_atoms mat el nth]. fold e.
  replace (1 * 1 + (/ 2 * / 2 + 0) + e) with (5 / 4 + e) by lra. replace (1 * 0 + (/ 2 * / 2 + 0) + e) with (/ 4 + e) by lra.
  replace (0 + e) with e by lra. fold a b. generalize a b. intros. split; lra.
Qed.
Lemma w1_zero i l : (i < z)%nat -> (l < 2)%nat -> el w1 [S i; l] = 0.
Proof using C S1. intros Hi Hl. destruct S1 as (_ & _ & L & _). rewrite L by lia. unfold new_coefficient. rewrite w0_zero by auto. lra. Qed.
Lemma w2_first : el w2 [0; 0]%nat = a * c.
Proof using C S1 S2.
  destruct S2 as (_ & _ & L & _), w1_first as (A & B). rewrite !L by lia. rewrite h1_same. unfold new_coefficient, ratio_of, ratio, prod, sum_to.
  cbn [seq map lsum mvalue]. rewrite A, B, (proj1 (padded_first z)), (proj2 (padded_first z)). cbn [two_atoms mat el nth]. fold e.
  replace (a * 1 + ((a + b) / 4 * / 2 + 0) + e) with (p + e) by (unfold p; lra). fold c. rewrite Rmult_0_r. generalize a c. intros. lra.
Qed.
Lemma divergence_first w p' q' : (forall i l, (i < z)%nat -> (l < 2)%nat -> el w [S i; l] = 0) ->
  el w [0; 0]%nat + el w [0; 1]%nat / 2 = p' -> el w [0; 1]%nat / 2 = q' ->
  divergence (/ 100000000) (S z) 2 2 (padded z) w two_atoms = ln ((1 + e) / (p' + e)) - 1 + p' + q'.
Proof using.
  intros Z Hp Hq. unfold divergence, cells. unfold sum_to at 1. rewrite <- cons_seq. cbn [map lsum].
  rewrite lsum_zero.
  - unfold prod, sum_to. cbn [seq map lsum]. rewrite (proj1 (padded_first z)), (proj2 (padded_first z)). cbn [two_atoms mat el nth]. fold e.
    replace (el w [0; 0]%nat * 1 + (el w [0; 1]%nat * / 2 + 0)) with p' by lra.
    replace (el w [0; 0]%nat * 0 + (el w [0; 1]%nat * / 2 + 0)) with q' by lra.
    generalize (ln ((1 + e) / (p' + e))) (ln ((0 + e) / (q' + e))). intros. lra.
  - intros i Hi. apply in_seq in Hi. destruct i as [|i]; [lia|]. unfold prod, sum_to. cbn [seq map lsum].
    rewrite !padded_zero, !Z by lia. lra.
Qed.
Lemma drop_range : / 10 <= divergence (/ 100000000) (S z) 2 2 (padded z) w0 two_atoms - divergence (/ 100000000) (S z) 2 2 (padded z) w1 two_atoms < 3 / 10.
Proof using C S1.
  destruct w0_first as (A0 & B0), w1_first as (A1 & B1). pose proof e_range as He. pose proof a_range as Ha. pose proof b_range as Hb. pose proof p_range as Hp.
  rewrite (divergence_first w0 (5 / 4) (/ 4) w0_zero) by (rewrite ?A0, ?B0; lra).
  rewrite (divergence_first w1 p ((a + b) / 8) w1_zero) by (rewrite ?A1, ?B1; unfold p; lra).
  set (g := (p + e) / (5 / 4 + e)).
  assert (G : 718 / 1000 <= g <= 722 / 1000) by (unfold g; apply (div_between (p + e) _ (p + e)); lra).
  assert (E : ln ((1 + e) / (5 / 4 + e)) = ln g + ln ((1 + e) / (p + e))).
  { rewrite <- ln_mult; [f_equal; unfold g; field; lra|lra|apply Rdiv_lt_0_compat; lra]. }
  rewrite E. pose proof (ln_le_minus g ltac:(lra)) as U. pose proof (ln_le_minus (/ g) ltac:(apply Rinv_0_lt_compat; lra)) as V.
  rewrite ln_Rinv in V by lra. assert (I : / g <= 1393 / 1000).
  { replace (1393 / 1000) with (/ (1000 / 1393)) by lra. apply Rinv_le_contravar; lra. }
  assert (Q : 1497 / 1000 <= 1 / 2 + p + (a + b) / 8 <= 1503 / 1000) by (unfold p; lra).
  revert Q U V I G. generalize (ln ((1 + e) / (p + e))) (ln g) (/ g) ((a + b) / 8). intros. lra.
Qed.
End Witness.

(** The call on that data: [tol] = 0.05 and at most two iterations. *)
Definition early : nmf := Nmf (Some 2%nat) None (Some two_atoms) (/ 20) 2 (/ 100000000) 0.
Lemma early_call rnd weights sw z : exists o' w errs b y, transform rnd early (Dense (padded z)) weights sw = (o', Ok (w, errs, b, y)) /\
  (z = 0%nat -> length errs = 2%nat /\ 88 / 100 <= el w [0; 0]%nat) /\ (z = 2%nat -> length errs = 1%nat /\ el w [0; 0]%nat <= 81 / 100).
Proof.
  unfold transform. cbn [components early]. set (o2 := set_init (Some two_atoms) early).
  assert (P : proper (Dense (padded z)) (S z) 2) by apply padded_shape.
  assert (I : forall d, init_dictionary o2 = Some d -> shape d = [number o2 2; 2]%nat) by (intros d H; injection H as <-; reflexivity).
  assert (F : false = false -> exists d, components o2 = Some d /\ shape d = [number o2 2; 2]%nat) by (intros _; exists two_atoms; split; reflexivity).
  destruct (fit_transform_value rnd o2 (Dense (padded z)) weights sw false (S z) 2 P (padded_nonneg z) I F ltac:(cbn; lia))
    as (o' & w & errs & b & y & w0 & h0 & h & E & Fd & _ & FC & R & Ne & Le & Sp & _ & Co & _).
  exists o', w, errs, b, y. split; [exact E|].
  pose proof (proj1 (fit_transform_stop rnd o2 (Dense (padded z)) weights sw false (S z) 2 o' w errs b y two_atoms P (padded_nonneg z) I F E Co)) as St.
  unfold first_dictionary in Fd. cbn in Fd. subst h0. cbn [components o2 set_init early] in R. change (number o2 2) with 2%nat in *.
  change (tol o2) with (/ 20) in *. change (max_iter o2) with 2%Z in *. change (Z.to_nat 2) with 2%nat in *. cbn [mvalue] in *.
  inversion R as [|v0 g0 w1 h1 errs1 v2 g2 S1 R1]; subst; [contradiction|].
  pose proof (drop_range z w0 w1 h1 FC S1) as D. pose proof (h1_same z w0 w1 h1 S1) as H1. subst h1.
  inversion R1 as [|v1 g1 w2 h2 errs2 v3 g3 S2 R2]; subst.
  - split; intros ->.
    + exfalso. destruct St as [St|(e & (l0 & El) & Lt)]; [discriminate|]. destruct l0 as [|? [|? ?]]; try discriminate. cbn [app] in El.
      injection El as <-. cbn [INR] in Lt. lra.
    + split; [reflexivity|]. rewrite (proj1 (w1_first 2 w0 w _ FC S1)). pose proof a_range. lra.
  - destruct errs2; [|cbn in Le; lia]. inversion R2; subst. split; intros ->.
    + split; [reflexivity|]. rewrite (w2_first 0 w0 w1 w _ _ FC S1 S2).
      exact ac_range.
    + exfalso. specialize (Sp 0%nat _ _ eq_refl eq_refl). cbn [INR mvalue] in Sp. lra.
Qed.
