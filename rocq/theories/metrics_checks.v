(** * Proofs about the tests at the beginning of mutual_information and conditional_entropy. *)

From Coq Require Import List ZArith Reals Lra Lia Bool.
Import ListNotations.
From Verif Require Import Py nd_model nd_spec nd_proof metrics_model metrics_spec metrics_proof.
Open Scope py_scope.
Local Open Scope R_scope.

Lemma allclose_one t : allclose t 1 = true <-> Rabs (t - 1) <= 1001 / 100000000.
Proof.
  unfold allclose, Rle_bool. rewrite Rabs_R1. destruct (Rle_dec _ _) as [H|H]; split; intro K; auto; try discriminate; lra.
Qed.
Lemma mi_refused h : length (shape h) <> 2%nat \/ 1001 / 100000000 < Rabs (total h - 1) -> mutual_information h = Err AssertionError.
Proof.
  intro H. unfold mutual_information, ndim. destruct (Nat.eqb_spec (length (shape h)) 2) as [E|E]; [|reflexivity]. cbn [negb].
  rewrite sum_over_total. destruct (allclose (total h) 1) eqn:A; [|reflexivity]. apply allclose_one in A. destruct H; [contradiction|lra].
Qed.
Lemma mi_accepted h n m : shape h = [n; m] -> Rabs (total h - 1) <= 1001 / 100000000 -> exists v, mutual_information h = Ok v.
Proof.
  intros Sh T. unfold mutual_information, ndim. rewrite sum_over_total, (proj2 (allclose_one _) T), Sh. cbn [length Nat.eqb negb].
  pose proof (sum_axis_some h 0) as H0. rewrite Sh in H0. cbn [length] in H0. change (axis_number 2 0) with (Some 0%nat) in H0. cbn beta iota in H0.
  destruct H0 as (s0 & -> & S0 & L0). cbn [bind].
  pose proof (sum_axis_some h 1) as H1. rewrite Sh in H1. cbn [length] in H1. change (axis_number 2 1) with (Some 1%nat) in H1. cbn beta iota in H1.
  destruct H1 as (s1 & -> & S1 & L1). cbn [bind].
  change (remove 0 [n; m]) with [m] in S0. change (remove 1 [n; m]) with [n] in S1.
  unfold expand_dims, ndim. rewrite S0, S1. cbn [length]. change (norm_axis 2 0) with (Ok 0%nat). change (norm_axis 2 1) with (Ok 1%nat). cbn [bind].
  change (insert 0 1 [m]) with [1%nat; m]. change (insert 1 1 [n]) with [n; 1%nat].
  set (zeros := map1 _ h).
  destruct (map2_bcast Rmult (Nd [1%nat; m] (fun idx => el s0 (remove 0 idx))) (Nd [n; 1%nat] (fun idx => el s1 (remove 1 idx))) [n; m]) as (p & -> & Sp & Lp).
  { unfold bcast. cbn. destruct m as [|[|m]]; cbn; auto; destruct n as [|[|n]]; cbn; auto. }
  cbn [bind]. assert (Sz : shape zeros = [n; m]) by exact Sh.
  destruct (map2_same Rplus p zeros) as (den & -> & Sden & Lden); [congruence|]. cbn [bind].
  destruct (map2_same Rplus h zeros) as (num & -> & Snum & Lnum); [congruence|]. cbn [bind].
  destruct (map2_same Rdiv num den) as (q & -> & Sq & Lq); [congruence|]. cbn [bind].
  destruct (map2_same Rmult h (map1 ln q)) as (M & -> & SM & LM); [cbn; congruence|]. cbn [bind]. eauto.
Qed.
Lemma ce_refused h axis : 1001 / 100000000 < Rabs (total h - 1) -> conditional_entropy h axis = Err AssertionError.
Proof.
  intro H. unfold conditional_entropy. rewrite sum_over_total. destruct (allclose (total h) 1) eqn:A; [|reflexivity]. apply allclose_one in A. lra.
Qed.
Lemma ce_bad_axis h z : axis_number (length (shape h)) z = None -> Rabs (total h - 1) <= 1001 / 100000000 -> conditional_entropy h z = Err ValueError.
Proof.
  intros N T. unfold conditional_entropy, ndim. rewrite sum_over_total, (proj2 (allclose_one _) T). cbn [negb]. now rewrite norm_axis_number, N.
Qed.
