(** * The number of iterations of a fit: lemmas. *)

From Coq Require Import List ZArith Reals Bool Arith Lia Lra.
Import ListNotations.
From Verif Require Import Py nd_model nd_spec nd_proof sparse_model nmf_model nmf_spec nmf_proof nmf_laws nmf_fit nmf_stop nmfworse_proof.
Local Open Scope R_scope.

Lemma cell_bound eps a p : 0 < eps -> 0 <= a -> 0 <= p -> - eps <= a * ln ((a + eps) / (p + eps)) - a + p.
Proof.
  intros He Ha Hp.
  assert (L : ln ((p + eps) / (a + eps)) <= (p + eps) / (a + eps) - 1) by (apply ln_le_minus, Rdiv_lt_0_compat; lra).
  replace ((a + eps) / (p + eps)) with (/ ((p + eps) / (a + eps))) by (field; lra).
  rewrite ln_Rinv by (apply Rdiv_lt_0_compat; lra).
  assert (M : a * ln ((p + eps) / (a + eps)) <= a * ((p + eps) / (a + eps) - 1)) by (apply Rmult_le_compat_l; lra).
  assert (Q : a * ((p + eps) / (a + eps) - 1) = p - a + eps * ((a - p) / (a + eps))) by (field; lra).
  assert (D : (a - p) / (a + eps) <= 1).
  { apply Rmult_le_reg_r with (a + eps); [lra|]. unfold Rdiv. rewrite Rmult_assoc, Rinv_l by lra. lra. }
  assert (eps * ((a - p) / (a + eps)) <= eps * 1) by (apply Rmult_le_compat_l; lra). lra.
Qed.
Lemma sum_to_bound n f c : (forall i, (i < n)%nat -> c <= f i) -> INR n * c <= sum_to n f.
Proof.
  intro H. unfold sum_to. replace (INR n * c) with (lsum (map (fun _ : nat => c) (seq 0 n))).
  - apply lsum_le. intros i Hi. apply in_seq in Hi. apply H. lia.
  - rewrite lsum_const, seq_length. reflexivity.
Qed.
Lemma divergence_bound eps n k m x w h : 0 < eps -> shape x = [n; m] -> shape w = [n; k] -> shape h = [k; m] ->
  nonneg x -> nonneg w -> nonneg h -> - (INR n * INR m * eps) <= divergence eps n k m x w h.
Proof.
  intros He Sx Sw Sh Nx Nw Nh. unfold divergence, cells. replace (- (INR n * INR m * eps)) with (INR n * (INR m * - eps)) by lra.
  apply sum_to_bound. intros i Hi. apply sum_to_bound. intros j Hj. apply cell_bound; auto.
  - apply Nx. rewrite Sx. cbn. auto.
  - unfold prod. apply Rle_trans with (INR k * 0); [lra|]. apply sum_to_bound. intros l Hl.
    apply Rmult_le_pos; [apply Nw; rewrite Sw|apply Nh; rewrite Sh]; cbn; auto.
Qed.
Lemma runs_bound x n k m fit w h errs w' h' : proper x n m -> nonneg (mvalue x) -> shape w = [n; k] -> shape h = [k; m] ->
  nonneg w -> nonneg h -> runs x n k m fit w h errs w' h' -> Forall (fun e => - (INR n * INR m * / 100000000) <= e) errs.
Proof.
  intros P N Sw Sh Nw Nh R. induction R as [|w h w1 h1 errs w2 h2 S R IH]; constructor.
  - apply divergence_bound; auto; [apply E8|exact (value_shape x n m P)].
  - pose proof S as (S1 & S2 & _). apply IH; auto.
    + exact (step_w_nonneg _ x n k m w h E8 P N Sw Sh Nw Nh fit w1 h1 S).
    + exact (step_h_nonneg _ x n k m w h E8 P N Sw Sh Nw Nh fit w1 h1 S).
Qed.
Lemma spaced_length t b e l : spaced t (e :: l) -> Forall (fun e => b <= e) (e :: l) -> INR (length l) * t <= e - b.
Proof.
  revert e. induction l as [|f l IH]; intros e Sp B.
  - inversion B; subst. cbn. lra.
  - inversion B; subst. assert (Sp' : spaced t (f :: l)).
    { intros i x y Hx Hy. apply (Sp (S i) x y); auto. }
    specialize (IH f Sp' H2). specialize (Sp 0%nat e f eq_refl eq_refl). cbn [length]. rewrite S_INR. lra.
Qed.

Section Call.
Context (rnd : nat -> list nat -> R) (o : nmf) (x : matrix) (weights : R) (scale_W fit : bool) (n m : nat).
Context (P : proper x n m) (N : nonneg (mvalue x)).
Context (Hi : forall d, init_dictionary o = Some d -> shape d = [number o m; m] /\ nonneg d).
Context (Hc : fit = false -> exists c, components o = Some c /\ shape c = [number o m; m] /\ nonneg c).
Context (Hm : (1 <= max_iter o)%Z).
Context (o' : nmf) (w : nd) (errs : list R) (warn : bool) (x' : matrix).
Context (E : fit_transform rnd o x weights scale_W fit = (o', Ok (w, errs, warn, x'))).

Lemma call_bound : Forall (fun e => - (INR n * INR m * / 100000000) <= e) errs /\
  exists e0 l, errs = e0 :: l /\ INR (length l) * (tol o * INR n * INR m) <= e0 + INR n * INR m * / 100000000.
Proof using All.
  destruct (call_runs rnd o x weights scale_W fit n m P N Hi Hc Hm o' w errs warn x' E)
    as (w0 & h0 & hs & h & F & S0 & N0 & FC & Nw & Eh & Ss & Ns & R & Ne & Le & Sp & A & C).
  pose proof (runs_bound x n _ m fit w0 hs errs w h P N (proj1 FC) Ss Nw Ns R) as B. split; [exact B|].
  destruct errs as [|e0 l]; [contradiction|]. exists e0, l. split; auto.
  pose proof (spaced_length _ _ _ _ Sp B). lra.
Qed.
Lemma call_iterations : 0 < tol o -> (0 < n)%nat -> (0 < m)%nat -> exists e0 l, errs = e0 :: l /\
  INR (length l) <= (e0 / (INR n * INR m) + / 100000000) / tol o.
Proof using All.
  intros Ht Hn Hm'. destruct call_bound as (_ & e0 & l & -> & B). exists e0, l. split; auto.
  apply lt_0_INR in Hn, Hm'. apply Rmult_le_reg_r with (tol o * INR n * INR m); [repeat apply Rmult_lt_0_compat; auto|].
  replace ((e0 / (INR n * INR m) + / 100000000) / tol o * (tol o * INR n * INR m)) with (e0 + INR n * INR m * / 100000000)
    by (field; lra). exact B.
Qed.
Lemma call_no_warning : 0 < tol o -> (0 < n)%nat -> (0 < m)%nat -> forall e0 l, errs = e0 :: l ->
  (e0 / (INR n * INR m) + / 100000000) / tol o + 2 < IZR (max_iter o) -> warn = false.
Proof using All.
  intros Ht Hn Hm' e0 l El Hb. destruct (call_iterations Ht Hn Hm') as (e1 & l1 & E1 & B). rewrite El in E1. injection E1 as <- <-.
  destruct (call_signs rnd o x weights scale_W fit n m P N Hi Hc Hm o' w errs warn x' E) as (_ & _ & c & Cc & _).
  pose proof (fit_transform_stop rnd o x weights scale_W fit n m o' w errs warn x' c P N (fun d Hd => proj1 (Hi d Hd))
    ltac:(intro F; destruct (Hc F) as (d & C & S & _); eauto) E Cc) as (_ & W).
  destruct warn; auto. destruct (proj1 W eq_refl) as (_ & M). exfalso. rewrite El in M. cbn [length] in M.
  apply IZR_le in M. rewrite <- INR_IZR_INZ in M. rewrite !S_INR in M. lra.
Qed.
End Call.
