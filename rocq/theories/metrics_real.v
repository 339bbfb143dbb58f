(** * Real inequalities behind the metrics. *)

From Coq Require Import List ZArith Reals Lia Lra Permutation.
Import ListNotations.
From Verif Require Import nd_spec metrics_spec nd_model nd_proof.
Local Open Scope R_scope.

Lemma ln_le_sub1 x : 0 < x -> ln x <= x - 1.
Proof.
  intro H. pose proof (exp_ineq1_le (ln x)) as E. rewrite exp_ln in E by auto. lra.
Qed.
Lemma ln_lt_sub1 x : 0 < x -> x <> 1 -> ln x < x - 1.
Proof.
  intros H N. assert (ln x <> 0). { intro E. apply N. apply ln_inv; try lra. rewrite ln_1. auto. }
  pose proof (exp_ineq1 (ln x) H0) as E. rewrite exp_ln in E by auto. lra.
Qed.
Lemma ln_div a b : 0 < a -> 0 < b -> ln (a / b) = ln a - ln b.
Proof. intros. unfold Rdiv. rewrite ln_mult, ln_Rinv; auto. now apply Rinv_0_lt_compat. Qed.
(** a ln(a/b) >= a - b. *)
Lemma gibbs_term a b : 0 < a -> 0 < b -> a - b <= a * ln (a / b).
Proof.
  intros Ha Hb. assert (0 < b / a) by (apply Rdiv_lt_0_compat; auto). pose proof (ln_le_sub1 (b / a) H) as E.
  rewrite ln_div in E by auto. rewrite ln_div by auto.
  assert (a * (ln b - ln a) <= a * (b / a - 1)) by (apply Rmult_le_compat_l; lra).
  replace (a * (b / a - 1)) with (b - a) in H0 by (field; lra). lra.
Qed.
Lemma gibbs_term_eq a b : 0 < a -> 0 < b -> a * ln (a / b) = a - b -> a = b.
Proof.
  intros Ha Hb E. destruct (Req_EM_T a b) as [|N]; auto. exfalso.
  assert (P : 0 < b / a) by (apply Rdiv_lt_0_compat; auto).
  assert (Q : b / a <> 1). { intro Z. apply N. apply (Rmult_eq_compat_l a) in Z. field_simplify in Z; lra. }
  pose proof (ln_lt_sub1 (b / a) P Q) as L. rewrite ln_div in L by auto. rewrite ln_div in E by auto.
  assert (a * (ln b - ln a) < a * (b / a - 1)) by (apply Rmult_lt_compat_l; lra).
  replace (a * (b / a - 1)) with (b - a) in H by (field; lra). lra.
Qed.

(** ** Entropy. *)
Definition plogp (p : R) : R := if Req_EM_T p 0 then 0 else - (p * ln p).
Lemma plogp_0 : plogp 0 = 0.
Proof. unfold plogp. destruct (Req_EM_T 0 0); lra. Qed.
Lemma plogp_pos p : p <> 0 -> plogp p = - (p * ln p).
Proof. unfold plogp. destruct (Req_EM_T p 0); tauto. Qed.
Lemma shannon_plogp l : shannon l = lsum (map plogp l).
Proof. reflexivity. Qed.
Lemma plogp_nonneg p : 0 <= p <= 1 -> 0 <= plogp p.
Proof.
  intros [H0 H1]. unfold plogp. destruct (Req_EM_T p 0); [lra|].
  assert (ln p <= 0). { rewrite <- ln_1. destruct H1 as [H1|H1]; [left; apply ln_increasing; lra|subst; lra]. }
  assert (0 <= p * - ln p) by (apply Rmult_le_pos; lra). lra.
Qed.
Lemma plogp_zero p : 0 <= p <= 1 -> plogp p = 0 -> p = 0 \/ p = 1.
Proof.
  intros [H0 H1]. unfold plogp. destruct (Req_EM_T p 0) as [|N]; [auto|]. intro E.
  assert (p * ln p = 0) by lra. apply Rmult_integral in H as [H|H]; [auto|]. right. apply ln_inv; try lra. rewrite ln_1. auto.
Qed.
Lemma probability_le1 l p : probability l -> In p l -> 0 <= p <= 1.
Proof.
  intros [H E] Hi. split; [exact (proj1 (Forall_forall _ _) H p Hi)|]. rewrite <- E. apply lsum_ge_in; auto.
Qed.
Lemma shannon_nonneg l : probability l -> 0 <= shannon l.
Proof.
  intro P. rewrite shannon_plogp. apply lsum_nonneg. apply Forall_forall. intros v Hv. apply in_map_iff in Hv as (p & <- & Hp).
  apply plogp_nonneg. eapply probability_le1; eauto.
Qed.
Lemma shannon_zero l : probability l -> (shannon l = 0 <-> exists l1 l2, l = l1 ++ 1 :: l2 /\ Forall (fun v => v = 0) (l1 ++ l2)).
Proof.
  intro P. rewrite shannon_plogp. split.
  - intro E. assert (F : Forall (fun v => v = 0) (map plogp l)).
    { apply lsum_pos_zero; auto. apply Forall_forall. intros v Hv. apply in_map_iff in Hv as (p & <- & Hp).
      apply plogp_nonneg. eapply probability_le1; eauto. }
    assert (G : forall p, In p l -> p = 0 \/ p = 1).
    { intros p Hp. apply plogp_zero; [eapply probability_le1; eauto|]. apply (proj1 (Forall_forall _ _) F). now apply in_map. }
    assert (In 1 l).
    { destruct (in_dec Req_EM_T 1 l) as [|N]; auto. exfalso. destruct P as [_ P].
      assert (lsum (map (fun x => x) l) = 0). { apply lsum_zero. intros x Hx. destruct (G x Hx); subst; tauto. }
      rewrite map_id in H. lra. }
    apply in_split in H as (l1 & l2 & ->). exists l1, l2. split; auto. destruct P as [P1 P2].
    rewrite lsum_app in P2. cbn in P2. apply lsum_pos_zero.
    + apply Forall_app in P1 as [P1 P3]. inversion P3; subst. apply Forall_app. auto.
    + rewrite lsum_app. lra.
  - intros (l1 & l2 & -> & F). apply Forall_app in F as [F1 F2]. rewrite map_app, lsum_app. cbn.
    rewrite !lsum_zero, plogp_pos, ln_1; [lra|lra| |]; intros x Hx.
    + rewrite (proj1 (Forall_forall _ _) F2 x Hx). apply plogp_0.
    + rewrite (proj1 (Forall_forall _ _) F1 x Hx). apply plogp_0.
Qed.
Lemma shannon_le_term n p : 0 < n -> 0 <= p -> plogp p <= p * ln n + / n - p.
Proof.
  intros Hn Hp. assert (0 < / n) by (apply Rinv_0_lt_compat; auto). unfold plogp. destruct (Req_EM_T p 0).
  - subst. lra.
  - pose proof (gibbs_term p (/ n) ltac:(lra) H). rewrite ln_div, ln_Rinv in H0 by lra. lra.
Qed.
Lemma shannon_le l : probability l -> shannon l <= ln (INR (length l)).
Proof.
  intros [H E]. assert (Hn : 0 < INR (length l)). { apply lt_0_INR. destruct l; cbn in *; [lra|lia]. }
  set (n := INR (length l)) in *. rewrite shannon_plogp.
  apply Rle_trans with (lsum (map (fun p => ln n * p + (/ n - p)) l)).
  - apply lsum_le. intros p Hp. pose proof (shannon_le_term n p Hn (proj1 (Forall_forall _ _) H p Hp)). lra.
  - rewrite lsum_map_plus, lsum_map_minus, lsum_const, lsum_map_scal, map_id, E. fold n.
    replace (n * / n) with 1 by (field; lra). lra.
Qed.
Lemma lsum_eq_le {X} (f g : X -> R) l : (forall x, In x l -> f x <= g x) -> lsum (map f l) = lsum (map g l) ->
  forall x, In x l -> f x = g x.
Proof.
  intros H E. assert (F : Forall (fun v => v = 0) (map (fun x => g x - f x) l)).
  { apply lsum_pos_zero; [|rewrite lsum_map_minus; lra]. apply Forall_forall. intros v Hv.
    apply in_map_iff in Hv as (x & <- & Hx). specialize (H x Hx). lra. }
  intros x Hx. assert (g x - f x = 0); [|lra]. apply (proj1 (Forall_forall _ _) F). apply in_map_iff. eauto.
Qed.
Lemma shannon_max l : probability l -> (shannon l = ln (INR (length l)) <-> Forall (fun p => p = / INR (length l)) l).
Proof.
  intros [H E]. assert (Hn : 0 < INR (length l)). { apply lt_0_INR. destruct l; cbn in *; [lra|lia]. }
  set (n := INR (length l)) in *. rewrite shannon_plogp. split.
  - intro Q. apply Forall_forall. intros p Hp.
    assert (G : forall p, In p l -> plogp p = ln n * p + (/ n - p)).
    { apply lsum_eq_le.
      - intros q Hq. pose proof (shannon_le_term n q Hn (proj1 (Forall_forall _ _) H q Hq)). lra.
      - rewrite lsum_map_plus, lsum_map_minus, lsum_const, lsum_map_scal, map_id, E. fold n.
        replace (n * / n) with 1 by (field; lra). lra. }
    specialize (G p Hp). pose proof (proj1 (Forall_forall _ _) H p Hp) as P0. cbn in P0. unfold plogp in G.
    assert (0 < / n) by (apply Rinv_0_lt_compat; auto). destruct (Req_EM_T p 0); [subst; lra|].
    apply gibbs_term_eq; try lra. rewrite ln_div, ln_Rinv by lra. lra.
  - intro F. rewrite (lsum_ext _ (fun p => ln n * p)).
    + rewrite lsum_map_scal, map_id, E. lra.
    + intros p Hp. rewrite (proj1 (Forall_forall _ _) F p Hp). assert (0 < / n) by (apply Rinv_0_lt_compat; auto).
      rewrite plogp_pos, ln_Rinv by lra. lra.
Qed.
Lemma shannon_perm l m : Permutation l m -> shannon l = shannon m.
Proof. intro P. rewrite !shannon_plogp. apply lsum_perm. now apply Permutation_map. Qed.
Lemma shannon_pad l n : shannon (l ++ repeat 0 n) = shannon l.
Proof.
  rewrite !shannon_plogp, map_app, lsum_app. rewrite (lsum_zero plogp (repeat 0 n)); [lra|].
  intros x Hx. apply repeat_spec in Hx as ->. apply plogp_0.
Qed.

(** ** Two variables. *)
Section Joint.
Context {X Y : Type} (lx : list X) (ly : list Y) (h : X -> Y -> R).
Hypothesis hpos : forall x y, In x lx -> In y ly -> 0 <= h x y.
Let r (x : X) : R := lsum (map (h x) ly).
Let c (y : Y) : R := lsum (map (fun x => h x y) lx).
Let Hj : R := lsum (map (fun x => lsum (map (fun y => plogp (h x y)) ly)) lx).
Let Hr : R := lsum (map (fun x => plogp (r x)) lx).
Let Hc : R := lsum (map (fun y => plogp (c y)) ly).
Definition mi_term (p a b : R) : R := if Req_EM_T p 0 then 0 else p * ln (p / (a * b)).

Lemma le_r x y : In x lx -> In y ly -> h x y <= r x.
Proof.
  intros Hx Hy. apply lsum_ge_in; [|now apply in_map]. apply Forall_forall. intros v Hv.
  apply in_map_iff in Hv as (? & <- & ?). auto.
Qed.
Lemma le_c x y : In x lx -> In y ly -> h x y <= c y.
Proof.
  intros Hx Hy. apply lsum_ge_in.
  - apply Forall_forall. intros v Hv. apply in_map_iff in Hv as (? & <- & ?). auto.
  - apply in_map_iff. exists x. auto.
Qed.
Lemma r_nonneg x : In x lx -> 0 <= r x.
Proof. intro Hx. apply lsum_nonneg, Forall_forall. intros v Hv. apply in_map_iff in Hv as (? & <- & ?). auto. Qed.
Lemma c_nonneg y : In y ly -> 0 <= c y.
Proof. intro Hx. apply lsum_nonneg, Forall_forall. intros v Hv. apply in_map_iff in Hv as (? & <- & ?). auto. Qed.

Lemma mi_split x y : In x lx -> In y ly ->
  mi_term (h x y) (r x) (c y) = - plogp (h x y) - h x y * ln (r x) - h x y * ln (c y).
Proof.
  intros Hx Hy. unfold mi_term, plogp. destruct (Req_EM_T (h x y) 0) as [->|N]; [lra|].
  pose proof (hpos x y Hx Hy). pose proof (le_r x y Hx Hy). pose proof (le_c x y Hx Hy).
  rewrite ln_div, ln_mult; try lra. apply Rmult_lt_0_compat; lra.
Qed.
Lemma mi_identity :
  lsum (map (fun x => lsum (map (fun y => mi_term (h x y) (r x) (c y)) ly)) lx) = Hr + Hc - Hj.
Proof.
  rewrite (lsum_ext _ (fun x => (- lsum (map (fun y => plogp (h x y)) ly) - r x * ln (r x)) - lsum (map (fun y => h x y * ln (c y)) ly))).
  - rewrite !lsum_map_minus, lsum_map_opp. unfold Hj, Hr, Hc.
    rewrite (lsum_ext (fun x => plogp (r x)) (fun x => - (r x * ln (r x)))).
    + rewrite lsum_map_opp. rewrite (lsum_swap (fun x y => h x y * ln (c y))).
      rewrite (lsum_ext (fun y => plogp (c y)) (fun y => - lsum (map (fun x => h x y * ln (c y)) lx))).
      * rewrite lsum_map_opp. lra.
      * intros y Hy. rewrite (lsum_ext _ (fun x => ln (c y) * h x y)) by (intros; lra). rewrite lsum_map_scal. fold (c y).
        unfold plogp. destruct (Req_EM_T (c y) 0) as [->|]; lra.
    + intros x Hx. unfold plogp. destruct (Req_EM_T (r x) 0) as [->|]; lra.
  - intros x Hx. rewrite (lsum_ext _ (fun y => - plogp (h x y) - ln (r x) * h x y - h x y * ln (c y))).
    + rewrite !lsum_map_minus, lsum_map_opp, lsum_map_scal. fold (r x). lra.
    + intros y Hy. rewrite mi_split by auto. lra.
Qed.
Lemma mi_term_ge x y : In x lx -> In y ly -> h x y - r x * c y <= mi_term (h x y) (r x) (c y).
Proof.
  intros Hx Hy. pose proof (hpos x y Hx Hy). pose proof (le_r x y Hx Hy). pose proof (le_c x y Hx Hy).
  unfold mi_term. destruct (Req_EM_T (h x y) 0) as [E|N].
  - rewrite E. assert (0 <= r x * c y) by (apply Rmult_le_pos; lra). lra.
  - apply gibbs_term; [lra|]. apply Rmult_lt_0_compat; lra.
Qed.
Hypothesis total1 : lsum (map r lx) = 1.
Lemma total1' : lsum (map c ly) = 1.
Proof. rewrite <- total1. unfold c, r. symmetry. apply lsum_swap. Qed.
Lemma lower_sum : lsum (map (fun x => lsum (map (fun y => h x y - r x * c y) ly)) lx) = 0.
Proof.
  rewrite (lsum_ext _ (fun x => r x - r x * 1)).
  - rewrite lsum_zero; auto. intros; lra.
  - intros x Hx. rewrite lsum_map_minus, lsum_map_scal, total1'. reflexivity.
Qed.
Lemma joint_le : Hj <= Hr + Hc.
Proof.
  assert (0 <= Hr + Hc - Hj); [|lra]. rewrite <- mi_identity, <- lower_sum.
  apply lsum_le. intros x Hx. apply lsum_le. intros y Hy. apply mi_term_ge; auto.
Qed.
Lemma joint_eq : Hj = Hr + Hc <-> (forall x y, In x lx -> In y ly -> h x y = r x * c y).
Proof.
  split.
  - intros E x y Hx Hy.
    assert (G : forall x, In x lx -> lsum (map (fun y => h x y - r x * c y) ly) = lsum (map (fun y => mi_term (h x y) (r x) (c y)) ly)).
    { apply lsum_eq_le.
      - intros x' Hx'. apply lsum_le. intros y' Hy'. apply mi_term_ge; auto.
      - rewrite lower_sum, mi_identity. lra. }
    assert (G' : forall y, In y ly -> h x y - r x * c y = mi_term (h x y) (r x) (c y)).
    { apply lsum_eq_le; auto. intros y' Hy'. apply mi_term_ge; auto. }
    specialize (G' y Hy). unfold mi_term in G'. pose proof (hpos x y Hx Hy). pose proof (le_r x y Hx Hy). pose proof (le_c x y Hx Hy).
    destruct (Req_EM_T (h x y) 0); [lra|]. apply gibbs_term_eq; [lra| |auto]. apply Rmult_lt_0_compat; lra.
  - intro I. enough (Hr + Hc - Hj = 0) by lra. rewrite <- mi_identity. apply lsum_zero. intros x Hx. apply lsum_zero. intros y Hy.
    unfold mi_term. destruct (Req_EM_T (h x y) 0); auto. rewrite (I x y Hx Hy) in *.
    unfold Rdiv. rewrite Rinv_r by auto. rewrite ln_1. lra.
Qed.
Lemma joint_ge : Hr <= Hj.
Proof.
  apply lsum_le. intros x Hx. unfold plogp at 1. destruct (Req_EM_T (r x) 0) as [E|N].
  - apply lsum_nonneg, Forall_forall. intros v Hv. apply in_map_iff in Hv as (y & <- & Hy).
    pose proof (hpos x y Hx Hy). pose proof (le_r x y Hx Hy). replace (h x y) with 0 by lra. rewrite plogp_0. lra.
  - rewrite <- Ropp_mult_distr_l_reverse. replace (- r x * ln (r x)) with (- ln (r x) * r x) by lra. unfold r at 2.
    rewrite <- lsum_map_scal. apply lsum_le. intros y Hy. pose proof (hpos x y Hx Hy). pose proof (le_r x y Hx Hy).
    unfold plogp. destruct (Req_EM_T (h x y) 0) as [->|N']; [lra|].
    assert (ln (h x y) <= ln (r x)). { destruct H0 as [H0|H0]; [left; apply ln_increasing; lra|rewrite H0; lra]. }
    assert (h x y * ln (h x y) <= h x y * ln (r x)) by (apply Rmult_le_compat_l; lra). lra.
Qed.
End Joint.

(** ** Divergence. *)
Lemma kl_term_ge eps x y : 0 < eps -> 0 <= x -> 0 <= y -> - eps * x / (x + eps) <= x * ln ((x + eps) / (y + eps)) - x + y.
Proof.
  intros He Hx Hy. pose proof (gibbs_term (x + eps) (y + eps) ltac:(lra) ltac:(lra)) as G.
  set (L := ln ((x + eps) / (y + eps))) in *. assert (D : 1 - (y + eps) / (x + eps) <= L).
  { apply Rmult_le_reg_l with (x + eps); [lra|]. field_simplify; lra. }
  assert (x * (1 - (y + eps) / (x + eps)) <= x * L) by (apply Rmult_le_compat_l; auto).
  assert (- eps * x / (x + eps) <= x * (1 - (y + eps) / (x + eps)) - x + y); [|lra].
  apply Rmult_le_reg_l with (x + eps); [lra|]. field_simplify; [|lra|lra]. assert (0 <= eps * y) by (apply Rmult_le_pos; lra). lra.
Qed.
Lemma kl_term_gt eps x y : 0 < eps -> 0 <= x -> 0 <= y -> - eps <= x * ln ((x + eps) / (y + eps)) - x + y.
Proof.
  intros He Hx Hy. eapply Rle_trans; [|apply kl_term_ge; auto].
  apply Rmult_le_reg_l with (x + eps); [lra|]. field_simplify; [|lra]. assert (0 <= eps ^ 2) by (apply pow2_ge_0). lra.
Qed.
Lemma kl_lower eps l m : 0 < eps -> Forall (fun v => 0 <= v) l -> Forall (fun v => 0 <= v) m ->
  - (INR (length l) * eps) <= KL eps l m.
Proof.
  intros He Hl. revert m. unfold KL, sum2. induction Hl as [|x l Hx Hl IH]; intros m Hm.
  - cbn. lra.
  - destruct Hm as [|y m Hy Hm].
    + cbn [combine map lsum]. pose proof (pos_INR (length (x :: l))). assert (0 <= INR (length (x :: l)) * eps) by (apply Rmult_le_pos; lra). lra.
    + cbn [combine map lsum length fst snd]. rewrite S_INR. specialize (IH m Hm). pose proof (kl_term_gt eps x y He Hx Hy). lra.
Qed.
Lemma kl_self eps l : 0 < eps -> Forall (fun v => 0 <= v) l -> KL eps l l = 0.
Proof.
  intros He. unfold KL, sum2. induction 1 as [|x l Hx Hl IH]; cbn; auto. rewrite IH.
  unfold Rdiv. rewrite Rinv_r by lra. rewrite ln_1. lra.
Qed.
Lemma kl_zero eps l m : length l = length m -> Forall (fun v => v = 0) l -> KL eps l m = lsum m.
Proof.
  intros E H. revert m E. unfold KL, sum2. induction H; intros [|y m] E; try discriminate; cbn; auto.
  injection E as E. rewrite IHForall by auto. subst. lra.
Qed.

(** ** Euclidean geometry. *)
Lemma inner_cons x l y m : inner (x :: l) (y :: m) = x * y + inner l m.
Proof. reflexivity. Qed.
Lemma inner_sq_nonneg l : 0 <= inner l l.
Proof. induction l; [cbn; unfold inner, sum2; cbn; lra|]. rewrite inner_cons. pose proof (Rle_0_sqr a). unfold Rsqr in *. lra. Qed.
Lemma inner_comm l m : inner l m = inner m l.
Proof.
  revert m. induction l; destruct m; try reflexivity. rewrite !inner_cons, IHl. lra.
Qed.
Lemma inner_nil_r l : inner l [] = 0.
Proof. destruct l; reflexivity. Qed.
Lemma inner_rsqr l : inner l l = lsum (map Rsqr l).
Proof. induction l; [reflexivity|]. rewrite inner_cons, IHl. reflexivity. Qed.
Lemma cauchy_schwarz l m : Rsqr (inner l m) <= inner l l * inner m m.
Proof.
  revert m. induction l as [|a l IH]; intros [|b m]; rewrite ?inner_cons, ?inner_nil_r.
  - unfold inner, sum2, Rsqr. cbn. lra.
  - unfold inner at 1 2, sum2, Rsqr. cbn. lra.
  - unfold Rsqr. lra.
  - specialize (IH m). pose proof (inner_sq_nonneg l) as HA. pose proof (inner_sq_nonneg m) as HB.
    set (A := inner l l) in *. set (B := inner m m) in *. set (S := inner l m) in *.
    assert (U : 0 <= a * a * B) by (apply Rmult_le_pos; auto; apply Rle_0_sqr).
    assert (V : 0 <= b * b * A) by (apply Rmult_le_pos; auto; apply Rle_0_sqr).
    assert (C : 2 * (a * b * S) <= a * a * B + b * b * A).
    { apply Rsqr_incr_0_var; [|lra]. apply Rle_trans with (4 * ((a * a * B) * (b * b * A))).
      - replace (Rsqr (2 * (a * b * S))) with (4 * (Rsqr (a * b) * Rsqr S)) by (unfold Rsqr; ring).
        replace (4 * ((a * a * B) * (b * b * A))) with (4 * (Rsqr (a * b) * (A * B))) by (unfold Rsqr; ring).
        apply Rmult_le_compat_l; [lra|]. apply Rmult_le_compat_l; [apply Rle_0_sqr|auto].
      - set (u := a * a * B) in *. set (v := b * b * A) in *. pose proof (Rle_0_sqr (u - v)). unfold Rsqr in *. lra. }
    unfold Rsqr in *. lra.
Qed.
Lemma norm_nonneg l : 0 <= norm l.
Proof. apply sqrt_pos. Qed.
Lemma norm_sq l : norm l * norm l = inner l l.
Proof. apply sqrt_sqrt, inner_sq_nonneg. Qed.
Lemma cauchy_abs l m : Rabs (inner l m) <= norm l * norm m.
Proof.
  unfold norm. rewrite <- sqrt_mult by apply inner_sq_nonneg. rewrite <- sqrt_Rsqr_abs. apply sqrt_le_1_alt, cauchy_schwarz.
Qed.
Lemma norm_zero l : norm l = 0 -> Forall (fun v => v = 0) l.
Proof.
  intro E. assert (Z : lsum (map Rsqr l) = 0) by (rewrite <- inner_rsqr, <- norm_sq, E; lra).
  assert (F : Forall (fun v => v = 0) (map Rsqr l)).
  { apply lsum_pos_zero; auto. apply Forall_forall. intros v Hv. apply in_map_iff in Hv as (x & <- & _). apply Rle_0_sqr. }
  apply Forall_forall. intros x Hx. apply Rsqr_0_uniq. apply (proj1 (Forall_forall _ _) F). now apply in_map.
Qed.
Lemma inner_zero l m : Forall (fun v => v = 0) l -> inner l m = 0.
Proof. intro H. revert m. induction H; destruct m; auto. rewrite inner_cons, IHForall. subst. lra. Qed.
Definition addl (l m : list R) : list R := map (fun p => fst p + snd p) (combine l m).
Lemma norm_triangle l m : length l = length m -> norm (addl l m) <= norm l + norm m.
Proof.
  intro E. assert (I : inner (addl l m) (addl l m) = inner l l + 2 * inner l m + inner m m).
  { revert m E. unfold addl. induction l; destruct m; intro E; try discriminate.
    - unfold inner, sum2. cbn. lra.
    - injection E as E. cbn [combine map fst snd]. rewrite !inner_cons, IHl by auto. lra. }
  apply Rsqr_incr_0_var; [|pose proof (norm_nonneg l); pose proof (norm_nonneg m); lra].
  unfold Rsqr. rewrite norm_sq, I. pose proof (cauchy_abs l m). pose proof (Rle_abs (inner l m)).
  replace ((norm l + norm m) * (norm l + norm m)) with (norm l * norm l + 2 * (norm l * norm m) + norm m * norm m) by ring.
  rewrite !norm_sq. lra.
Qed.
Lemma distance_triangle l m k : length l = length m -> length m = length k -> distance l k <= distance l m + distance m k.
Proof.
  intros E1 E2. unfold distance.
  replace (map (fun p => fst p - snd p) (combine l k)) with
    (addl (map (fun p => fst p - snd p) (combine l m)) (map (fun p => fst p - snd p) (combine m k))).
  - apply norm_triangle. rewrite !map_length, !combine_length. lia.
  - unfold addl. revert m k E1 E2. induction l; intros [|b m] [|c k] E1 E2; try discriminate; auto. cbn. f_equal; [lra|].
    apply IHl; auto.
Qed.
Lemma distance_sym l m : distance l m = distance m l.
Proof.
  unfold distance, norm. f_equal. revert m. induction l; destruct m; auto. cbn [combine map fst snd]. rewrite !inner_cons, IHl. lra.
Qed.
Lemma distance_zero l m : length l = length m -> (distance l m = 0 <-> l = m).
Proof.
  intro E. split.
  - intro H. apply norm_zero in H. revert m E H. induction l; intros [|b m] E H; try discriminate; auto.
    cbn in H. inversion H; subst. f_equal; [lra|]. apply IHl; auto.
  - intros ->. unfold distance, norm. rewrite inner_zero, sqrt_0; auto. clear. induction m; cbn; constructor; auto. cbn. lra.
Qed.

(** ** One norm and two norm. *)
Definition norm1 (l : list R) : R := lsum (map Rabs l).
Lemma norm1_nonneg l : 0 <= norm1 l.
Proof. apply lsum_nonneg, Forall_forall. intros v Hv. apply in_map_iff in Hv as (x & <- & _). apply Rabs_pos. Qed.
Lemma norm2_le_norm1 l : norm l <= norm1 l.
Proof.
  apply Rsqr_incr_0_var; [|apply norm1_nonneg]. unfold Rsqr at 1. rewrite norm_sq.
  induction l; [unfold inner, sum2, norm1, Rsqr; cbn; lra|]. rewrite inner_cons. unfold norm1. cbn [map lsum]. fold (norm1 l).
  pose proof (norm1_nonneg l). pose proof (Rabs_pos a). unfold Rsqr in *.
  assert (Rabs a * Rabs a = a * a). { rewrite <- Rabs_mult. apply Rabs_pos_eq, Rle_0_sqr. }
  assert (0 <= Rabs a * norm1 l) by (apply Rmult_le_pos; auto). lra.
Qed.
Lemma norm1_le_norm2 l : norm1 l <= sqrt (INR (length l)) * norm l.
Proof.
  replace (norm1 l) with (inner (map (fun _ => 1) l) (map Rabs l)).
  - eapply Rle_trans; [apply Rle_abs|]. eapply Rle_trans; [apply cauchy_abs|]. right. f_equal.
    + unfold norm. f_equal. induction l; [reflexivity|]. cbn [map length]. rewrite inner_cons, IHl, S_INR. lra.
    + unfold norm. f_equal. induction l; [reflexivity|]. cbn [map]. rewrite !inner_cons, IHl. f_equal.
      rewrite <- Rabs_mult. apply Rabs_pos_eq, Rle_0_sqr.
  - unfold norm1. induction l; [reflexivity|]. cbn [map lsum]. rewrite inner_cons, IHl. lra.
Qed.
Lemma one_hot_norms l : one_hot l -> norm1 l = norm l.
Proof.
  intros (l1 & x & l2 & -> & F). apply Forall_app in F as [F1 F2].
  assert (Z : forall k (f : R -> R), f 0 = 0 -> Forall (fun v => v = 0) k -> lsum (map f k) = 0).
  { intros k f f0 Fk. apply lsum_zero. intros v Hv. rewrite (proj1 (Forall_forall _ _) Fk v Hv). auto. }
  unfold norm1, norm. rewrite inner_rsqr, !map_app, !lsum_app. cbn [map lsum].
  rewrite !(Z l1), !(Z l2) by (auto; try apply Rabs_R0; unfold Rsqr; lra). rewrite !Rplus_0_l, !Rplus_0_r. symmetry. apply sqrt_Rsqr_abs.
Qed.
Lemma const_norms c n : norm1 (repeat c n) = INR n * Rabs c /\ norm (repeat c n) = sqrt (INR n) * Rabs c.
Proof.
  split.
  - unfold norm1. induction n; [cbn; lra|]. cbn [repeat map lsum]. rewrite IHn, S_INR. lra.
  - unfold norm. rewrite inner_rsqr. replace (lsum (map Rsqr (repeat c n))) with (INR n * Rsqr c).
    + rewrite sqrt_mult_alt by apply pos_INR. now rewrite sqrt_Rsqr_abs.
    + induction n; [cbn; lra|]. cbn [repeat map lsum]. rewrite <- IHn, S_INR. lra.
Qed.
