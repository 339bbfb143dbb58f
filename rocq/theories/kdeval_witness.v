(** * The estimate in two dimensions is not where the samples are. *)

From Coq Require Import List ZArith Reals Bool Lia Lra.
Import ListNotations.
From Verif Require Import Py Py_proof hac_model quant_model quant_spec kde_model kde_spec kde_proof kde_two
  kdeval_spec kdeval_proof.
Local Open Scope R_scope.

(** Samples that are all at one point of the grid give all the weight to this point. *)
Lemma share_at delta lo k i : 0 < delta ->
  share delta (point lo delta i) (point lo delta k) = if (i =? k)%nat then 1 else 0.
Proof.
  intros D. unfold share, point.
  replace (lo + INR k * delta - (lo + INR i * delta)) with ((INR k - INR i) * delta) by ring.
  rewrite Rabs_mult, (Rabs_right delta) by lra.
  replace (Rabs (INR k - INR i) * delta / delta) with (Rabs (INR k - INR i)) by (field; lra).
  destruct (Nat.eqb_spec i k) as [->|N].
  - replace (INR k - INR k) with 0 by ring. rewrite Rabs_R0, Rminus_0_r. apply Rmax_right. lra.
  - apply Rmax_left. assert (1 <= Rabs (INR k - INR i)); [|lra].
    destruct (Nat.lt_ge_cases i k) as [L|L].
    + rewrite <- minus_INR by lia. rewrite Rabs_right by (apply Rle_ge, pos_INR).
      change 1 with (INR 1). apply le_INR. lia.
    + rewrite Rabs_minus_sym, <- minus_INR by lia. rewrite Rabs_right by (apply Rle_ge, pos_INR).
      change 1 with (INR 1). apply le_INR. lia.
Qed.

Lemma density_at x_lo y_lo dx dy k l c i j : 0 < dx -> 0 < dy -> (0 < c)%nat ->
  density_2d x_lo y_lo dx dy (repeat (point x_lo dx k, point y_lo dy l) c) i j =
  if ((i =? k) && (j =? l))%nat then / (dx * dy) else 0.
Proof.
  intros DX DY C. unfold density_2d.
  assert (CP : INR c <> 0) by (apply not_0_INR; lia). rewrite repeat_length.
  assert (E : forall v, add_up (map (fun p => share dx (point x_lo dx i) (fst p) * share dy (point y_lo dy j) (snd p))
     (repeat v c)) = INR c * (share dx (point x_lo dx i) (fst v) * share dy (point y_lo dy j) (snd v))).
  { intros v. clear CP C. induction c as [|c IH]; [cbn; ring|]. cbn [repeat map add_up]. rewrite S_INR.
    change (add_up (?x :: ?l)) with (x + add_up l) || idtac.
    unfold add_up in *. cbn [fold_right] in *. rewrite IH. ring. }
  rewrite E. cbn [fst snd]. rewrite !share_at by assumption.
  destruct (i =? k)%nat, (j =? l)%nat; cbn [andb]; field; repeat split; lra || exact CP.
Qed.

Lemma series_zero n : series n (fun _ => 0) = 0.
Proof. rewrite series_sum. apply sum_const0. Qed.
Lemma series_single n k f : (k < n)%nat -> (forall i, (i < n)%nat -> i <> k -> f i = 0) -> series n f = f k.
Proof.
  intros K Z. rewrite series_sum. revert K Z. induction n as [|n IH]; intros K Z; [lia|]. rewrite sum_S.
  destruct (Nat.eq_dec k n) as [->|N].
  - rewrite (sum_ext f (fun _ => 0)) by (intros i I; apply Z; lia). rewrite sum_const0. ring.
  - rewrite IH by (lia || (intros i I J; apply Z; lia)). rewrite (Z n) by lia. ring.
Qed.

(** The estimate of samples at one point of the grid. *)
Lemma smooth_at h_x h_y dx dy m n f k l w a b : (k < n)%nat -> (l < n)%nat ->
  (forall i j, f i j = if ((i =? k) && (j =? l))%nat then w else 0) ->
  smooth_2d h_x h_y dx dy m n f a b =
  if reached m k a && reached m l b
  then w * (bell h_x ((INR a - INR k - late m) * dx) / curve_total h_x dx m
            * (bell h_y ((INR b - INR l - late m) * dy) / curve_total h_y dy m))
  else 0.
Proof.
  intros K L F. unfold smooth_2d. rewrite (series_single n k) by
    (exact K || (intros i I N; rewrite (series_ext _ _ (fun _ => 0)); [apply series_zero|];
      intros j J; rewrite F; replace (i =? k)%nat with false by (symmetry; apply Nat.eqb_neq; exact N);
      cbn [andb]; destruct (_ && _); ring)).
  rewrite (series_single n l) by
    (exact L || (intros j J N; rewrite F, Nat.eqb_refl; replace (j =? l)%nat with false by (symmetry; apply Nat.eqb_neq; exact N);
      cbn [andb]; destruct (_ && _); ring)).
  rewrite F, !Nat.eqb_refl. reflexivity.
Qed.

Lemma bell_le h x y : h <> 0 -> Rabs x < Rabs y -> bell h y < bell h x.
Proof.
  intros H L. unfold bell. apply exp_increasing. apply Ropp_lt_cancel.
  assert (S : (x / h) ^ 2 < (y / h) ^ 2).
  { rewrite <- !Rsqr_pow2. apply Rsqr_lt_abs_1. unfold Rdiv. rewrite !Rabs_mult.
    apply Rmult_lt_compat_r; [|exact L]. apply Rabs_pos_lt, Rinv_neq_0_compat, H. }
  lra.
Qed.

Lemma place_2d h_x h_y nb fft x_lo y_lo x_hi y_hi c k l : (3 <= nb)%Z -> x_lo < x_hi -> y_lo < y_hi ->
  h_x <> 0 -> h_y <> 0 -> (0 < c)%nat ->
  let n := Z.to_nat nb in let dx := spacing x_lo x_hi n in let dy := spacing y_lo y_hi n in
  (k + 1 < n)%nat -> (l + 1 < n)%nat -> Nat.even (n - 1) = true ->
  let p := [point x_lo dx k; point y_lo dy l] in
  exists xg yg kde, gaussian_kde_2d true (Mat 2 (repeat p c)) h_x h_y nb fft (Some ((x_lo, y_lo), (x_hi, y_hi))) = Ok (xg, yg, kde) /\
    nth k xg 0 = point x_lo dx k /\ nth l yg 0 = point y_lo dy l /\
    nth l (nth k kde []) 0 < nth (l + 1) (nth (k + 1) kde []) 0.
Proof.
  intros N LX LY HX HY C n dx dy K L EV p. assert (N3 : (3 <= n)%nat) by (unfold n; lia).
  assert (DX : 0 < dx) by (apply spacing_pos; lia || assumption).
  assert (DY : 0 < dy) by (apply spacing_pos; lia || assumption).
  assert (IN : in_bounds_2d (Mat 2 (repeat p c)) (repeat (point x_lo dx k, point y_lo dy l) c)
     (Some ((x_lo, y_lo), (x_hi, y_hi))) x_lo y_lo x_hi y_hi).
  { assert (W : forall lo hi j, lo < hi -> (j < n)%nat -> lo <= point lo (spacing lo hi n) j <= hi).
    { intros lo hi j H J. unfold point, spacing. assert (P : 0 < INR n - 1) by (pose proof (le_INR 3 n ltac:(lia)) as X; cbn [INR] in X; lra).
      assert (Q : 0 <= INR j <= INR n - 1).
      { split; [apply pos_INR|]. assert (INR (j + 1) <= INR n) by (apply le_INR; lia). rewrite plus_INR in H0. cbn [INR] in H0. lra. }
      replace (INR j * ((hi - lo) / (INR n - 1))) with ((hi - lo) * (INR j / (INR n - 1))) by (field; lra).
      assert (0 <= INR j / (INR n - 1) <= 1).
      { split; [apply Rmult_le_pos; [lra|apply Rlt_le, Rinv_0_lt_compat, P]|].
        apply (Rmult_le_reg_r (INR n - 1)); [exact P|]. unfold Rdiv. rewrite Rmult_assoc, Rinv_l by lra. lra. }
      split; nra. }
    split; [reflexivity|]. split.
    { cbn [mrows]. clear. induction c; cbn; [reflexivity|]. rewrite <- IHc. reflexivity. }
    split; [destruct c; [lia|discriminate]|]. split; [|split; [|split; [exact LX|split; [exact LY|reflexivity]]]];
      apply Forall_forall; intros v I; apply in_map_iff in I; destruct I as (q & <- & I); apply repeat_spec in I; subst q; cbn [fst snd];
      apply W; lia || assumption. }
  destruct (values_2d _ _ h_x h_y nb fft _ x_lo y_lo x_hi y_hi ltac:(lia) IN HX HY) as (xg & yg & kde & E & _ & _ & G & _ & _ & V).
  fold n in G, V. fold dx in G, V. fold dy in G, V.
  exists xg, yg, kde. split; [exact E|]. split; [apply G; lia|]. split; [apply G; lia|].
  rewrite !V by lia.
  assert (F : forall i j, density_2d x_lo y_lo dx dy (repeat (point x_lo dx k, point y_lo dy l) c) i j =
    if ((i =? k) && (j =? l))%nat then / (dx * dy) else 0) by (intros; apply density_at; assumption).
  rewrite !(smooth_at _ _ _ _ _ _ _ k l (/ (dx * dy))) by (lia || exact F).
  set (o := ((n - 1 - 1) / 2)%nat).
  assert (O : (o + 1 < n - 1 + 0)%nat).
  { apply Nat.even_spec in EV. destruct EV as (e & EV). unfold o. rewrite EV.
    replace ((2 * e - 1) / 2)%nat with (e - 1)%nat by (apply (Nat.div_unique _ 2 _ 1); lia). lia. }
  assert (R0 : forall q, reached (n - 1) q q = true).
  { intros q. unfold reached. fold o. apply andb_true_intro. split; [apply Nat.leb_le; lia|apply Nat.ltb_lt; lia]. }
  assert (R1 : forall q, reached (n - 1) q (q + 1) = true).
  { intros q. unfold reached. fold o. apply andb_true_intro. split; [apply Nat.leb_le; lia|apply Nat.ltb_lt; lia]. }
  rewrite !R0, !R1. cbn [andb]. unfold late. rewrite EV. rewrite !plus_INR. cbn [INR].
  replace ((INR k + 1 - INR k - 1) * dx) with 0 by ring. replace ((INR l + 1 - INR l - 1) * dy) with 0 by ring.
  replace ((INR k - INR k - 1) * dx) with (- dx) by ring. replace ((INR l - INR l - 1) * dy) with (- dy) by ring.
  assert (CX : 0 < curve_total h_x dx (n - 1)) by (apply curve_pos; lia).
  assert (CY : 0 < curve_total h_y dy (n - 1)) by (apply curve_pos; lia).
  assert (BX : bell h_x (- dx) < bell h_x 0) by (apply bell_le; [exact HX|rewrite Rabs_R0, Rabs_Ropp, Rabs_right; lra]).
  assert (BY : bell h_y (- dy) < bell h_y 0) by (apply bell_le; [exact HY|rewrite Rabs_R0, Rabs_Ropp, Rabs_right; lra]).
  pose proof (bell_pos h_x (- dx)). pose proof (bell_pos h_y (- dy)).
  apply Rmult_lt_compat_l; [apply Rinv_0_lt_compat; nra|].
  apply Rmult_gt_0_lt_compat.
  - apply Rmult_lt_0_compat; [lra|apply Rinv_0_lt_compat; exact CY].
  - apply Rmult_lt_0_compat; [lra|apply Rinv_0_lt_compat; exact CX].
  - apply Rmult_lt_compat_r; [apply Rinv_0_lt_compat; exact CX|exact BX].
  - apply Rmult_lt_compat_r; [apply Rinv_0_lt_compat; exact CY|exact BY].
Qed.
