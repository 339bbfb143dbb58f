(** * Lemmas: errors and witnesses for the kernel density estimators. *)

From Coq Require Import List ZArith Arith Reals Bool Lia Lra.
Import ListNotations.
From Verif Require Import Py Py_proof hac_model quant_model quant_spec quant_proof kde_model kde_spec kde_proof kde_two kde_kl.
Open Scope py_scope.
Local Open Scope R_scope.

Lemma bins_1d_errors float_index xs nb bounds :
  (nb < 2)%Z \/ xs = [] \/ (exists lo hi, bounds = Some (lo, hi) /\ ~ within lo hi xs) ->
  get_bins_1d float_index xs nb bounds = Err ValueError.
Proof.
  intros [H|[->|(lo & hi & -> & H)]]; [apply bins_1d_few, H|apply bins_1d_empty|apply bins_1d_bounds, H].
Qed.
Lemma bins_1d_recent xs nb bounds :
  (forall r, get_bins_1d false xs nb bounds <> Ok r) /\
  (forall lo hi, (2 <= nb)%Z -> in_bounds xs bounds lo hi -> get_bins_1d false xs nb bounds = Err IndexError).
Proof. split; [apply bins_1d_never|intros lo hi; apply bins_1d_index]. Qed.

Lemma bins_2d_all samples pts nb bounds x_lo y_lo x_hi y_hi : (2 <= nb)%Z ->
  in_bounds_2d samples pts bounds x_lo y_lo x_hi y_hi ->
  let n := Z.to_nat nb in let dx := spacing x_lo x_hi n in let dy := spacing y_lo y_hi n in
  exists xg yg bins, get_bins_2d true samples nb bounds = Ok (xg, yg, bins) /\
    length xg = n /\ length yg = n /\
    (forall j, (j < n)%nat -> nth j xg 0 = point x_lo dx j /\ nth j yg 0 = point y_lo dy j) /\
    array_2d n n bins (density_2d x_lo y_lo dx dy pts) /\
    Forall nonnegative bins /\ total bins = / (dx * dy).
Proof.
  intros N B n dx dy. destruct (bins_2d samples pts nb bounds x_lo y_lo x_hi y_hi N B) as (xg & yg & bins & E & LX & LY & V & A).
  destruct B as (_ & _ & NE & WX & WY & LTX & LTY & _). assert (N2 : (2 <= n)%nat) by (unfold n; lia).
  exists xg, yg, bins. repeat (split; [assumption|]). split.
  - apply (nonneg_array _ _ _ _ A). intros. apply density2_ge0; assumption.
  - rewrite (total_array _ _ _ _ A). apply density2_mass; assumption.
Qed.

Lemma bins_2d_errors float_index samples nb bounds :
  (nb < 2)%Z \/ mcols samples <> 2%nat \/ (mrows samples = [] /\ bounds = None) ->
  get_bins_2d float_index samples nb bounds = Err ValueError.
Proof.
  intros [H|[H|(H & ->)]]; [apply bins_2d_few, H|apply bins_2d_cols, H|].
  unfold get_bins_2d. destruct (nb <? 2)%Z; [reflexivity|]. destruct (negb _); [reflexivity|]. rewrite H. reflexivity.
Qed.

Lemma Int_part_is r z : IZR z <= r < IZR z + 1 -> Int_part r = z.
Proof.
  intros H. destruct (base_Int_part r) as (B1 & B2).
  assert (Int_part r < z + 1)%Z by (apply lt_IZR; rewrite plus_IZR; lra).
  assert (z - 1 < Int_part r)%Z by (apply lt_IZR; rewrite minus_IZR; lra). lia.
Qed.

Lemma unchecked_bounds :
  exists samples lo hi xg yg bins, ~ within (fst lo) (fst hi) (map (fun r => nth 0 r 0) (mrows samples)) /\
    get_bins_2d true samples 2 (Some (lo, hi)) = Ok (xg, yg, bins) /\ ~ Forall nonnegative bins.
Proof.
  exists (Mat 2 [[- (1 / 2); 0]]), (0, 0), (1, 1).
  unfold get_bins_2d. cbn [Z.ltb Z.compare Pos.compare Pos.compare_cont mcols mrows Nat.eqb negb bind map pair_of nth length].
  change (Z.to_nat 2 + 1)%nat with 3%nat. change (2 - 1)%Z with 1%Z.
  set (d := (1 - 0) / IZR 1). assert (D : d = 1) by (unfold d; lra).
  cbn [foldM bin_sample2 fst snd]. unfold bin_sample2. cbn [fst snd].
  change (fst (pair_of [- (1 / 2); 0])) with (- (1 / 2)). change (snd (pair_of [- (1 / 2); 0])) with 0.
  rewrite (Int_part_is ((- (1 / 2) - 0) / d) (-1)) by (rewrite D; lra).
  rewrite (Int_part_is ((0 - 0) / d) 0) by (rewrite D; lra).
  clearbody d. cbn -[Rplus Rmult Rminus Rdiv INR].
  eexists _, _, _. split; [|split; [reflexivity|]].
  - intros W. inversion W as [|? ? H _]; subst. cbn in H. lra.
  - cbn [removelast map]. intros F. inversion F as [|? ? P _]; subst. inversion P as [|? ? X _]; subst. revert X. cbn. lra.
Qed.

(** With two bins the kernel is reduced to one point and nothing is smoothed. *)
Lemma two_bins xs h fft bounds lo hi : in_bounds xs bounds lo hi -> h <> 0 ->
  exists g, gaussian_kde_1d true xs h 2 fft bounds = Ok (g, [density_1d lo (hi - lo) xs 0; density_1d lo (hi - lo) xs 1]).
Proof.
  intros B H. destruct (bins_1d_all xs 2 bounds lo hi ltac:(lia) B) as (g & bins & E & LG & LB & V & _).
  change (Z.to_nat 2) with 2%nat in *.
  assert (SP : spacing lo hi 2 = hi - lo) by (unfold spacing; cbn; field). rewrite SP in V.
  assert (D : 0 < hi - lo) by (destruct B as (_ & _ & LT & _); lra).
  destruct (grid_ends g 2 lo (hi - lo) ltac:(lia) LG (fun j J => proj1 (V j J))) as (last & first & second & E1 & E2 & E3 & R1 & R2).
  exists g. unfold gaussian_kde_1d. rewrite E. cbn [bind]. rewrite E1. cbn [bind]. rewrite E2. cbn [bind]. rewrite E3. cbn [bind].
  destruct (Req_EM_T h 0) as [Z|_]; [contradiction|]. rewrite R1, R2. f_equal. f_equal.
  pose proof (arange_length (2 - 1) (hi - lo) D) as LK. unfold kernel.
  destruct (arange _ _ _) as [|k [|k' ks]]; try (cbn in LK; lia). cbn [map].
  set (e := exp _). assert (EP : 0 < e) by apply exp_pos.
  destruct bins as [|b0 [|b1 [|b2 bins]]]; try (cbn in LB; lia).
  destruct (V 0%nat ltac:(lia)) as (_ & V0). destruct (V 1%nat ltac:(lia)) as (_ & V1). cbn [nth] in V0, V1.
  cbv [convolve shifted quant_model.sum]. cbn [length Nat.add Nat.sub seq map Nat.ltb Nat.leb nth fold_right].
  rewrite V0, V1. f_equal; [field; lra|]. f_equal. field. lra.
Qed.

Lemma kl_negative : exists x y h nb fft v, kde_KL_divergence_1d true x y h nb fft = Ok v /\ v < -1.
Proof.
  assert (C : common_bounds [0] [1] 0 1).
  { split; [discriminate|]. split; [discriminate|]. split; [|split; [|lra]]; (split; [cbn; tauto|repeat constructor; lra]). }
  destruct (kl_value [0] [1] 1 2 true 0 1 ltac:(lia) C ltac:(lra)) as (g & p & q & E1 & E2 & _ & _ & _ & _ & _ & _ & V).
  destruct (common_in _ _ _ _ C) as (BX & BY & _).
  destruct (two_bins [0] 1 true _ 0 1 BX ltac:(lra)) as (g1 & F1). destruct (two_bins [1] 1 true _ 0 1 BY ltac:(lra)) as (g2 & F2).
  rewrite F1 in E1. rewrite F2 in E2. injection E1 as _ <-. injection E2 as _ <-.
  assert (S00 : share (1 - 0) (point 0 (1 - 0) 0) 0 = 1).
  { unfold share, point. cbn. replace (0 - (0 + 0 * (1 - 0))) with 0 by ring. rewrite Rabs_R0. rewrite Rmax_right; lra. }
  assert (S10 : share (1 - 0) (point 0 (1 - 0) 1) 0 = 0).
  { unfold share, point. cbn. replace (0 - (0 + 1 * (1 - 0))) with (- (1)) by ring. rewrite Rabs_Ropp, Rabs_R1. rewrite Rmax_left; lra. }
  assert (S01 : share (1 - 0) (point 0 (1 - 0) 0) 1 = 0).
  { unfold share, point. cbn. replace (1 - (0 + 0 * (1 - 0))) with 1 by ring. rewrite Rabs_R1. rewrite Rmax_left; lra. }
  exists [0], [1], 1, 2%Z, true. eexists. split; [exact V|].
  unfold divergence_terms, integral, density_1d. cbn [combine map add_up fst snd length nth Nat.sub].
  rewrite S00, S10, S01. change (Z.to_nat 2) with 2%nat. unfold spacing. cbn [INR].
  replace ((1 + 0) / (1 * (1 - 0))) with 1 by field. replace ((0 + 0) / (1 * (1 - 0))) with 0 by field.
  set (e := kde_model.EPSILON). assert (E : 0 < e) by apply eps_positive.
  set (L := ln ((1 + e) / (0 + e))). cbn. enough (2 < L) by lra. unfold L.
  rewrite <- (ln_exp 2). apply ln_increasing; [apply exp_pos|].
  assert (EXP : exp 2 < 10).
  { replace 2 with (1 + 1) by ring. rewrite exp_plus. pose proof exp_le_3 as X. pose proof (exp_pos 1).
    apply Rle_lt_trans with (3 * 3); [apply Rmult_le_compat; lra|]. lra. }
  enough (10 <= (1 + e) / (0 + e)) by lra. apply Rmult_le_reg_r with e; [exact E|].
  replace ((1 + e) / (0 + e) * e) with (1 + e) by (field; lra).
  assert (e <= / 10); [|lra]. unfold e, kde_model.EPSILON. apply Rinv_le_contravar; [lra|]. apply IZR_le. lia.
Qed.
