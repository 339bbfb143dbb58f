(** * Theorems on kernel density estimators (C65, C81, C82). *)

From Coq Require Import List ZArith Arith Reals Bool Lia Lra.
Import ListNotations.
From Verif Require Import Py Py_proof hac_model quant_model quant_spec quant_proof
  kde_model kde_spec kde_proof kde_two kde_kl kde_cases.
Open Scope py_scope.
Local Open Scope R_scope.

(** Samples within bounds and at least two bins: the grid, the weights (each sample
    is shared between its two neighbours), their signs, their mass 1 / delta and
    the mean of the samples, which the bins have too. *)
Theorem C65_bins_1d : forall xs nb bounds lo hi, (2 <= nb)%Z -> in_bounds xs bounds lo hi ->
  let n := Z.to_nat nb in let delta := spacing lo hi n in
  exists g bins, get_bins_1d true xs nb bounds = Ok (g, bins) /\ length g = n /\ length bins = n /\
    (forall j, (j < n)%nat -> nth j g 0 = point lo delta j /\ nth j bins 0 = density_1d lo delta xs j) /\
    nonnegative bins /\ add_up bins = / delta /\ dot bins g * delta = mean xs.
Proof. exact bins_1d_all. Qed.
Print Assumptions C65_bins_1d.

(** Too few bins, no sample or samples out of the bounds: ValueError. *)
Theorem C65_errors_1d : forall float_index xs nb bounds,
  (nb < 2)%Z \/ xs = [] \/ (exists lo hi, bounds = Some (lo, hi) /\ ~ within lo hi xs) ->
  get_bins_1d float_index xs nb bounds = Err ValueError.
Proof. exact bins_1d_errors. Qed.
Print Assumptions C65_errors_1d.

(** Where numpy refuses floats as indices the function never returns. *)
Theorem C65_recent_numpy : forall xs nb bounds,
  (forall r, get_bins_1d false xs nb bounds <> Ok r) /\
  (forall lo hi, (2 <= nb)%Z -> in_bounds xs bounds lo hi -> get_bins_1d false xs nb bounds = Err IndexError).
Proof. exact bins_1d_recent. Qed.
Print Assumptions C65_recent_numpy.

(** The same in two dimensions. *)
Theorem C65_bins_2d : forall samples pts nb bounds x_lo y_lo x_hi y_hi, (2 <= nb)%Z ->
  in_bounds_2d samples pts bounds x_lo y_lo x_hi y_hi ->
  let n := Z.to_nat nb in let dx := spacing x_lo x_hi n in let dy := spacing y_lo y_hi n in
  exists xg yg bins, get_bins_2d true samples nb bounds = Ok (xg, yg, bins) /\
    length xg = n /\ length yg = n /\
    (forall j, (j < n)%nat -> nth j xg 0 = point x_lo dx j /\ nth j yg 0 = point y_lo dy j) /\
    array_2d n n bins (density_2d x_lo y_lo dx dy pts) /\
    Forall nonnegative bins /\ total bins = / (dx * dy).
Proof. exact bins_2d_all. Qed.
Print Assumptions C65_bins_2d.

Theorem C65_errors_2d : forall float_index samples nb bounds,
  (nb < 2)%Z \/ mcols samples <> 2%nat \/ (mrows samples = [] /\ bounds = None) ->
  get_bins_2d float_index samples nb bounds = Err ValueError.
Proof. exact bins_2d_errors. Qed.
Print Assumptions C65_errors_2d.

Theorem C65_recent_numpy_2d : forall samples nb bounds r,
  mrows samples <> [] -> get_bins_2d false samples nb bounds <> Ok r.
Proof. exact bins_2d_index. Qed.
Print Assumptions C65_recent_numpy_2d.

(** But in two dimensions the bounds are not checked: samples out of the bounds can
    give negative weights, without an error. *)
Theorem C65_unchecked_bounds_refuted :
  exists samples lo hi xg yg bins, ~ within (fst lo) (fst hi) (map (fun r => nth 0 r 0) (mrows samples)) /\
    get_bins_2d true samples 2 (Some (lo, hi)) = Ok (xg, yg, bins) /\ ~ Forall nonnegative bins.
Proof. exact unchecked_bounds. Qed.
Print Assumptions C65_unchecked_bounds_refuted.

(** Smoothing in one dimension keeps the mass; the estimate has 2 n - 2 values. *)
Theorem C81_smooth_1d : forall xs h nb fft bounds lo hi, (2 <= nb)%Z -> in_bounds xs bounds lo hi -> h <> 0 ->
  let n := Z.to_nat nb in let delta := spacing lo hi n in
  exists g kde, gaussian_kde_1d true xs h nb fft bounds = Ok (g, kde) /\ length g = n /\ length kde = (2 * n - 2)%nat /\
    (forall j, (j < n)%nat -> nth j g 0 = point lo delta j) /\ nonnegative kde /\ add_up kde = / delta.
Proof. exact kde_1d. Qed.
Print Assumptions C81_smooth_1d.

(** In two dimensions the estimate has the size of the grid and no more mass than
    the bins. *)
Theorem C81_smooth_2d : forall samples pts h_x h_y nb fft bounds x_lo y_lo x_hi y_hi, (2 <= nb)%Z ->
  in_bounds_2d samples pts bounds x_lo y_lo x_hi y_hi -> h_x <> 0 -> h_y <> 0 ->
  let n := Z.to_nat nb in let dx := spacing x_lo x_hi n in let dy := spacing y_lo y_hi n in
  exists xg yg kde, gaussian_kde_2d true samples h_x h_y nb fft bounds = Ok (xg, yg, kde) /\
    length kde = n /\ Forall (fun r => length r = n) kde /\ Forall nonnegative kde /\ total kde <= / (dx * dy).
Proof. exact kde_2d. Qed.
Print Assumptions C81_smooth_2d.

(** The estimated divergence is the opposite of the integral that defines it, so that
    it is at most the difference of the values at the ends, up to EPSILON. *)
Theorem C82_opposite : forall x y h nb fft lo hi, (2 <= nb)%Z -> common_bounds x y lo hi -> h <> 0 ->
  let delta := spacing lo hi (Z.to_nat nb) in
  exists g p q v, gaussian_kde_1d true x h nb fft (Some (lo, hi)) = Ok (g, p) /\
    gaussian_kde_1d true y h nb fft (Some (lo, hi)) = Ok (g, q) /\
    kde_KL_divergence_1d true x y h nb fft = Ok v /\ v = - integral delta (divergence_terms kde_model.EPSILON p q) /\
    v <= delta * (ends p - ends q + (INR (length p) - 1) * kde_model.EPSILON).
Proof. exact kl_bound. Qed.
Print Assumptions C82_opposite.

Theorem C82_same_samples : forall x h nb fft lo hi, (2 <= nb)%Z -> in_bounds x None lo hi -> h <> 0 ->
  kde_KL_divergence_1d true x x h nb fft = Ok 0.
Proof. exact kl_same. Qed.
Print Assumptions C82_same_samples.

(** A divergence is not negative; the returned number can be. *)
Theorem C82_nonnegative_refuted : exists x y h nb fft v,
  kde_KL_divergence_1d true x y h nb fft = Ok v /\ v < -1.
Proof. exact kl_negative. Qed.
Print Assumptions C82_nonnegative_refuted.

(** ** Cases that meet the hypotheses *)
Example C65_ex_1d : in_bounds [0; 3 / 10; 1] None 0 1 /\ in_bounds [1 / 4] (Some (-1, 2)) (-1) 2.
Proof.
  split; (split; [discriminate|]; split; [repeat constructor; lra|]; split; [lra|]).
  - split; (split; [cbn; tauto|repeat constructor; lra]).
  - reflexivity.
Qed.
Example C65_ex_wrong : ~ within 0 1 [1 / 2; 3 / 2].
Proof. intros W. inversion W as [|? ? _ W']; subst. inversion W' as [|? ? H _]; subst. lra. Qed.
Example C65_ex_2d : in_bounds_2d (Mat 2 [[0; 1]; [1; 3]]) [(0, 1); (1, 3)] None 0 1 1 3.
Proof.
  do 3 (split; [try reflexivity; discriminate|]). do 2 (split; [repeat constructor; cbn; lra|]).
  do 2 (split; [lra|]). do 3 (split; [split; [cbn; tauto|repeat constructor; cbn; lra]|]).
  split; [cbn; tauto|repeat constructor; cbn; lra].
Qed.
Example C82_ex_common : common_bounds [0; 1 / 2] [1 / 4; 2] 0 2.
Proof.
  split; [discriminate|]. split; [discriminate|]. split; [|split; [|lra]]; (split; [cbn; tauto|repeat constructor; lra]).
Qed.
