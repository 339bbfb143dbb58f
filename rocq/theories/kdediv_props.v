(** * Entropy and divergence of two dimensional samples (C107). *)

From Coq Require Import List ZArith Arith Reals Bool Lia Lra.
Import ListNotations.
From Verif Require Import Py hac_model quant_model quant_spec kde_model kde_spec kdediv_model kdediv_spec kdediv_proof.
Local Open Scope R_scope.

(** The number returned is the opposite of the integral that defines the divergence of the
    two estimates, on the smallest rectangle that has all the samples; the steps of the two
    integrals are exchanged in the code, which changes nothing.  So it is at most the
    difference of the masses of the estimates, up to EPSILON times the area. *)
Theorem C107_opposite : forall x y px py h_x h_y nb fft x_lo y_lo x_hi y_hi, (2 <= nb)%Z -> rows_are x px -> rows_are y py ->
  common_bounds_2d px py x_lo y_lo x_hi y_hi -> h_x <> 0 -> h_y <> 0 ->
  let n := Z.to_nat nb in let dx := spacing x_lo x_hi n in let dy := spacing y_lo y_hi n in
  let b := Some ((x_lo, y_lo), (x_hi, y_hi)) in
  exists xg yg p q v, gaussian_kde_2d true x h_x h_y nb fft b = Ok (xg, yg, p) /\ gaussian_kde_2d true y h_x h_y nb fft b = Ok (xg, yg, q) /\
    length xg = n /\ length yg = n /\ (forall j, (j < n)%nat -> nth j xg 0 = point x_lo dx j /\ nth j yg 0 = point y_lo dy j) /\
    kde_KL_divergence_2d true x y h_x h_y nb fft = Ok v /\ v = - integral_2d dx dy (divergence_terms_2d kde_model.EPSILON p q) /\
    v <= integral_2d dx dy q - integral_2d dx dy p + (x_hi - x_lo) * (y_hi - y_lo) * kde_model.EPSILON.
Proof. exact value_2d. Qed.
Theorem C107_same_samples : forall x px h_x h_y nb fft x_lo y_lo x_hi y_hi, (2 <= nb)%Z -> in_bounds_2d x px None x_lo y_lo x_hi y_hi ->
  h_x <> 0 -> h_y <> 0 -> kde_KL_divergence_2d true x x h_x h_y nb fft = Ok 0.
Proof. exact same_2d. Qed.
(** A divergence is not negative; the returned number can be. *)
Theorem C107_nonnegative_refuted : exists x y h_x h_y nb fft v, kde_KL_divergence_2d true x y h_x h_y nb fft = Ok v /\ v < -1.
Proof. exact negative_2d. Qed.
Theorem C107_errors : forall float_index x y h_x h_y nb fft,
  (nb < 2)%Z \/ mcols x <> 2%nat \/ mcols y <> 2%nat \/ mrows x = [] \/ mrows y = [] ->
  kde_KL_divergence_2d float_index x y h_x h_y nb fft = Err ValueError.
Proof. exact errors_2d. Qed.
(** Where numpy refuses floats as indices there is never a result. *)
Theorem C107_recent_numpy : forall x y h_x h_y nb fft r, kde_KL_divergence_2d false x y h_x h_y nb fft <> Ok r.
Proof. exact recent_2d. Qed.
(** The entropy is never computed: one argument of a call is missing. *)
Theorem C107_entropy_refuted : forall float_index samples h nb fft, kde_entropy_gaussian_2d float_index samples h nb fft = Err TypeError.
Proof. exact entropy_call. Qed.
Print Assumptions C107_opposite.
Print Assumptions C107_same_samples.
Print Assumptions C107_nonnegative_refuted.
Print Assumptions C107_errors.
Print Assumptions C107_recent_numpy.
Print Assumptions C107_entropy_refuted.

(** ** Cases that meet the hypotheses *)
Example C107_ex_common : common_bounds_2d [(0, 1); (1, 2)] [(-1, 0); (1 / 2, 3)] (-1) 0 1 3.
Proof. unfold common_bounds_2d, smallest, largest. cbn. repeat split; try tauto; try lra; repeat constructor; lra. Qed.
Example C107_ex_rows : rows_are (Mat 2 [[0; 1]; [1; 2]]) [(0, 1); (1, 2)] /\ rows_are (Mat 2 [[-1; 0]; [1 / 2; 3]]) [(-1, 0); (1 / 2, 3)].
Proof. split; (split; [reflexivity|]; split; [reflexivity|discriminate]). Qed.
Example C107_ex_same : in_bounds_2d (Mat 2 [[0; 1]; [1; 3]]) [(0, 1); (1, 3)] None 0 1 1 3.
Proof. unfold in_bounds_2d, smallest, largest, within. cbn. repeat split; try tauto; try lra; try discriminate; repeat constructor; cbn; lra. Qed.
