(** * Theorems on the values of the density estimates (C125). *)

From Coq Require Import List ZArith Reals Bool Lia Lra.
Import ListNotations.
From Verif Require Import Py hac_model quant_spec kde_model kde_spec kdeval_spec kdeval_proof kdeval_witness.
Local Open Scope R_scope.

(** In one dimension, item [t] of the estimate is the density of the bins spread by
    the normalized Gaussian curve, and belongs to the point [t - (n - 1) / 2] of the
    grid. *)
Theorem C125_values_1d : forall xs h nb fft bounds lo hi, (2 <= nb)%Z -> in_bounds xs bounds lo hi -> h <> 0 ->
  let n := Z.to_nat nb in let delta := spacing lo hi n in
  exists g kde, gaussian_kde_1d true xs h nb fft bounds = Ok (g, kde) /\ length kde = (2 * n - 2)%nat /\
    forall t, (t < 2 * n - 2)%nat -> nth t kde 0 = smooth_1d h delta (n - 1) n (density_1d lo delta xs) t.
Proof. exact values_1d. Qed.
Print Assumptions C125_values_1d.

(** In two dimensions, item [(a, b)] of the estimate belongs to a point that is half a
    step or one step before [(a, b)] in both directions. *)
Theorem C125_values_2d : forall samples pts h_x h_y nb fft bounds x_lo y_lo x_hi y_hi, (2 <= nb)%Z ->
  in_bounds_2d samples pts bounds x_lo y_lo x_hi y_hi -> h_x <> 0 -> h_y <> 0 ->
  let n := Z.to_nat nb in let dx := spacing x_lo x_hi n in let dy := spacing y_lo y_hi n in
  exists xg yg kde, gaussian_kde_2d true samples h_x h_y nb fft bounds = Ok (xg, yg, kde) /\
    length xg = n /\ length yg = n /\
    (forall j, (j < n)%nat -> nth j xg 0 = point x_lo dx j /\ nth j yg 0 = point y_lo dy j) /\
    array_2d n n kde (smooth_2d h_x h_y dx dy (n - 1) n (density_2d x_lo y_lo dx dy pts)).
Proof. exact values_2d. Qed.
Print Assumptions C125_values_2d.

(** So that the returned grid is not the grid of the estimate: when all samples are at
    one point of a grid with an odd number of points, the estimate is larger at the
    next point than there. *)
Theorem C125_grid_refuted : forall h_x h_y nb fft x_lo y_lo x_hi y_hi c k l, (3 <= nb)%Z ->
  x_lo < x_hi -> y_lo < y_hi -> h_x <> 0 -> h_y <> 0 -> (0 < c)%nat ->
  let n := Z.to_nat nb in let dx := spacing x_lo x_hi n in let dy := spacing y_lo y_hi n in
  (k + 1 < n)%nat -> (l + 1 < n)%nat -> Nat.even (n - 1) = true ->
  let p := [point x_lo dx k; point y_lo dy l] in
  exists xg yg kde,
    gaussian_kde_2d true (Mat 2 (repeat p c)) h_x h_y nb fft (Some ((x_lo, y_lo), (x_hi, y_hi))) = Ok (xg, yg, kde) /\
    nth k xg 0 = point x_lo dx k /\ nth l yg 0 = point y_lo dy l /\
    nth l (nth k kde []) 0 < nth (l + 1) (nth (k + 1) kde []) 0.
Proof. exact place_2d. Qed.
Print Assumptions C125_grid_refuted.

(** ** Cases that meet the hypotheses *)
Example C125_ex_1d : in_bounds [0; 1; 2] None 0 2.
Proof.
  split; [discriminate|]. split; [repeat constructor; lra|]. split; [lra|].
  split; (split; [cbn; auto|repeat constructor; lra]).
Qed.
Example C125_ex_2d : in_bounds_2d (Mat 2 [[0; 1]; [2; 3]; [1; 1]]) [(0, 1); (2, 3); (1, 1)] None 0 1 2 3.
Proof.
  split; [reflexivity|]. split; [reflexivity|]. split; [discriminate|].
  split; [repeat constructor; cbn; lra|]. split; [repeat constructor; cbn; lra|]. split; [lra|]. split; [lra|].
  repeat split; cbn; auto; repeat constructor; lra.
Qed.
(** Five points: the sample is at the point 1, the estimate is larger at the point 2. *)
Example C125_ex_place : (3 <= 5)%Z /\ (1 + 1 < Z.to_nat 5)%nat /\ Nat.even (Z.to_nat 5 - 1) = true.
Proof. repeat split; vm_compute; discriminate || lia. Qed.
