(** * Theorems on scalings, projections, shears, clip matrices and cells (C110). *)

From Coq Require Import List ZArith Arith Reals Bool Lra Lia.
Import ListNotations.
From Verif Require Import Py transf_model affine_model affine_spec affine_proof affine_quat affine2_model affine2_spec affine2_proof.
Local Open Scope R_scope.

(** Scalings; without origin, it is zero. *)
Theorem C110_scale factor origin p p' : image (scale_matrix factor (Some origin) None) p p' <-> enlarged origin factor p p'.
Proof. exact (enlarge_image factor origin p p'). Qed.
Theorem C110_scale_direction factor origin direction p p' : direction <> vzero ->
  image (scale_matrix factor (Some origin) (Some direction)) p p' <-> stretched origin direction factor p p'.
Proof. exact (stretch_image factor origin direction p p'). Qed.
Theorem C110_scale_origin factor direction : same4 (scale_matrix factor None direction) (scale_matrix factor (Some vzero) direction).
Proof. exact (scale_origin factor direction). Qed.
(** Projections on a plane: along its normal, along a direction, or from an eye. *)
Theorem C110_orthogonal point normal p p' : normal <> vzero ->
  image (projection_matrix point normal None None false) p p' <-> projected point normal normal p p'.
Proof. exact (ortho_image point normal p p'). Qed.
Theorem C110_parallel point normal direction p p' : normal <> vzero -> inner direction normal <> 0 ->
  image (projection_matrix point normal (Some direction) None false) p p' <-> projected point normal direction p p'.
Proof. exact (parallel_image point normal direction p p'). Qed.
(** The direction is not used with an eye; points at the height of the eye have no image. *)
Theorem C110_perspective point normal direction eye p p' : normal <> vzero ->
  image (projection_matrix point normal direction (Some eye) false) p p' <-> inner (vsub p eye) normal <> 0 /\ seen_from point normal eye p p'.
Proof. exact (persp_image point normal direction eye p p'). Qed.
(** Pseudo perspective, then the orthogonal projection, is perspective; farther points get
    larger heights. *)
Theorem C110_pseudo point normal direction eye p p' : normal <> vzero ->
  image (projection_matrix point normal direction (Some eye) false) p p' <->
  exists q, image (projection_matrix point normal direction (Some eye) true) p q /\ image (projection_matrix point normal None None false) q p'.
Proof. exact (pseudo_image point normal direction eye p p'). Qed.
Theorem C110_pseudo_depth point normal direction eye p1 p2 q1 q2 : normal <> vzero ->
  image (projection_matrix point normal direction (Some eye) true) p1 q1 -> image (projection_matrix point normal direction (Some eye) true) p2 q2 ->
  0 < inner (vsub point eye) normal * inner (vsub p1 eye) normal -> 0 < inner (vsub point eye) normal * inner (vsub p2 eye) normal ->
  Rabs (inner (vsub p2 eye) normal) < Rabs (inner (vsub p1 eye) normal) -> height point normal q2 < height point normal q1.
Proof. exact (pseudo_depth point normal direction eye p1 p2 q1 q2). Qed.
(** Clip matrices: which volumes are accepted, and that exactly their points have images
    with coordinates between -1 and 1. *)
Theorem C110_clip left right bottom top near far perspective : (exists m, clip_matrix left right bottom top near far perspective = Ok m) <->
  left < right /\ bottom < top /\ near < far /\ (perspective = true -> EPS < near).
Proof. exact (clip_value left right bottom top near far perspective). Qed.
Theorem C110_clip_refused left right bottom top near far perspective :
  ~ (left < right /\ bottom < top /\ near < far /\ (perspective = true -> EPS < near)) ->
  clip_matrix left right bottom top near far perspective = Err ValueError.
Proof.
  intro N. unfold clip_matrix. destruct (Rle_dec right left); [reflexivity|]. destruct (Rle_dec top bottom); [reflexivity|]. destruct (Rle_dec far near); [reflexivity|].
  destruct perspective; [destruct (Rle_dec near EPS); [reflexivity|]|]; exfalso; apply N; repeat split; try lra; discriminate.
Qed.
Theorem C110_clip_box left right bottom top near far m p p' : clip_matrix left right bottom top near far false = Ok m -> image m p p' ->
  (in_box left right bottom top near far p <-> in_cube p').
Proof. exact (clip_box left right bottom top near far m p p'). Qed.
Theorem C110_clip_pyramid left right bottom top near far m p p' : clip_matrix left right bottom top near far true = Ok m -> image m p p' ->
  (in_pyramid left right bottom top near far p <-> in_cube p').
Proof. exact (clip_pyramid left right bottom top near far m p p'). Qed.
(** Shears: accepted if the cosine of direction and normal is at most 1e-6. *)
Theorem C110_shear_accepted angle direction point normal : direction <> vzero -> normal <> vzero ->
  (Rabs (inner normal direction) <= 1 / 10 ^ 6 * (vlength normal * vlength direction) <-> exists m, shear_matrix angle direction point normal = Ok m) /\
  (forall e, shear_matrix angle direction point normal = Err e -> e = ValueError).
Proof. exact (shear_ok angle direction point normal). Qed.
Theorem C110_shear angle direction point normal m p p' : direction <> vzero -> normal <> vzero -> shear_matrix angle direction point normal = Ok m ->
  image m p p' <-> sheared angle direction point normal p p'.
Proof. exact (shear_image angle direction point normal m p p'). Qed.
(** Volumes are kept if direction and normal are orthogonal, not by all shears. *)
Theorem C110_shear_volume angle direction point normal m : direction <> vzero -> normal <> vzero -> shear_matrix angle direction point normal = Ok m ->
  inner direction normal = 0 -> inner (column m 0) (vcross (column m 1) (column m 2)) = 1.
Proof. intros D N E O. rewrite (shear_det angle direction point normal m D N E), O. unfold Rdiv. ring. Qed.
Lemma tilted : vlength (V3 1 0 (1 / 10 ^ 7)) >= 1.
Proof. unfold vlength, inner. cbn [vx vy vz]. apply Rle_ge. apply Rle_trans with (sqrt 1); [rewrite sqrt_1; lra|apply sqrt_le_1; lra]. Qed.
Lemma upright : vlength (V3 0 0 1) = 1.
Proof. unfold vlength, inner. cbn [vx vy vz]. replace (0 * 0 + 0 * 0 + 1 * 1) with 1 by ring. apply sqrt_1. Qed.
Theorem C110_shear_volume_refuted : ~ forall angle direction point normal m, direction <> vzero -> normal <> vzero -> shear_matrix angle direction point normal = Ok m ->
  inner (column m 0) (vcross (column m 1) (column m 2)) = 1.
Proof.
  intros H. set (d := V3 1 0 (1 / 10 ^ 7)). set (n := V3 0 0 1).
  assert (D : d <> vzero) by (intros E; injection E; intros; lra). assert (N : n <> vzero) by (intros E; injection E; intros; lra).
  assert (I : inner n d = 1 / 10 ^ 7) by (unfold inner, n, d; cbn [vx vy vz]; ring). assert (I' : inner d n = 1 / 10 ^ 7) by (unfold inner, n, d; cbn [vx vy vz]; ring).
  assert (A : Rabs (inner n d) <= 1 / 10 ^ 6 * (vlength n * vlength d)) by (rewrite I, Rabs_right by lra; unfold n; rewrite upright; pose proof tilted as T; fold d in T; lra).
  apply (proj1 (C110_shear_accepted (PI / 4) d vzero n D N)) in A. destruct A as (m & E). pose proof (H _ _ _ _ m D N E) as G. rewrite (shear_det _ _ _ _ m D N E), tan_PI4, I' in G.
  unfold n in G. rewrite upright in G. pose proof tilted as T. fold d in T. set (l := vlength d) in *. assert (0 < 1 * (1 / 10 ^ 7) / (l * 1)) by (apply Rdiv_lt_0_compat; lra). lra.
Qed.
(** The columns of the matrix of a cell have the lengths and angles of the cell. *)
Theorem C110_cell a b c alpha beta gamma : let A := degrees alpha in let B := degrees beta in let G := degrees gamma in
  sin A <> 0 -> sin B <> 0 -> Rabs (cos A * cos B - cos G) <= Rabs (sin A * sin B) ->
  let m := orthogonalization_matrix (V3 a b c) (V3 alpha beta gamma) in
  inner (column m 0) (column m 0) = a * a /\ inner (column m 1) (column m 1) = b * b /\ inner (column m 2) (column m 2) = c * c /\
  inner (column m 0) (column m 1) = a * b * cos G /\ inner (column m 0) (column m 2) = a * c * cos B /\ inner (column m 1) (column m 2) = b * c * cos A.
Proof. exact (cell_columns a b c alpha beta gamma). Qed.

Print Assumptions C110_scale.
Print Assumptions C110_scale_direction.
Print Assumptions C110_scale_origin.
Print Assumptions C110_orthogonal.
Print Assumptions C110_parallel.
Print Assumptions C110_perspective.
Print Assumptions C110_pseudo.
Print Assumptions C110_pseudo_depth.
Print Assumptions C110_clip.
Print Assumptions C110_clip_refused.
Print Assumptions C110_clip_box.
Print Assumptions C110_clip_pyramid.
Print Assumptions C110_shear_accepted.
Print Assumptions C110_shear.
Print Assumptions C110_shear_volume.
Print Assumptions C110_shear_volume_refuted.
Print Assumptions C110_cell.

(** ** Examples *)
Definition z_axis := V3 0 0 1.
Example ex_axis : z_axis <> vzero.
Proof. intros E. injection E as E. lra. Qed.
Example ex_scale : image (scale_matrix 3 (Some (V3 0 0 1)) (Some z_axis)) (V3 1 2 3) (V3 1 2 7).
Proof. apply C110_scale_direction; [exact ex_axis|]. split; [exists 4; unfold vsub, times; cbn; f_equal; lra|unfold inner, vsub; cbn; lra]. Qed.
(** The shadow of a point on the floor, from a lamp at height 4. *)
Example ex_shadow : image (projection_matrix vzero z_axis None (Some (V3 0 0 4)) false) (V3 1 0 2) (V3 2 0 0).
Proof.
  apply C110_perspective; [exact ex_axis|]. unfold seen_from, on_plane, parallel, inner, vsub, times. cbn. split; [lra|]. split; [lra|]. exists 2. f_equal; lra.
Qed.
Example ex_parallel : image (projection_matrix vzero z_axis (Some (V3 1 0 1)) None false) (V3 5 1 2) (V3 3 1 0).
Proof. apply C110_parallel; [exact ex_axis|unfold inner; cbn; lra|]. unfold projected, on_plane, parallel, inner, vsub, times. cbn. split; [lra|]. exists (-2). f_equal; lra. Qed.
(** Two points between the eye and the plane. *)
Example ex_depth : 0 < inner (vsub vzero (V3 0 0 4)) z_axis * inner (vsub (V3 1 0 1) (V3 0 0 4)) z_axis /\ 0 < inner (vsub vzero (V3 0 0 4)) z_axis * inner (vsub (V3 1 0 2) (V3 0 0 4)) z_axis /\
  Rabs (inner (vsub (V3 1 0 2) (V3 0 0 4)) z_axis) < Rabs (inner (vsub (V3 1 0 1) (V3 0 0 4)) z_axis).
Proof. unfold inner, vsub. cbn. repeat split; try lra. rewrite !Rabs_left; lra. Qed.
Example ex_clip : (exists m, clip_matrix 0 1 0 1 1 2 true = Ok m) /\ in_pyramid 0 1 0 1 1 2 (V3 2 1 2).
Proof.
  split; [apply C110_clip; pose proof EPS_small; repeat split; intros; lra|]. unfold in_pyramid. cbn. split; [lra|]. exists (V3 1 (1 / 2) 1). cbn. repeat split; try lra. unfold times. cbn. f_equal; lra.
Qed.
Example ex_shear : exists m, shear_matrix (PI / 4) (V3 1 0 0) vzero z_axis = Ok m /\ image m (V3 0 0 2) (V3 2 0 2).
Proof.
  assert (D : V3 1 0 0 <> vzero) by (intros E; injection E; intros; lra). assert (L : vlength (V3 1 0 0) = 1) by (unfold vlength, inner; cbn [vx vy vz]; replace (1 * 1 + 0 * 0 + 0 * 0) with 1 by ring; apply sqrt_1).
  assert (A : Rabs (inner z_axis (V3 1 0 0)) <= 1 / 10 ^ 6 * (vlength z_axis * vlength (V3 1 0 0))).
  { unfold z_axis at 2. rewrite upright, L. unfold inner. cbn [z_axis vx vy vz]. replace (0 * 1 + 0 * 0 + 1 * 0) with 0 by ring. rewrite Rabs_R0. lra. }
  apply (proj1 (C110_shear_accepted (PI / 4) (V3 1 0 0) vzero z_axis D ex_axis)) in A. destruct A as (m & E). exists m. split; [exact E|].
  apply (C110_shear _ _ _ _ m _ _ D ex_axis E). exists vzero, 2. unfold z_axis. rewrite upright, L, tan_PI4. unfold on_plane, inner, vsub, times, vzero. cbn. repeat split; try lra; f_equal; lra.
Qed.
(** Right angles. *)
Example ex_cell : sin (degrees 90) <> 0 /\ Rabs (cos (degrees 90) * cos (degrees 90) - cos (degrees 90)) <= Rabs (sin (degrees 90) * sin (degrees 90)).
Proof.
  unfold degrees. replace (90 / 180 * PI) with (PI / 2) by field. rewrite sin_PI2, cos_PI2. split; [lra|]. replace (0 * 0 - 0) with 0 by ring. rewrite Rabs_R0. apply Rabs_pos.
Qed.
Example ex_clip_refused : clip_matrix 1 0 0 1 1 2 false = Err ValueError.
Proof. apply C110_clip_refused. lra. Qed.
