(** * Theorems on homogeneous matrices (C109). *)

From Coq Require Import List ZArith Arith Reals Bool Lra Lia.
Import ListNotations.
From Verif Require Import transf_model affine_model affine_spec affine_proof affine_quat.
Local Open Scope R_scope.

(** A translation adds its vector, which can be read from the matrix. *)
Theorem C109_translation v p p' : image (translation_matrix v) p p' <-> p' = vadd p v.
Proof. exact (translation_image v p p'). Qed.
Theorem C109_translation_from v : translation_from_matrix (translation_matrix v) = v.
Proof. exact (translation_back v). Qed.
(** The image of a reflection is the mirror image; twice, it is the identity. *)
Theorem C109_reflection point normal p p' : normal <> vzero -> image (reflection_matrix point normal) p p' <-> mirrored point normal p p'.
Proof. exact (reflection_image point normal p p'). Qed.
Theorem C109_reflection_twice point normal : normal <> vzero -> same4 (mdot (reflection_matrix point normal) (reflection_matrix point normal)) identity_matrix.
Proof. exact (reflection_twice point normal). Qed.
(** The image of a rotation is the point turned by the angle about the axis. *)
Theorem C109_rotation angle direction point p p' : direction <> vzero ->
  image (rotation_matrix angle direction (Some point)) p p' <-> turned_about point direction angle p p'.
Proof. exact (rotation_image angle direction point p p'). Qed.
Theorem C109_rotation_origin angle direction : same4 (rotation_matrix angle direction None) (rotation_matrix angle direction (Some vzero)).
Proof. exact (rotation_origin angle direction). Qed.
Theorem C109_rotation_add a b direction point : direction <> vzero ->
  same4 (mdot (rotation_matrix a direction point) (rotation_matrix b direction point)) (rotation_matrix (a + b) direction point).
Proof. exact (rotation_add a b direction point). Qed.
Theorem C109_rotation_same angle direction point : direction <> vzero ->
  same4 (rotation_matrix (- angle) (times (-1) direction) point) (rotation_matrix angle direction point) /\
  same4 (rotation_matrix (angle + 2 * PI) direction point) (rotation_matrix angle direction point).
Proof. intros N. split; [exact (rotation_opposite angle direction point N)|exact (rotation_period angle direction point)]. Qed.
(** The quaternion about an axis has the same matrix, unless the axis is very short. *)
Theorem C109_quaternion angle axis : EPS < vlength axis -> same4 (quaternion_matrix (quaternion_about_axis angle axis)) (rotation_matrix angle axis None).
Proof. exact (axis_matrix angle axis). Qed.
Theorem C109_quaternion_refuted : ~ forall angle axis, axis <> vzero -> same4 (quaternion_matrix (quaternion_about_axis angle axis)) (rotation_matrix angle axis None).
Proof. intros H. destruct axis_short as (d & N & D). apply D, H, N. Qed.
(** A concatenation applies the matrices one after the other, the last one first. *)
Theorem C109_concatenate ms p p' : images ms p p' -> image (concatenate_matrices ms) p p'.
Proof. exact (concat_images ms p p'). Qed.
(** Proportional matrices are the same transformation; the comparison is not symmetric. *)
Theorem C109_same m n t : t <> 0 -> n 3%nat 3%nat <> 0 -> same4 m (fun i j => t * n i j) -> is_same_transform m n = true.
Proof. exact (same_multiple m n t). Qed.
Theorem C109_same_symmetric_refuted : ~ forall m n, is_same_transform m n = is_same_transform n m.
Proof. intros H. destruct same_not_symmetric as (m & n & A & B). rewrite H in A. congruence. Qed.

Print Assumptions C109_translation.
Print Assumptions C109_translation_from.
Print Assumptions C109_reflection.
Print Assumptions C109_reflection_twice.
Print Assumptions C109_rotation.
Print Assumptions C109_rotation_origin.
Print Assumptions C109_rotation_add.
Print Assumptions C109_rotation_same.
Print Assumptions C109_quaternion.
Print Assumptions C109_quaternion_refuted.
Print Assumptions C109_concatenate.
Print Assumptions C109_same.
Print Assumptions C109_same_symmetric_refuted.

(** ** Examples *)
Definition up := V3 0 0 2.
Example ex_up : up <> vzero.
Proof. intros E. injection E as E. lra. Qed.
(** The plane z = 1. *)
Example ex_mirror : image (reflection_matrix (V3 5 5 1) up) (V3 1 2 3) (V3 1 2 (-1)).
Proof. apply C109_reflection; [exact ex_up|]. unfold mirrored, inner, vsub, vadd, times. cbn. split; [lra|]. exists (-2). f_equal; lra. Qed.
Example ex_up_length : vlength up = 2.
Proof. unfold vlength, inner. cbn. replace (0 * 0 + 0 * 0 + 2 * 2) with (2 * 2) by ring. apply sqrt_square. lra. Qed.
(** A quarter of a turn about the vertical axis through (1, 0, 0). *)
Example ex_quarter : image (rotation_matrix (PI / 2) up (Some (V3 1 0 0))) (V3 2 0 7) (V3 1 1 7).
Proof.
  apply image_affine; try reflexivity. rewrite rotation_value. cbv zeta. unfold unit_vector. rewrite <- ?ex_up_length. unfold vlength, inner, vdot in *.
  pose proof ex_up_length as L. unfold vlength, inner in L. rewrite L. unfold spun. rewrite sin_PI2, cos_PI2. unfold vadd, vsub, times, inner, vcross. cbn. apply vec_eq; cbn; field.
Qed.
Example ex_axis : EPS < vlength up.
Proof. rewrite ex_up_length. pose proof EPS_small. lra. Qed.
Example ex_frame : frame3 (V3 1 0 0) (V3 0 1 0) (V3 0 0 1) /\ up = times 2 (V3 0 0 1).
Proof. unfold frame3, inner, vcross, times, up. cbn. repeat split; try lra; f_equal; lra. Qed.
(** The mirror image, then a translation. *)
Example ex_images : images [translation_matrix (V3 1 0 0); reflection_matrix (V3 5 5 1) up] (V3 1 2 3) (V3 2 2 (-1)).
Proof.
  apply images_cons with (V3 1 2 (-1)); [|apply C109_translation; unfold vadd; cbn; f_equal; lra]. apply images_cons with (V3 1 2 3); [constructor|exact ex_mirror].
Qed.
Example ex_same : is_same_transform (fun i j => 3 * identity_matrix i j) identity_matrix = true.
Proof. apply (C109_same _ _ 3); [lra|cbn; lra|]. intros i j _ _. reflexivity. Qed.
