(** * C112: composed and decomposed matrices. *)

From Coq Require Import List Reals Lra Lia.
Import ListNotations.
From Verif Require Import Py transf_model transf_spec affine_model affine_spec affine_proof decompose_model decompose_spec decompose_gs decompose_proof.
Local Open Scope R_scope.

(** The composed matrix sends a point, scaled, sheared, turned about the axes x, y, z and
    moved by the parts that are given, to its quotient by the weight of the perspective. *)
Theorem C112_image s h a t q p p' : weight q (moved_point s h a t vzero) <> 0 ->
  let x := moved_point s h a t p in
  image (compose_matrix s h a t (Some q)) p p' <-> weight q x <> 0 /\ p' = times (/ weight q x) x.
Proof. intros W. exact (compose_image s h a t (Some q) p p' W). Qed.
Theorem C112_image_affine s h a t p p' : image (compose_matrix s h a t None) p p' <-> p' = moved_point s h a t p.
Proof.
  assert (E : times (/ 1) (moved_point s h a t p) = moved_point s h a t p) by (apply vec_eq; unfold times; cbn; field).
  rewrite (compose_image s h a t None p p' R1_neq_R0). cbn [weight_of]. rewrite E. split; [intros (_ & H); exact H|]. intros H. split; [exact R1_neq_R0|exact H].
Qed.

(** Decomposition fails, with ValueError, exactly if the last entry is too small or the
    3 x 3 part loses a direction. *)
Theorem C112_rejects inv m : decompose_matrix inv m = Err ValueError <-> Rabs (m 3%nat 3%nat) < EPS \/ flat m.
Proof. exact (decompose_rejects inv m). Qed.
Theorem C112_accepts inv m : ~ Rabs (m 3%nat 3%nat) < EPS -> ~ flat m -> exists p, decompose_matrix inv m = Ok p.
Proof. intros A B. destruct (decompose_total inv m) as [E|E]; [apply decompose_rejects in E; tauto|exact E]. Qed.

(** The parts: scales of one sign, negative for a mirrored space; the last column; angles
    in their ranges; no perspective if none is seen. *)
Theorem C112_parts inv m p : decompose_matrix inv m = Ok p ->
  one_sign (p_scale p) /\ (0 < vx (p_scale p) <-> right_handed m) /\ p_translate p = column3 (normal_form m) 3 /\
  (- PI < vx (p_angles p) <= PI /\ - (PI / 2) <= vy (p_angles p) <= PI / 2 /\ - PI < vz (p_angles p) <= PI) /\ (~ seen m -> p_perspective p = (0, 0, 0, 1)).
Proof. exact (parts_facts inv m p). Qed.

(** The parts give the matrix back, divided by its last entry. *)
Theorem C112_round_trip inv m p : inverts inv -> decompose_matrix inv m = Ok p -> seen m \/ no_perspective m ->
  same4 (compose_parts p) (normal_form m).
Proof. intros I H. exact (proj1 (proj2 (back_matrix inv m p I H))). Qed.
(** Without a perspective that is seen, up to the last row. *)
Theorem C112_first_rows inv m p : inverts inv -> decompose_matrix inv m = Ok p ->
  (forall i j, (i < 3)%nat -> (j < 4)%nat -> compose_parts p i j = normal_form m i j) /\
  (~ seen m -> forall j, (j < 4)%nat -> compose_parts p 3%nat j = identity4 3%nat j).
Proof. intros I H. destruct (back_matrix inv m p I H) as (A & _ & C). exact (conj A C). Qed.
(** A perspective of at most EPS is lost. *)
Theorem C112_tiny_perspective_refuted inv : inverts inv ->
  exists m p, decompose_matrix inv m = Ok p /\ ~ same4 (compose_parts p) (normal_form m).
Proof. intros I. exists tiny. exact (tiny_lost inv I). Qed.

(** The parts of a composed matrix: those given, if the scales have one sign; the angles
    turn points in the same way, and are those given if they are in their ranges. *)
Theorem C112_same_parts inv s h a t : one_sign s ->
  exists a', decompose_matrix inv (compose_matrix (Some s) (Some h) (Some a) (Some t) None) = Ok (Parts s h a' t (0, 0, 0, 1)) /\
    (forall x, turned_xyz a' x = turned_xyz a x) /\ (no_angle_lost a -> a' = a).
Proof. exact (decompose_compose inv s h a t). Qed.
(** Not with scales of two signs. *)
Theorem C112_same_scale_refuted inv : exists s h a t p, vx s <> 0 /\ vy s <> 0 /\ vz s <> 0 /\
  decompose_matrix inv (compose_matrix (Some s) (Some h) (Some a) (Some t) None) = Ok p /\ p_scale p <> s.
Proof.
  destruct (mixed_signs inv) as (p & E & S). exists (V3 (-1) 1 1), vzero, vzero, vzero, p. cbn [vx vy vz]. do 3 (split; [lra|]). split; [exact E|].
  rewrite S. intros H. apply (f_equal vy) in H. cbn in H. lra.
Qed.
(** With any scales and perspective, the parts compose to the same matrix. *)
Theorem C112_same_matrix inv s h a t q : inverts inv -> weight q t <> 0 -> vx s <> 0 -> vy s <> 0 -> vz s <> 0 ->
  let m := compose_matrix (Some s) (Some h) (Some a) (Some t) (Some q) in
  exists p, decompose_matrix inv m = Ok p /\ (seen m \/ no_perspective m -> same4 (compose_parts p) m).
Proof. exact (recompose inv s h a t q). Qed.
(** A scale of zero is rejected. *)
Theorem C112_zero_scale inv s h a t q : weight q t <> 0 -> vx s = 0 \/ vy s = 0 \/ vz s = 0 ->
  decompose_matrix inv (compose_matrix (Some s) (Some h) (Some a) (Some t) (Some q)) = Err ValueError.
Proof. intros W Z. apply decompose_rejects. right. apply (compose_flat s h a t q W). exact Z. Qed.

Print Assumptions C112_image.
Print Assumptions C112_image_affine.
Print Assumptions C112_rejects.
Print Assumptions C112_accepts.
Print Assumptions C112_parts.
Print Assumptions C112_round_trip.
Print Assumptions C112_first_rows.
Print Assumptions C112_tiny_perspective_refuted.
Print Assumptions C112_same_parts.
Print Assumptions C112_same_scale_refuted.
Print Assumptions C112_same_matrix.
Print Assumptions C112_zero_scale.

(** ** Cases *)
(** Twice as large, then moved, with a perspective. *)
Example case_image : image (compose_matrix (Some (V3 2 2 2)) None None (Some (V3 1 0 0)) (Some (1, 0, 0, 1))) (V3 1 1 0) (V3 (3 / 4) (1 / 2) 0).
Proof.
  apply (proj2 (C112_image (Some (V3 2 2 2)) None None (Some (V3 1 0 0)) (1, 0, 0, 1) (V3 1 1 0) _ ltac:(unfold moved_point, optionally, weight, scaled, vadd, vzero; cbn; lra))).
  unfold moved_point, optionally, weight, scaled, vadd, times. cbn. split; [lra|]. apply vec_eq; cbn; field.
Qed.
(** A projector is rejected. *)
Example case_flat inv : decompose_matrix inv (compose_matrix (Some (V3 1 1 0)) None None None None) = Err ValueError.
Proof.
  apply C112_rejects. right. exists (V3 0 0 1). split; [intros E; apply (f_equal vz) in E; cbn in E; lra|].
  rewrite compose_unnormed. apply vec_eq; unfold vadd, times, column3, normal_form, unnormed, mdot, set4, identity4; cbn; field; lra.
Qed.
(** Parts found again, angles included. *)
Example case_parts inv : decompose_matrix inv (compose_matrix (Some (V3 2 3 4)) (Some (V3 1 0 (-1))) (Some (V3 1 1 1)) (Some (V3 5 6 7)) None)
  = Ok (Parts (V3 2 3 4) (V3 1 0 (-1)) (V3 1 1 1) (V3 5 6 7) (0, 0, 0, 1)).
Proof.
  destruct (C112_same_parts inv (V3 2 3 4) (V3 1 0 (-1)) (V3 1 1 1) (V3 5 6 7)) as (a' & E & _ & A); [left; cbn; lra|].
  rewrite A in E; [exact E|]. pose proof PI_RGT_0. pose proof PI2_1. unfold no_angle_lost. cbn. lra.
Qed.
(** There is an inverse to compute, by Cramer's rule. *)
Example case_inverts : inverts cramer.
Proof. exact cramer_inverts. Qed.
(** A perspective that is seen. *)
Example case_seen : seen (compose_matrix (Some (V3 1 1 1)) None None None (Some (1, 0, 0, 1))).
Proof.
  exists 0%nat. split; [lia|]. rewrite compose_unnormed. unfold normal_form, unnormed, mdot, set4, identity4, quad_at. cbn.
  match goal with |- _ < Rabs ?e => replace e with 1 by (field; lra) end. rewrite Rabs_R1. unfold EPS. apply (Rmult_lt_reg_r (2 ^ 52)); [apply pow_lt; lra|]. unfold Rdiv. rewrite Rmult_assoc, Rinv_l by (apply pow_nonzero; lra). lra.
Qed.
