(** * The parameters of reflections, rotations and scalings (C114).

    Each function reads eigenvectors of numpy.linalg.eig: [eigenvectors_of] says that the
    answer is exact and complete.  The point is [None] where the last eigenvector chosen is
    a direction instead of a point. *)

From Coq Require Import List Reals Lia Lra.
Import ListNotations.
From Verif Require Import Py transf_model affine_model affine2_model affine_spec affine2_spec affine_proof eigpar_model eigpar_spec eigpar_rank eigpar_proof eigpar_rot eigpar_case eigproj_case.
Local Open Scope R_scope.

(** reflection_from_matrix gives a unit normal and, if it gives a point, a point of the
    plane: both build the matrix again. *)
Theorem C114_reflection : forall eig p n, n <> vzero -> let m := reflection_matrix p n in
  eigenvectors_of 3 m (eig 3%nat m) -> eigenvectors_of 4 m (eig 4%nat m) ->
  exists q n', reflection_from_matrix eig m = Ok (q, n') /\ unit_length n' /\ parallel n' n /\
    forall q', q = Some q' -> on_plane p n q' /\ same4 (reflection_matrix q' n') m.
Proof. exact reflection_back. Qed.

(** The last eigenvector of value 1 may be a direction of the plane: then there is no point. *)
Theorem C114_point_refuted : let m := reflection_matrix vzero (V3 1 0 0) in
  exists eig n', eigenvectors_of 3 m (eig 3%nat m) /\ eigenvectors_of 4 m (eig 4%nat m) /\ reflection_from_matrix eig m = Ok (None, n').
Proof. exact point_at_infinity. Qed.

(** A rotation, but for half a turn, is not a reflection. *)
Theorem C114_not_reflection : forall eig a d p, d <> vzero -> 1 / 10 ^ 8 <= 1 + cos a -> let m := rotation_matrix a d p in
  eigenvectors_of 3 m (eig 3%nat m) -> reflection_from_matrix eig m = Err ValueError.
Proof. exact not_reflection. Qed.

(** rotation_from_matrix, unless the angle is too small: an angle of one turn and a unit
    axis, in either direction, that build the matrix again. *)
Theorem C114_rotation : forall eig a d p, d <> vzero -> cos a = 1 \/ 1 / 10 ^ 8 <= 1 - cos a -> let m := rotation_matrix a d (Some p) in
  eigenvectors_of 3 (transposed m) (eig 3%nat (transposed m)) -> eigenvectors_of 4 m (eig 4%nat m) ->
  exists a' d' q, rotation_from_matrix eig m = Ok (a', d', q) /\ - PI < a' <= PI /\ unit_length d' /\ cos a' = cos a /\ (cos a <> 1 -> parallel d' d) /\
    forall q', q = Some q' -> image m q' q' /\ same4 (rotation_matrix a' d' (Some q')) m.
Proof. exact rotation_back. Qed.

(** The point is on the axis. *)
Theorem C114_axis : forall a d p q, d <> vzero -> cos a <> 1 -> image (rotation_matrix a d (Some p)) q q -> on_axis p d q.
Proof. exact fixed_axis. Qed.

(** With a smaller angle, all eigenvalues pass for 1, and a correct answer of eig can lead
    to another axis and to a matrix that is_same_transform tells apart. *)
Theorem C114_small_angle_refuted : forall a, 1 - 1 / 10 ^ 8 < cos a -> 1 / 10 ^ 8 < Rabs (sin a) -> let m := rotation_matrix a (V3 1 0 0) (Some vzero) in
  exists eig, eigenvectors_of 3 (transposed m) (eig 3%nat (transposed m)) /\ eigenvectors_of 4 m (eig 4%nat m) /\
    exists a' d' q', rotation_from_matrix eig m = Ok (a', d', Some q') /\ is_same_transform m (rotation_matrix a' d' (Some q')) = false.
Proof. exact wrong_axis. Qed.

(** scale_from_matrix of a uniform scaling: the factor and the origin themselves. *)
Theorem C114_enlarge : forall eig f o, 1 / 10 ^ 8 <= Rabs (f - 1) -> let m := scale_matrix f (Some o) None in
  eigenvectors_of 3 m (eig 3%nat m) -> eigenvectors_of 4 m (eig 4%nat m) -> scale_from_matrix eig m = Ok (f, Some o, None).
Proof. exact enlarge_back. Qed.

(** A factor nearer to 1 is taken for one in a single direction, whatever eig answers. *)
Theorem C114_near_one_refuted : forall eig f o, 0 < Rabs (f - 1) < 1 / 10 ^ 8 / 2 -> let m := scale_matrix f (Some o) None in
  eigenvectors_of 3 m (eig 3%nat m) -> eigenvectors_of 4 m (eig 4%nat m) ->
  exists q d, scale_from_matrix eig m = Ok (3 * f - 2, q, Some d) /\ forall o', ~ same4 (scale_matrix (3 * f - 2) o' (Some d)) m.
Proof. exact enlarge_wrong. Qed.

(** scale_from_matrix of a scaling in a direction. *)
Theorem C114_stretch : forall eig f o d, d <> vzero -> f = 1 \/ 1 / 10 ^ 8 <= Rabs (f - 1) -> let m := scale_matrix f (Some o) (Some d) in
  eigenvectors_of 3 m (eig 3%nat m) -> eigenvectors_of 4 m (eig 4%nat m) ->
  exists q d', scale_from_matrix eig m = Ok (f, q, Some d') /\ unit_length d' /\ (f <> 1 -> parallel d' d) /\
    forall q', q = Some q' -> image m q' q' /\ same4 (scale_matrix f (Some q') (Some d')) m.
Proof. exact stretch_back. Qed.

Print Assumptions C114_reflection.
Print Assumptions C114_point_refuted.
Print Assumptions C114_not_reflection.
Print Assumptions C114_rotation.
Print Assumptions C114_axis.
Print Assumptions C114_small_angle_refuted.
Print Assumptions C114_enlarge.
Print Assumptions C114_near_one_refuted.
Print Assumptions C114_stretch.

(** ** Cases *)
Lemma nonzero_x : V3 1 0 0 <> vzero.
Proof. intros H. apply (f_equal vx) in H. cbn in H. lra. Qed.
Example C114_ex_reflection : V3 1 0 0 <> vzero /\ eigenvectors_of 3 mirror_matrix (mirror_good 3%nat mirror_matrix) /\ eigenvectors_of 4 mirror_matrix (mirror_good 4%nat mirror_matrix) /\
  reflection_from_matrix mirror_good mirror_matrix = Ok (Some vzero, V3 1 0 0).
Proof.
  split; [exact nonzero_x|]. split; [exact mirror_ok3|]. split; [exact good_ok4|].
  unfold reflection_from_matrix, mirror_good, where_near. cbn [filter]. assert (TP := tol_pos 8). assert (TL : 1 / 10 ^ 8 < 1) by (cbn; lra).
  rewrite (near_yes (-1)) by (cbn [re_value]; apply abs_bounds; lra). rewrite !(near_no (-1)) by (cbn [re_value]; rewrite abs_bounds; lra).
  rewrite (near_no 1) by (cbn [re_value]; rewrite abs_bounds; lra). rewrite !(near_yes 1) by (cbn [re_value]; apply abs_bounds; lra).
  cbn [first_of last_of rev app bind]. unfold real_point, real3, basis; cbn [re_vector Nat.eqb]. destruct (Req_EM_T 1 0) as [Z|_]; [lra|]. unfold vzero. replace (0 / 1) with 0 by field. reflexivity.
Qed.
Example C114_ex_rotation : 1 / 10 ^ 8 <= 1 - cos (PI / 2) /\ 1 / 10 ^ 8 <= 1 + cos (PI / 2) /\ eigenvectors_of 3 (transposed (turn_matrix (PI / 2))) (turn_eig (PI / 2) 3%nat (transposed (turn_matrix (PI / 2)))) /\
  eigenvectors_of 4 (turn_matrix (PI / 2)) (turn_eig (PI / 2) 4%nat (turn_matrix (PI / 2))).
Proof.
  rewrite cos_PI2. split; [cbn; lra|split; [cbn; lra|split; [apply turn_eig3|apply turn_eig4]]]; rewrite sin_PI2; lra.
Qed.
(** The transpose of a turn is the turn back, so its eigenvectors are those of a rotation. *)
Example C114_ex_not_reflection : eigenvectors_of 3 (turn_matrix (- (PI / 2))) (turn_eig (PI / 2) 3%nat (turn_matrix (- (PI / 2)))).
Proof.
  apply (eigenvectors_ext 3 _ (transposed (turn_matrix (PI / 2))) _ ltac:(lia)); [|apply turn_eig3; rewrite sin_PI2; lra].
  intros i j I J. unfold transposed. rewrite (turn_entries _ i j I J), (turn_entries _ j i J I), sin_neg, cos_neg.
  destruct i as [|[|[|[|i]]]]; try lia; destruct j as [|[|[|[|j]]]]; try lia; unfold rows4; cbn; ring.
Qed.
Example C114_ex_small : exists a, 1 - 1 / 10 ^ 8 < cos a /\ 1 / 10 ^ 8 < Rabs (sin a).
Proof.
  exists (asin (1 / 10 ^ 5)). assert (B : -1 <= 1 / 10 ^ 5 <= 1) by (cbn; lra). rewrite sin_asin, cos_asin by exact B. split.
  - apply Rsqr_incrst_0; [|cbn; lra|apply sqrt_pos]. rewrite Rsqr_sqrt; unfold Rsqr; cbn; lra.
  - rewrite Rabs_right by (cbn; lra). cbn; lra.
Qed.
Example C114_ex_enlarge : 1 / 10 ^ 8 <= Rabs (2 - 1) /\ eigenvectors_of 3 (scale_matrix 2 (Some vzero) None) (diagonal_eig 2 2 2 3%nat (scale_matrix 2 (Some vzero) None)) /\
  eigenvectors_of 4 (scale_matrix 2 (Some vzero) None) (diagonal_eig 2 2 2 4%nat (scale_matrix 2 (Some vzero) None)).
Proof. split; [rewrite Rabs_right by lra; cbn; lra|]. split; [apply diagonal_eig3, enlarge_entries|apply diagonal_eig4, enlarge_entries]. Qed.
Example C114_ex_near : let f := 1 + 1 / 10 ^ 9 in 0 < Rabs (f - 1) < 1 / 10 ^ 8 / 2 /\ eigenvectors_of 3 (scale_matrix f (Some vzero) None) (diagonal_eig f f f 3%nat (scale_matrix f (Some vzero) None)) /\
  eigenvectors_of 4 (scale_matrix f (Some vzero) None) (diagonal_eig f f f 4%nat (scale_matrix f (Some vzero) None)).
Proof.
  intros f. split; [unfold f; replace (1 + 1 / 10 ^ 9 - 1) with (1 / 10 ^ 9) by ring; rewrite Rabs_right by (cbn; lra); cbn; lra|].
  split; [apply diagonal_eig3, enlarge_entries|apply diagonal_eig4, enlarge_entries].
Qed.
Example C114_ex_stretch : 1 / 10 ^ 8 <= Rabs (3 - 1) /\ eigenvectors_of 3 (scale_matrix 3 (Some vzero) (Some (V3 1 0 0))) (diagonal_eig 3 1 1 3%nat (scale_matrix 3 (Some vzero) (Some (V3 1 0 0)))) /\
  eigenvectors_of 4 (scale_matrix 3 (Some vzero) (Some (V3 1 0 0))) (diagonal_eig 3 1 1 4%nat (scale_matrix 3 (Some vzero) (Some (V3 1 0 0)))).
Proof. split; [rewrite Rabs_right by lra; cbn; lra|]. split; [apply diagonal_eig3, stretch_entries|apply diagonal_eig4, stretch_entries]. Qed.
