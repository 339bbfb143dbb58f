(** * Lemmas on quaternions about an axis, products and comparisons of matrices. *)

From Coq Require Import List ZArith Arith Reals Bool Lra Lia Nsatz.
Import ListNotations.
From Verif Require Import transf_model affine_model affine_spec affine_proof.
Local Open Scope R_scope.

Lemma EPS_pos : 0 < EPS.
Proof. unfold EPS. apply Rdiv_lt_0_compat; [lra|apply pow_lt; lra]. Qed.
Lemma EPS_small : EPS < 1 / 1000.
Proof. unfold EPS. replace (2 ^ 52) with (1024 ^ 5 * 4) by (ring_simplify; reflexivity || (cbn; lra)). lra. Qed.

(** ** Quaternions about an axis *)
Lemma about_axis a d : EPS < vlength d -> let u := unit_vector d in
  quaternion_about_axis a d = Quat (sin (a / 2) * vx u) (sin (a / 2) * vy u) (sin (a / 2) * vz u) (cos (a / 2)).
Proof.
  intros L. unfold quaternion_about_axis. assert (E : sqrt (qdot (Quat (vx d) (vy d) (vz d) 0) (Quat (vx d) (vy d) (vz d) 0)) = vlength d) by (unfold vlength, inner, qdot; cbn; f_equal; ring).
  rewrite E. destruct (Rlt_dec EPS (vlength d)); [|contradiction]. cbn. unfold vlength, inner in *. unfold vdot. pose proof EPS_pos. f_equal; field; lra.
Qed.
Lemma long_nonzero d : EPS < vlength d -> d <> vzero.
Proof. intros L ->. unfold vlength, inner, vzero in L. cbn in L. replace (0 * 0 + 0 * 0 + 0 * 0) with 0 in L by ring. rewrite sqrt_0 in L. pose proof EPS_pos. lra. Qed.
Lemma half_angle a : cos a = 1 - 2 * (sin (a / 2) * sin (a / 2)) /\ sin a = 2 * (sin (a / 2) * cos (a / 2)) /\ sin (a / 2) * sin (a / 2) + cos (a / 2) * cos (a / 2) = 1.
Proof.
  assert (E : a = 2 * (a / 2)) by field. assert (C : cos a = cos (2 * (a / 2))) by (rewrite <- E; reflexivity). assert (D : sin a = sin (2 * (a / 2))) by (rewrite <- E; reflexivity).
  rewrite C, D, cos_2a_sin, sin_2a. pose proof (sin2_cos2 (a / 2)) as S. unfold Rsqr in S. repeat split; lra.
Qed.
Lemma axis_matrix a d : EPS < vlength d -> same4 (quaternion_matrix (quaternion_about_axis a d)) (rotation_matrix a d None).
Proof.
  intros L. pose proof (long_nonzero d L) as N. rewrite (about_axis a d L). cbv zeta. destruct (unit_ok d N) as (t & _ & _ & U & _).
  unfold rotation_matrix. set (u := unit_vector d) in *. clearbody u. destruct (half_angle a) as (C & S & T). rewrite C, S. clear C S.
  set (s := sin (a / 2)) in *. set (c := cos (a / 2)) in *. clearbody s c. unfold quaternion_matrix.
  replace (qdot _ _) with 1 by (unfold qdot, inner in *; cbn in *; nsatz). pose proof EPS_small. destruct (Rlt_dec 1 EPS); [lra|].
  pose proof (sqrt_sqrt 2 ltac:(lra)) as Q. replace (2 / 1) with 2 by field. set (f := sqrt 2) in *. clearbody f. destruct u as [x y z]. unfold inner in U. cbn in U.
  entries; unfold set_column, add33, vouter, vscale, cross_matrix, rows4, identity4, outer; cbn; try reflexivity.
  all: clear -U T Q; nsatz.
Qed.
(** A short axis that is not zero: the quaternion is not that of the rotation. *)
Lemma axis_short : exists d, d <> vzero /\ ~ same4 (quaternion_matrix (quaternion_about_axis PI d)) (rotation_matrix PI d None).
Proof.
  pose proof EPS_pos as P. pose proof EPS_small as Q. exists (V3 EPS 0 0). split; [intros E; injection E as E; lra|]. intros H. specialize (H 1 1 ltac:(lia) ltac:(lia))%nat.
  assert (L : sqrt (qdot (Quat EPS 0 0 0) (Quat EPS 0 0 0)) = EPS) by (unfold qdot; cbn; replace (EPS * EPS + 0 * 0 + 0 * 0 + 0 * 0) with (EPS * EPS) by ring; apply sqrt_square; lra).
  unfold quaternion_about_axis in H. cbn [vx vy vz] in H. rewrite L in H. destruct (Rlt_dec EPS EPS); [lra|]. rewrite cos_PI2 in H. unfold quaternion_matrix in H.
  replace (qdot _ _) with (EPS * EPS) in H by (unfold qdot; cbn; ring). destruct (Rlt_dec (EPS * EPS) EPS) as [_|X]; [|destruct X; nra].
  unfold rotation_matrix, add33, identity4, vouter, unit_vector, cross_matrix, rows4 in H. cbn in H. rewrite cos_PI in H. unfold Rdiv in H. rewrite !Rmult_0_l in H. lra.
Qed.

(** ** Products *)
Definition hom := (R * R * R * R)%type.
Definition happly (m : mat4) (v : hom) : hom :=
  let '(x, y, z, w) := v in
  let f i := m i 0%nat * x + m i 1%nat * y + m i 2%nat * z + m i 3%nat * w in (f 0%nat, f 1%nat, f 2%nat, f 3%nat).
Definition hpoint (p : vec3) (w : R) : hom := (w * vx p, w * vy p, w * vz p, w).
Lemma quad_eq (a b c d a' b' c' d' : R) : a = a' -> b = b' -> c = c' -> d = d' -> (a, b, c, d) = (a', b', c', d').
Proof. intros -> -> -> ->. reflexivity. Qed.
Lemma happly_dot m n v : happly (mdot m n) v = happly m (happly n v).
Proof. destruct v as (((x, y), z), w). unfold happly, mdot. apply quad_eq; ring. Qed.
Lemma happly_id v : happly identity4 v = v.
Proof. destruct v as (((x, y), z), w). unfold happly, identity4. cbn. apply quad_eq; ring. Qed.
Lemma happly_concat ms : forall m v, happly (fold_left mdot ms m) v = happly m (fold_right happly v ms).
Proof. induction ms as [|n ms IH]; intros m v; [reflexivity|]. cbn [fold_left fold_right]. rewrite IH, happly_dot. reflexivity. Qed.
Lemma image_hom m p p' w : w <> 0 -> image m p p' <-> exists w', w' <> 0 /\ happly m (hpoint p w) = hpoint p' w'.
Proof.
  intros W. assert (H : happly m (hpoint p w) = (w * row_at m 0 p, w * row_at m 1 p, w * row_at m 2 p, w * row_at m 3 p)) by (unfold happly, hpoint, row_at; apply quad_eq; ring).
  rewrite H. unfold image, hpoint. split.
  - intros (N & X & Y & Z). exists (w * row_at m 3 p). split; [apply Rmult_integral_contrapositive; auto|]. rewrite X, Y, Z. apply quad_eq; field; exact N.
  - intros (w' & N & E). injection E as X Y Z E. assert (M : row_at m 3 p <> 0) by (intros M; apply N; rewrite <- E, M; ring).
    split; [exact M|]. rewrite <- E in *. repeat split; apply (Rmult_eq_reg_l (w * row_at m 3 p)); try assumption; [rewrite <- X|rewrite <- Y|rewrite <- Z]; field; exact M.
Qed.
Lemma concat_images ms p p' : images ms p p' -> image (concatenate_matrices ms) p p'.
Proof.
  intros H. apply (image_hom _ p p' 1); [lra|]. unfold concatenate_matrices. rewrite happly_concat, happly_id.
  induction H as [p|m ms p q p' _ (w & W & IH) I]; [exists 1; split; [lra|reflexivity]|]. cbn [fold_right]. rewrite IH. apply (image_hom m q p' w W), I.
Qed.

(** ** Comparisons *)
Lemma close_same a b : a = b -> close a b = true.
Proof.
  intros ->. unfold close. destruct (Rle_dec _ _) as [|N]; [reflexivity|]. destruct N. rewrite Rminus_diag_eq by reflexivity. rewrite Rabs_R0. pose proof (Rabs_pos b). assert (0 < 10 ^ 8) by (apply pow_lt; lra). assert (0 < 10 ^ 5) by (apply pow_lt; lra).
  apply Rplus_le_le_0_compat; [apply Rlt_le, Rdiv_lt_0_compat; lra|]. apply Rmult_le_pos; [|assumption]. apply Rlt_le, Rdiv_lt_0_compat; lra.
Qed.
Lemma same_multiple m n t : t <> 0 -> n 3%nat 3%nat <> 0 -> same4 m (fun i j => t * n i j) -> is_same_transform m n = true.
Proof.
  intros T N E. unfold is_same_transform, allclose. apply forallb_forall. intros i I. apply forallb_forall. intros j J. apply in_seq in I, J.
  apply close_same. rewrite (E i j), (E 3 3)%nat by lia. field. auto.
Qed.
Lemma same_translation x y : is_same_transform (translation_matrix (V3 x 0 0)) (translation_matrix (V3 y 0 0)) = close x y.
Proof.
  unfold is_same_transform, allclose, translation_matrix, set_column, identity4. cbn [seq forallb Nat.ltb Nat.leb Nat.eqb andb coord vx vy vz].
  rewrite !(close_same (0 / 1) (0 / 1)), !(close_same (1 / 1) (1 / 1)) by reflexivity. cbn [andb]. replace (x / 1) with x by field. replace (y / 1) with y by field. rewrite !andb_true_r. reflexivity.
Qed.
Lemma same_not_symmetric : exists m n, is_same_transform m n = true /\ is_same_transform n m = false.
Proof.
  set (b := 1 / 10 ^ 8 * (1 + 1 / 10 ^ 5)). assert (B : 0 < b) by (unfold b; lra).
  exists (translation_matrix (V3 0 0 0)), (translation_matrix (V3 b 0 0)). rewrite !same_translation. unfold close. split.
  - destruct (Rle_dec _ _) as [|N]; [reflexivity|]. destruct N. rewrite Rminus_0_l, Rabs_Ropp, (Rabs_right b) by lra. unfold b. lra.
  - destruct (Rle_dec _ _) as [X|]; [|reflexivity]. exfalso. rewrite Rminus_0_r, Rabs_R0, (Rabs_right b) in X by lra. unfold b in X. lra.
Qed.
