(** * Lemmas on scalings, projections, shears and clip matrices. *)

From Coq Require Import List ZArith Arith Reals Bool Lra Lia Nsatz.
Import ListNotations.
From Verif Require Import Py transf_model affine_model affine_spec affine_proof affine_quat affine2_model affine2_spec.
Local Open Scope R_scope.

Lemma inner_sub u v w : inner (vsub u v) w = inner u w - inner v w.
Proof. unfold inner, vsub. cbn. ring. Qed.
Lemma inner_times_r t u w : inner u (times t w) = t * inner u w.
Proof. unfold inner, times. cbn. ring. Qed.
(** The point of a line that meets a linear condition. *)
Lemma line_hit base d o n c p' : inner d n <> 0 ->
  (parallel (vsub p' base) d /\ inner (vsub p' o) n = c) <-> p' = vadd base (times ((c - inner (vsub base o) n) / inner d n) d).
Proof.
  intros N. split.
  - intros ((t & E) & C). assert (P : p' = vadd base (times t d)) by (rewrite <- E; destruct p', base; unfold vadd, vsub; cbn; f_equal; ring).
    assert (T : t = (c - inner (vsub base o) n) / inner d n).
    { rewrite <- C, P, !inner_sub, inner_add, inner_times. field. exact N. }
    rewrite <- T. exact P.
  - intros ->. split; [eexists; unfold vsub, vadd; cbn; apply vec_eq; cbn; ring_simplify; reflexivity|].
    rewrite inner_sub, inner_add, inner_times. rewrite !inner_sub. field. exact N.
Qed.
Lemma unit_inner n : n <> vzero -> forall d, inner d n = vlength n * inner d (unit_vector n).
Proof. intros N d. destruct (unit_ok n N) as (t & T & E & U & L). rewrite <- L. rewrite E at 1. apply inner_times_r. Qed.
Lemma length_pos n : n <> vzero -> 0 < vlength n.
Proof. intros N. destruct (unit_ok n N) as (t & T & _ & _ & <-). exact T. Qed.
Lemma length_times n : n <> vzero -> n = times (vlength n) (unit_vector n).
Proof. intros N. destruct (unit_ok n N) as (t & T & E & _ & <-). exact E. Qed.
Lemma unit_one n : n <> vzero -> inner (unit_vector n) (unit_vector n) = 1.
Proof. intros N. destruct (unit_ok n N) as (t & T & _ & U & _). exact U. Qed.
Lemma times_unit c n : n <> vzero -> times c n = times (c * vlength n) (unit_vector n).
Proof. intros N. rewrite (length_times n N) at 1. unfold times. cbn. f_equal; ring. Qed.

(** ** Scalings *)
Lemma enlarge_image f o p p' : image (scale_matrix f (Some o) None) p p' <-> enlarged o f p p'.
Proof.
  rewrite image_affine by reflexivity. unfold enlarged, scale_matrix, row_at, set_column, rows4. cbn. split.
  - intros ->. unfold vsub, times. cbn. f_equal; ring.
  - intros E. apply vec_eq; [apply (f_equal vx) in E|apply (f_equal vy) in E|apply (f_equal vz) in E]; cbn in *; lra.
Qed.
Lemma scale_origin f d : same4 (scale_matrix f None d) (scale_matrix f (Some vzero) d).
Proof.
  unfold scale_matrix. destruct d as [d|]; [generalize (unit_vector d); intros u|].
  all: entries; unfold set_column, add33, vouter, vdot, vzero, rows4, identity4; cbn; ring.
Qed.
Lemma scale_value f o d p : let u := unit_vector d in let m := scale_matrix f (Some o) (Some d) in
  V3 (row_at m 0 p) (row_at m 1 p) (row_at m 2 p) = vadd p (times ((f - 1) * inner (vsub p o) u) u).
Proof.
  intros u m. unfold m, scale_matrix. fold u. clearbody u. unfold row_at, set_column, add33, identity4, vouter, vdot, vsub, vadd, times, inner. cbn. apply vec_eq; cbn; ring.
Qed.
Lemma stretch_image f o d p p' : d <> vzero -> image (scale_matrix f (Some o) (Some d)) p p' <-> stretched o d f p p'.
Proof.
  intros N. rewrite image_affine by reflexivity. rewrite scale_value. cbv zeta. unfold stretched.
  assert (D : inner d d <> 0) by (pose proof (inner_pos d N); lra). rewrite (line_hit p d o d _ p' D).
  replace (times _ d) with (times ((f - 1) * inner (vsub p o) (unit_vector d)) (unit_vector d)); [reflexivity|].
  pose proof (length_pos d N) as L. pose proof (unit_one d N) as U. set (c := (f * inner (vsub p o) d - inner (vsub p o) d) / inner d d).
  assert (X : c * vlength d = (f - 1) * inner (vsub p o) (unit_vector d)).
  { unfold c. rewrite !(unit_inner d N). replace (inner d (unit_vector d)) with (vlength d); [field; lra|]. rewrite (length_times d N) at 2. rewrite inner_times, U. ring. }
  rewrite (times_unit c d N), X. reflexivity.
Qed.

(** ** Projections *)
Lemma ortho_value point n p : let u := unit_vector n in let m := projection_matrix point n None None false in
  V3 (row_at m 0 p) (row_at m 1 p) (row_at m 2 p) = vsub p (times (inner (vsub p point) u) u).
Proof.
  intros u m. unfold m, projection_matrix. fold u. clearbody u. unfold row_at, set_column, add33, identity4, vouter, vdot, vsub, times, inner. cbn. apply vec_eq; cbn; ring.
Qed.
Lemma pseudo_ignored point n d : projection_matrix point n d None true = projection_matrix point n d None false.
Proof. reflexivity. Qed.
Lemma projected_value point n d p p' : inner d n <> 0 ->
  projected point n d p p' <-> p' = vadd p (times ((0 - inner (vsub p point) n) / inner d n) d).
Proof. intros N. unfold projected, on_plane. rewrite <- (line_hit p d point n 0 p' N). tauto. Qed.
Lemma ortho_image point n p p' : n <> vzero -> image (projection_matrix point n None None false) p p' <-> projected point n n p p'.
Proof.
  intros N. rewrite image_affine by reflexivity. rewrite ortho_value. cbv zeta. assert (D : inner n n <> 0) by (pose proof (inner_pos n N); lra). rewrite (projected_value point n n p p' D).
  replace (vadd p _) with (vsub p (times (inner (vsub p point) (unit_vector n)) (unit_vector n))); [reflexivity|].
  pose proof (length_pos n N) as L. pose proof (unit_one n N) as U. set (c := (0 - inner (vsub p point) n) / inner n n).
  assert (X : - (c * vlength n) = inner (vsub p point) (unit_vector n)).
  { unfold c. rewrite !(unit_inner n N). replace (inner n (unit_vector n)) with (vlength n); [field; lra|]. rewrite (length_times n N) at 2. rewrite inner_times, U. ring. }
  rewrite (times_unit c n N), <- X. unfold times, vsub, vadd. generalize (unit_vector n). intros u. apply vec_eq; cbn; ring.
Qed.
Lemma parallel_image point n d p p' : n <> vzero -> inner d n <> 0 -> image (projection_matrix point n (Some d) None false) p p' <-> projected point n d p p'.
Proof.
  intros N D. rewrite image_affine by reflexivity. rewrite (projected_value point n d p p' D). rewrite !(unit_inner n N) in *. pose proof (length_pos n N) as L.
  assert (DU : inner d (unit_vector n) <> 0) by (intros Z; apply D; rewrite Z; ring).
  replace (vadd p _) with (V3 (row_at (projection_matrix point n (Some d) None false) 0 p) (row_at (projection_matrix point n (Some d) None false) 1 p) (row_at (projection_matrix point n (Some d) None false) 2 p)); [reflexivity|].
  unfold projection_matrix. set (u := unit_vector n) in *. clearbody u. set (l := vlength n) in *. clearbody l.
  change (vdot d u) with (inner d u). rewrite inner_sub. set (k := inner d u) in *.
  unfold row_at, set_column, add33, identity4, vouter, vadd, times. cbn. apply vec_eq; cbn; change (vdot point u) with (inner point u); unfold inner at 2; field; lra.
Qed.
(** The plane of the points that are not seen. *)
Lemma persp_last point n d e pseudo p : n <> vzero -> row_at (projection_matrix point n d (Some e) pseudo) 3 p = inner (vsub e p) (unit_vector n).
Proof. intros N. unfold projection_matrix. generalize (unit_vector n). intros u. unfold row_at, set4, set_last_row. destruct pseudo; cbn; unfold vdot, inner, vsub; cbn; ring. Qed.
Lemma persp_value point n d e p : n <> vzero -> let u := unit_vector n in let m := projection_matrix point n d (Some e) false in
  V3 (row_at m 0 p) (row_at m 1 p) (row_at m 2 p) = vadd (times (inner (vsub e p) u) e) (times (inner (vsub e point) u) (vsub p e)).
Proof.
  intros N u m. unfold m, projection_matrix. fold u. clearbody u. unfold row_at, set4, set_last_row, set_column, add33, set_diagonal, set4, identity4, vouter, vdot, vadd, vsub, times, inner. cbn. apply vec_eq; cbn; ring.
Qed.
Lemma image_value m p p' : image m p p' <-> row_at m 3 p <> 0 /\ p' = times (/ row_at m 3 p) (V3 (row_at m 0 p) (row_at m 1 p) (row_at m 2 p)).
Proof.
  unfold image, times. cbn. split; intros (N & H); (split; [exact N|]).
  - destruct H as (X & Y & Z). apply vec_eq; cbn; [rewrite X|rewrite Y|rewrite Z]; unfold Rdiv; ring.
  - rewrite H. cbn. unfold Rdiv. repeat split; ring.
Qed.
Lemma persp_algebra a b l e q : a <> 0 -> l <> 0 -> times (/ - a) (vadd (times (- a) e) (times b q)) = vadd e (times ((0 - l * b) / (l * a)) q).
Proof. intros A L. unfold vadd, times. apply vec_eq; cbn; field; auto. Qed.
Lemma persp_image point n d e p p' : n <> vzero ->
  image (projection_matrix point n d (Some e) false) p p' <-> inner (vsub p e) n <> 0 /\ seen_from point n e p p'.
Proof.
  intros N. rewrite image_value, (persp_last point n d e false p N), (persp_value point n d e p N). cbv zeta. pose proof (length_pos n N) as L. rewrite (unit_inner n N).
  assert (O : inner (vsub e p) (unit_vector n) = - inner (vsub p e) (unit_vector n)) by (rewrite !inner_sub; ring).
  assert (Q : inner (vsub e p) (unit_vector n) <> 0 <-> vlength n * inner (vsub p e) (unit_vector n) <> 0).
  { rewrite O. split; intros X Y; apply X; [apply Rmult_integral in Y; destruct Y; lra|rewrite <- (Ropp_involutive (inner _ _)), Y; ring]. }
  rewrite Q. split; intros (D & H); (split; [exact D|]); assert (D' : inner (vsub p e) (unit_vector n) <> 0) by (intros Z; apply D; rewrite Z; ring);
    assert (DN : inner (vsub p e) n <> 0) by (rewrite (unit_inner n N); exact D).
  - unfold seen_from, on_plane. apply and_comm. apply (line_hit e (vsub p e) point n 0 p' DN). rewrite H, O, !(unit_inner n N). apply persp_algebra; [exact D'|lra].
  - unfold seen_from, on_plane in H. apply and_comm in H. apply (line_hit e (vsub p e) point n 0 p' DN) in H. rewrite H, O, !(unit_inner n N). symmetry. apply persp_algebra; [exact D'|lra].
Qed.
Lemma pseudo_value point n d e p : n <> vzero -> let u := unit_vector n in let m := projection_matrix point n d (Some e) true in let m' := projection_matrix point n d (Some e) false in
  V3 (row_at m 0 p) (row_at m 1 p) (row_at m 2 p) = vsub (V3 (row_at m' 0 p) (row_at m' 1 p) (row_at m' 2 p)) (times (inner (vsub p point) u) u).
Proof.
  intros N u m m'. unfold m, m', projection_matrix. fold u. clearbody u. unfold row_at, set4, set_last_row, set_column, add33, set_diagonal, set4, identity4, vouter, vdot, vsub, times, inner. cbn. apply vec_eq; cbn; ring.
Qed.
Lemma pseudo_image point n d e p p' : n <> vzero ->
  image (projection_matrix point n d (Some e) false) p p' <->
  exists q, image (projection_matrix point n d (Some e) true) p q /\ image (projection_matrix point n None None false) q p'.
Proof.
  intros N. pose proof (length_pos n N) as L. pose proof (unit_one n N) as U.
  assert (ON : forall p', image (projection_matrix point n d (Some e) false) p p' -> inner (vsub p' point) (unit_vector n) = 0).
  { intros r I. apply (persp_image point n d e p r N) in I. destruct I as (_ & (P & _)). unfold on_plane in P. rewrite (unit_inner n N) in P. apply Rmult_integral in P. destruct P; lra. }
  assert (ST : forall r c, inner (vsub r point) (unit_vector n) = 0 ->
    vsub (vadd r (times c (unit_vector n))) (times (inner (vsub (vadd r (times c (unit_vector n))) point) (unit_vector n)) (unit_vector n)) = r).
  { intros r c Z. replace (inner (vsub (vadd r (times c (unit_vector n))) point) (unit_vector n)) with c; [unfold vsub, vadd, times; apply vec_eq; cbn; ring|].
    rewrite inner_sub in *. rewrite inner_add, inner_times, U. lra. }
  set (w := row_at (projection_matrix point n d (Some e) false) 3 p).
  assert (QV : forall q, image (projection_matrix point n d (Some e) true) p q <-> w <> 0 /\
     q = vadd (times (/ w) (V3 (row_at (projection_matrix point n d (Some e) false) 0 p) (row_at (projection_matrix point n d (Some e) false) 1 p) (row_at (projection_matrix point n d (Some e) false) 2 p))) (times (- / w * inner (vsub p point) (unit_vector n)) (unit_vector n))).
  { intros q. rewrite image_value, (pseudo_value point n d e p N), (persp_last point n d e true p N). cbv zeta. unfold w. rewrite (persp_last point n d e false p N).
    set (v := inner (vsub e p) (unit_vector n)). replace (vadd _ _) with (times (/ v) (vsub (V3 (row_at (projection_matrix point n d (Some e) false) 0 p) (row_at (projection_matrix point n d (Some e) false) 1 p) (row_at (projection_matrix point n d (Some e) false) 2 p)) (times (inner (vsub p point) (unit_vector n)) (unit_vector n)))); [reflexivity|].
    generalize (row_at (projection_matrix point n d (Some e) false) 0 p) (row_at (projection_matrix point n d (Some e) false) 1 p) (row_at (projection_matrix point n d (Some e) false) 2 p).
    generalize (inner (vsub p point) (unit_vector n)) (unit_vector n). intros k u x y z. unfold times, vadd, vsub. apply vec_eq; cbn; ring. }
  split.
  - intros I. pose proof I as I'. apply image_value in I'. fold w in I'. destruct I' as (W & E). eexists. split; [apply QV; split; [exact W|reflexivity]|].
    apply image_affine; try reflexivity. rewrite ortho_value. cbv zeta. rewrite <- E. symmetry. apply ST, ON, I.
  - intros (q & I & J). apply QV in I. destruct I as (W & E). apply image_affine in J; try reflexivity. rewrite ortho_value in J. cbv zeta in J.
    set (r := times (/ w) _) in E. assert (IR : image (projection_matrix point n d (Some e) false) p r) by (apply image_value; split; [exact W|reflexivity]).
    rewrite J, E, (ST r _ (ON r IR)). exact IR.
Qed.
(** The heights of the images, for points on the same side of the eye. *)
Lemma pseudo_height point n d e p q : n <> vzero -> image (projection_matrix point n d (Some e) true) p q ->
  height point n q = height point n p / (inner (vsub p e) n / vlength n).
Proof.
  intros N I. pose proof (length_pos n N) as L. pose proof (unit_one n N) as U. apply image_value in I. destruct I as (W & E). rewrite (persp_last point n d e true p N) in W, E.
  rewrite (pseudo_value point n d e p N) in E. cbv zeta in E. rewrite (persp_value point n d e p N) in E. cbv zeta in E. unfold height. rewrite !(unit_inner n N).
  assert (O : inner (vsub e p) (unit_vector n) = - inner (vsub p e) (unit_vector n)) by (rewrite !inner_sub; ring). rewrite O in W, E. rewrite E. repeat (rewrite inner_sub || rewrite inner_times || rewrite inner_add). rewrite U. rewrite !inner_sub in W.
  set (a := inner p (unit_vector n)) in *. set (b := inner e (unit_vector n)) in *. set (c := inner point (unit_vector n)) in *. field. split; lra.
Qed.

(** ** Clip matrices *)
Lemma clip_value left right bottom top near far persp : (exists m, clip_matrix left right bottom top near far persp = Ok m) <->
  left < right /\ bottom < top /\ near < far /\ (persp = true -> EPS < near).
Proof.
  unfold clip_matrix. destruct (Rle_dec right left); [split; [intros (m & E); discriminate|lra]|]. destruct (Rle_dec top bottom); [split; [intros (m & E); discriminate|lra]|].
  destruct (Rle_dec far near); [split; [intros (m & E); discriminate|lra]|]. destruct persp.
  - destruct (Rle_dec near EPS); (split; [intros (m & E)|]); try discriminate; [intros (_ & _ & _ & H); specialize (H eq_refl); lra|repeat split; lra|]. intros _. eexists. reflexivity.
  - split; [intros _; repeat split; try lra; discriminate|intros _; eexists; reflexivity].
Qed.
Lemma between a b x : a < b -> (-1 <= 2 / (b - a) * x + (b + a) / (a - b) <= 1 <-> a <= x <= b).
Proof.
  intros H. replace (2 / (b - a) * x + (b + a) / (a - b)) with ((2 * x - (b + a)) / (b - a)) by (field; lra). assert (P : 0 < b - a) by lra.
  split.
  - intros (A & B). apply (Rmult_le_compat_r (b - a)) in A, B; try lra. replace ((2 * x - (b + a)) / (b - a) * (b - a)) with (2 * x - (b + a)) in A, B by (field; lra). lra.
  - intros (A & B). split; apply (Rmult_le_reg_r (b - a)); try exact P; replace ((2 * x - (b + a)) / (b - a) * (b - a)) with (2 * x - (b + a)) by (field; lra); lra.
Qed.
Lemma clip_box left right bottom top near far m p p' : clip_matrix left right bottom top near far false = Ok m -> image m p p' ->
  (in_box left right bottom top near far p <-> in_cube p').
Proof.
  intros E I. pose proof (proj1 (clip_value left right bottom top near far false) (ex_intro _ m E)) as (A & B & C & _). unfold clip_matrix in E.
  destruct (Rle_dec right left); [lra|]. destruct (Rle_dec top bottom); [lra|]. destruct (Rle_dec far near); [lra|]. injection E as <-.
  apply image_affine in I; try reflexivity. subst p'. unfold in_cube, in_box, row_at, rows4. cbn.
  replace (2 / (right - left) * vx p + 0 * vy p + 0 * vz p + (right + left) / (left - right)) with (2 / (right - left) * vx p + (right + left) / (left - right)) by ring.
  replace (0 * vx p + 2 / (top - bottom) * vy p + 0 * vz p + (top + bottom) / (bottom - top)) with (2 / (top - bottom) * vy p + (top + bottom) / (bottom - top)) by ring.
  replace (0 * vx p + 0 * vy p + 2 / (far - near) * vz p + (far + near) / (near - far)) with (2 / (far - near) * vz p + (far + near) / (near - far)) by ring.
  rewrite !between by lra. reflexivity.
Qed.
(** The coordinates of the image by the perspective matrix. *)
Lemma clip_persp_value left right bottom top near far m p p' : clip_matrix left right bottom top near far true = Ok m -> image m p p' ->
  vz p <> 0 /\ vx p' = 2 / (right - left) * (vx p * near / vz p) + (right + left) / (left - right) /\
  vy p' = 2 / (top - bottom) * (vy p * near / vz p) + (top + bottom) / (bottom - top) /\ vz p' = (far + near - 2 * near * far / vz p) / (far - near).
Proof.
  intros E I. pose proof (proj1 (clip_value left right bottom top near far true) (ex_intro _ m E)) as (A & B & C & _). unfold clip_matrix in E.
  destruct (Rle_dec right left); [lra|]. destruct (Rle_dec top bottom); [lra|]. destruct (Rle_dec far near); [lra|]. destruct (Rle_dec near EPS); [discriminate|]. injection E as <-.
  destruct I as (W & X & Y & Z). unfold row_at, rows4 in *. cbn in *. assert (V : vz p <> 0) by (intros V; apply W; rewrite V; ring). split; [exact V|].
  rewrite X, Y, Z. repeat split; field; repeat split; try lra; intros H; apply V; lra.
Qed.
Lemma depth_between near far z : 0 < near -> near < far -> z <> 0 -> (-1 <= (far + near - 2 * near * far / z) / (far - near) <= 1 <-> near <= z <= far).
Proof.
  intros N F Z. set (v := 2 * near * far / z). assert (P : 0 < far - near) by lra. assert (Q : 0 < near * far) by nra. assert (V : v * z = 2 * near * far) by (unfold v; field; exact Z).
  assert (S : -1 <= (far + near - v) / (far - near) <= 1 <-> 2 * near <= v <= 2 * far).
  { split.
    - intros (A & B). apply (Rmult_le_compat_r (far - near)) in A, B; try lra. replace ((far + near - v) / (far - near) * (far - near)) with (far + near - v) in A, B by (field; lra). lra.
    - intros (A & B). split; apply (Rmult_le_reg_r (far - near)); try exact P; replace ((far + near - v) / (far - near) * (far - near)) with (far + near - v) by (field; lra); lra. }
  rewrite S. clear S. split.
  - intros (A & B). assert (ZP : 0 < z) by (destruct (Rtotal_order z 0) as [H|[H|H]]; [exfalso; nra|contradiction|exact H]). split; nra.
  - intros (A & B). split.
    + apply (Rmult_le_reg_r z); [lra|]. rewrite V. nra.
    + apply (Rmult_le_reg_r z); [lra|]. rewrite V. nra.
Qed.
Lemma clip_pyramid left right bottom top near far m p p' : clip_matrix left right bottom top near far true = Ok m -> image m p p' ->
  (in_pyramid left right bottom top near far p <-> in_cube p').
Proof.
  intros E I. destruct (clip_persp_value left right bottom top near far m p p' E I) as (V & X & Y & Z).
  pose proof (proj1 (clip_value left right bottom top near far true) (ex_intro _ m E)) as (A & B & C & D). specialize (D eq_refl). pose proof EPS_pos as EP.
  unfold in_cube, in_pyramid. rewrite X, Y, Z, !between by lra. rewrite depth_between by lra. split.
  - intros (H & q & QZ & QX & QY & P). assert (PX : vx p * near / vz p = vx q) by (rewrite P at 1; cbn; field; lra). assert (PY : vy p * near / vz p = vy q) by (rewrite P at 1; cbn; field; lra).
    rewrite PX, PY. tauto.
  - intros (H1 & H2 & H3). split; [exact H3|]. exists (V3 (vx p * near / vz p) (vy p * near / vz p) near). cbn. repeat split; try lra. unfold times. cbn. apply vec_eq; cbn; field; lra.
Qed.

(** ** Shears *)
Lemma shear_ok angle d point n : d <> vzero -> n <> vzero ->
  (Rabs (inner n d) <= 1 / 10 ^ 6 * (vlength n * vlength d) <-> exists m, shear_matrix angle d point n = Ok m) /\
  (forall e, shear_matrix angle d point n = Err e -> e = ValueError).
Proof.
  intros D N. unfold shear_matrix. change (vdot (unit_vector n) (unit_vector d)) with (inner (unit_vector n) (unit_vector d)).
  assert (X : inner n d = vlength n * vlength d * inner (unit_vector n) (unit_vector d)).
  { rewrite (unit_inner d D). rewrite (length_times n N) at 1. rewrite inner_times. ring. }
  pose proof (length_pos n N) as L. pose proof (length_pos d D) as M. assert (P : 0 < vlength n * vlength d) by nra. rewrite X, Rabs_mult, (Rabs_right (vlength n * vlength d)) by lra.
  set (c := Rabs (inner (unit_vector n) (unit_vector d))). split.
  - destruct (Rlt_dec (1 / 10 ^ 6) c) as [H|H]; split; try (intros (m & E); discriminate); try (intros _; eexists; reflexivity).
    + intros G. exfalso. rewrite (Rmult_comm (1 / 10 ^ 6)) in G. apply Rmult_le_reg_l in G; [lra|exact P].
    + intros _. rewrite (Rmult_comm (1 / 10 ^ 6)). apply Rmult_le_compat_l; lra.
  - intros e. destruct (Rlt_dec _ _); congruence.
Qed.
Lemma shear_value angle d point n m p : shear_matrix angle d point n = Ok m ->
  V3 (row_at m 0 p) (row_at m 1 p) (row_at m 2 p) = vadd p (times (tan angle * inner (vsub p point) (unit_vector n)) (unit_vector d)) /\
  m 3%nat 0%nat = 0 /\ m 3%nat 1%nat = 0 /\ m 3%nat 2%nat = 0 /\ m 3%nat 3%nat = 1.
Proof.
  unfold shear_matrix. destruct (Rlt_dec _ _); [discriminate|]. intros E. injection E as <-. generalize (unit_vector n) (unit_vector d) (tan angle). intros u v t.
  repeat split. unfold row_at, set_column, add33, identity4, vouter, vdot, vsub, vadd, times, inner. cbn. apply vec_eq; cbn; ring.
Qed.
Lemma shear_image angle d point n m p p' : d <> vzero -> n <> vzero -> shear_matrix angle d point n = Ok m ->
  image m p p' <-> sheared angle d point n p p'.
Proof.
  intros D N E. destruct (shear_value angle d point n m p E) as (V & R0 & R1 & R2 & R3). rewrite image_affine by assumption. rewrite V.
  pose proof (length_pos n N) as L. pose proof (length_pos d D) as M. pose proof (unit_one n N) as U. unfold sheared, on_plane. split.
  - intros ->. set (h := inner (vsub p point) (unit_vector n)). exists (vsub p (times h (unit_vector n))), h. split; [|split].
    + rewrite (unit_inner n N), !inner_sub, inner_times, U. unfold h. rewrite inner_sub. ring.
    + rewrite (times_unit _ n N). unfold vsub, times. generalize (unit_vector n). intros u. apply vec_eq; cbn; field; lra.
    + rewrite (times_unit _ d D). unfold vsub, vadd, times. generalize (unit_vector d). intros u. apply vec_eq; cbn; field; lra.
  - intros (foot & h & F & G & H). rewrite (unit_inner n N) in F. apply Rmult_integral in F. destruct F as [F|F]; [lra|]. rewrite (times_unit _ n N) in G. rewrite (times_unit _ d D) in H.
    assert (HH : inner (vsub p point) (unit_vector n) = h).
    { assert (K : inner (vsub p foot) (unit_vector n) = h / vlength n * vlength n) by (rewrite G, inner_times, U; ring). rewrite inner_sub in *. replace (h / vlength n * vlength n) with h in K by (field; lra). lra. }
    rewrite HH. replace (h * tan angle / vlength d * vlength d) with (tan angle * h) in H by (field; lra). rewrite <- H. destruct p', p. unfold vadd, vsub. cbn. f_equal; ring.
Qed.
Lemma shear_det angle d point n m : d <> vzero -> n <> vzero -> shear_matrix angle d point n = Ok m ->
  inner (column m 0) (vcross (column m 1) (column m 2)) = 1 + tan angle * inner d n / (vlength d * vlength n).
Proof.
  intros D N E. unfold shear_matrix in E. destruct (Rlt_dec _ _); [discriminate|]. injection E as <-. pose proof (length_pos n N) as L. pose proof (length_pos d D) as M.
  assert (X : inner d n = vlength d * vlength n * inner (unit_vector d) (unit_vector n)) by (rewrite (unit_inner n N); rewrite (length_times d D) at 1; rewrite inner_times; ring).
  rewrite X. replace (tan angle * (vlength d * vlength n * inner (unit_vector d) (unit_vector n)) / (vlength d * vlength n)) with (tan angle * inner (unit_vector d) (unit_vector n)) by (field; lra).
  generalize (unit_vector n) (unit_vector d) (tan angle). intros u v t.
  unfold column, set_column, add33, identity4, vouter, inner, vcross. cbn. ring.
Qed.

(** ** Cells *)
Lemma cell_columns a b c al be ga : let A := degrees al in let B := degrees be in let G := degrees ga in
  sin A <> 0 -> sin B <> 0 -> Rabs (cos A * cos B - cos G) <= Rabs (sin A * sin B) ->
  let m := orthogonalization_matrix (V3 a b c) (V3 al be ga) in
  inner (column m 0) (column m 0) = a * a /\ inner (column m 1) (column m 1) = b * b /\ inner (column m 2) (column m 2) = c * c /\
  inner (column m 0) (column m 1) = a * b * cos G /\ inner (column m 0) (column m 2) = a * c * cos B /\ inner (column m 1) (column m 2) = b * c * cos A.
Proof.
  intros A B G SA SB H m. unfold m, orthogonalization_matrix. cbn [vx vy vz]. assert (RD : forall x, radians x = degrees x) by (intros x; unfold radians, degrees; field). rewrite !RD. fold A B G.
  set (co := (cos A * cos B - cos G) / (sin A * sin B)). assert (SS : sin A * sin B <> 0) by (apply Rmult_integral_contrapositive; auto).
  assert (C1 : co * (sin A * sin B) = cos A * cos B - cos G) by (unfold co; field; auto).
  assert (C2 : 0 <= 1 - co * co).
  { rewrite <- C1, Rabs_mult in H. assert (P : 0 < Rabs (sin A * sin B)) by (apply Rabs_pos_lt, SS). assert (Q : Rabs co <= 1) by (apply (Rmult_le_reg_r (Rabs (sin A * sin B))); lra).
    pose proof (Rabs_pos co). assert (K : co * co = Rabs co * Rabs co) by (destruct (Rle_dec 0 co); [rewrite Rabs_right by lra; ring|rewrite Rabs_left by lra; ring]). nra. }
  pose proof (sqrt_sqrt _ C2) as R. set (r := sqrt _) in *. clearbody r. clear H C2. pose proof (sin2_cos2 A) as TA. pose proof (sin2_cos2 B) as TB. unfold Rsqr in TA, TB.
  set (sa := sin A) in *. set (sb := sin B) in *. set (ca := cos A) in *. set (cb := cos B) in *. set (cg := cos G) in *. clearbody sa sb ca cb cg co. clear -R TA TB C1.
  unfold column, rows4, inner. cbn. repeat split; nsatz.
Qed.
(** Farther points get larger heights. *)
Lemma pseudo_depth point n d e p1 p2 q1 q2 : n <> vzero -> image (projection_matrix point n d (Some e) true) p1 q1 -> image (projection_matrix point n d (Some e) true) p2 q2 ->
  0 < inner (vsub point e) n * inner (vsub p1 e) n -> 0 < inner (vsub point e) n * inner (vsub p2 e) n ->
  Rabs (inner (vsub p2 e) n) < Rabs (inner (vsub p1 e) n) -> height point n q2 < height point n q1.
Proof.
  intros N I1 I2 S1 S2 F. rewrite (pseudo_height point n d e p1 q1 N I1), (pseudo_height point n d e p2 q2 N I2). pose proof (length_pos n N) as L.
  assert (H : forall p, height point n p = inner (vsub p e) n - inner (vsub point e) n) by (intros p; unfold height; rewrite !inner_sub; ring). rewrite !H.
  set (a := inner (vsub p1 e) n) in *. set (b := inner (vsub p2 e) n) in *. set (h := inner (vsub point e) n) in *. set (l := vlength n) in *. clearbody a b h l. clear -S1 S2 F L.
  assert (A : a <> 0) by (intros ->; lra). assert (B : b <> 0) by (intros ->; lra).
  replace ((a - h) / (a / l)) with (l * (1 - h / a)) by (field; lra). replace ((b - h) / (b / l)) with (l * (1 - h / b)) by (field; lra).
  apply Rmult_lt_compat_l; [exact L|]. enough (h / a < h / b) by lra.
  assert (X : h / a * (a * a) = h * a) by (field; exact A). assert (Y : h / b * (b * b) = h * b) by (field; exact B).
  destruct (Rlt_dec 0 h).
  - assert (0 < a) by nra. assert (0 < b) by nra. rewrite !Rabs_right in F by lra. unfold Rdiv. apply Rmult_lt_compat_l; [assumption|]. apply Rinv_lt_contravar; [nra|exact F].
  - assert (h < 0) by nra. assert (a < 0) by nra. assert (b < 0) by nra. rewrite !Rabs_left in F by assumption.
    replace (h / a) with ((- h) / (- a)) by (field; lra). replace (h / b) with ((- h) / (- b)) by (field; lra). unfold Rdiv. apply Rmult_lt_compat_l; [lra|]. apply Rinv_lt_contravar; [nra|lra].
Qed.
