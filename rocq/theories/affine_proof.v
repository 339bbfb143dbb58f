(** * Lemmas on homogeneous matrices. *)

From Coq Require Import List ZArith Arith Reals Bool Lra Lia Nsatz.
Import ListNotations.
From Verif Require Import transf_model affine_model affine_spec.
Local Open Scope R_scope.

Lemma vec_eq u v : vx u = vx v -> vy u = vy v -> vz u = vz v -> u = v.
Proof. destruct u, v. cbn. intros -> -> ->. reflexivity. Qed.
Lemma inner_pos v : v <> vzero -> 0 < inner v v.
Proof.
  intros N. destruct v as [x y z]. unfold inner. cbn. destruct (Req_dec x 0) as [-> |X]; [destruct (Req_dec y 0) as [-> |Y]; [destruct (Req_dec z 0) as [-> |Z]; [destruct N; reflexivity|]|]|]; nra.
Qed.
(** A unit vector is a positive multiple of the given one. *)
Lemma unit_ok v : v <> vzero -> exists t, 0 < t /\ v = times t (unit_vector v) /\ inner (unit_vector v) (unit_vector v) = 1 /\ t = vlength v.
Proof.
  intros N. pose proof (inner_pos v N) as P. exists (vlength v). unfold vlength.
  assert (S : 0 < sqrt (inner v v)) by (apply sqrt_lt_R0; exact P). pose proof (sqrt_sqrt (inner v v) (Rlt_le _ _ P)) as SS.
  split; [exact S|]. unfold unit_vector, times, inner, vdot in *. cbn. set (n := sqrt _) in *. split; [|split; [|reflexivity]].
  - destruct v; cbn. f_equal; field; lra.
  - assert (N2 : n <> 0) by lra. transitivity ((vx v * vx v + vy v * vy v + vz v * vz v) / (n * n)); [field; exact N2|]. rewrite SS. field. lra.
Qed.
Lemma row_last_affine m p : m 3%nat 0%nat = 0 -> m 3%nat 1%nat = 0 -> m 3%nat 2%nat = 0 -> m 3%nat 3%nat = 1 -> row_at m 3 p = 1.
Proof. intros A B C D. unfold row_at. rewrite A, B, C, D. ring. Qed.
(** A matrix with the last row of the identity. *)
Lemma image_affine m p p' : m 3%nat 0%nat = 0 -> m 3%nat 1%nat = 0 -> m 3%nat 2%nat = 0 -> m 3%nat 3%nat = 1 ->
  image m p p' <-> p' = V3 (row_at m 0 p) (row_at m 1 p) (row_at m 2 p).
Proof.
  intros A B C D. unfold image. rewrite (row_last_affine m p A B C D). unfold Rdiv; rewrite Rinv_1, !Rmult_1_r.
  split; [intros (_ & X & Y & Z); apply vec_eq; assumption|intros ->]. cbn. repeat split; lra.
Qed.

(** ** Translations *)
Lemma translation_image v p p' : image (translation_matrix v) p p' <-> p' = vadd p v.
Proof.
  rewrite image_affine by reflexivity. unfold row_at, translation_matrix, set_column, identity4, vadd. cbn.
  replace (V3 _ _ _) with (V3 (vx p + vx v) (vy p + vy v) (vz p + vz v)) by (f_equal; ring). reflexivity.
Qed.
Lemma translation_back v : translation_from_matrix (translation_matrix v) = v.
Proof. destruct v. reflexivity. Qed.

(** ** Reflections *)
Lemma reflection_value point n p : n <> vzero -> let u := unit_vector n in
  V3 (row_at (reflection_matrix point n) 0 p) (row_at (reflection_matrix point n) 1 p) (row_at (reflection_matrix point n) 2 p) =
  vsub p (times (2 * inner (vsub p point) u) u).
Proof.
  intros N u. unfold reflection_matrix. fold u. unfold row_at, set_column, add33, identity4, vouter, vdot, vsub, times, inner. cbn. apply vec_eq; cbn; ring.
Qed.
Lemma reflection_image point n p p' : n <> vzero -> image (reflection_matrix point n) p p' <-> mirrored point n p p'.
Proof.
  intros N. rewrite image_affine by reflexivity. rewrite reflection_value by exact N. cbv zeta.
  destruct (unit_ok n N) as (t & T & E & U & _). set (u := unit_vector n) in *. clearbody u. unfold mirrored. split.
  - intros ->. split.
    + rewrite E. transitivity (t * inner (vsub p point) u * (1 - inner u u)); [unfold inner, vsub, times, vadd; cbn; field|rewrite U; ring].
    + exists (- (2 * inner (vsub p point) u) / t). rewrite E. unfold inner, vsub, times in *. cbn. apply vec_eq; cbn; field; lra.
  - intros (M & s & D). rewrite E in M, D.
    assert (Q : s * t = - (2 * inner (vsub p point) u)).
    { assert (DX : vx p' = vx p + s * (t * vx u)) by (apply (f_equal vx) in D; cbn in D; lra).
      assert (DY : vy p' = vy p + s * (t * vy u)) by (apply (f_equal vy) in D; cbn in D; lra).
      assert (DZ : vz p' = vz p + s * (t * vz u)) by (apply (f_equal vz) in D; cbn in D; lra).
      assert (Q : t * (inner (vsub p point) u + s * t * inner u u / 2) = 0) by (rewrite <- M; unfold inner, vsub, times, vadd; cbn; rewrite DX, DY, DZ; field).
      rewrite U in Q. apply Rmult_integral in Q. destruct Q; lra. }
    assert (QX : forall c, s * (t * c) = - (2 * inner (vsub p point) u) * c) by (intros c; rewrite <- Q; ring).
    clear M Q. set (k := inner (vsub p point) u) in *. clearbody k.
    apply vec_eq; [apply (f_equal vx) in D|apply (f_equal vy) in D|apply (f_equal vz) in D]; unfold vsub, times in D |- *; cbn in D |- *; rewrite QX in D; lra.
Qed.
Ltac entries := let i := fresh "i" in let j := fresh "j" in let HI := fresh in let HJ := fresh in intros i j HI HJ; destruct i as [|[|[|[|i]]]]; try lia; destruct j as [|[|[|[|j]]]]; try lia; clear HI HJ.
Lemma reflection_twice point n : n <> vzero -> same4 (mdot (reflection_matrix point n) (reflection_matrix point n)) identity_matrix.
Proof.
  intros N. destruct (unit_ok n N) as (t & _ & _ & U & _). unfold reflection_matrix. set (u := unit_vector n) in *. clearbody u.
  destruct u as [a b c], point as [x y z]. unfold inner in U. cbn in U.
  entries; unfold mdot, set_column, add33, vouter, vdot, identity_matrix, identity4; cbn; nsatz.
Qed.

(** ** Rotations *)
(** The vector turned by an angle about a unit vector. *)
Definition spun (a : R) (u q : vec3) : vec3 :=
  vadd (vadd (times (cos a) q) (times ((1 - cos a) * inner q u) u)) (times (sin a) (vcross u q)).
Lemma rotation_value a d point p : let u := unit_vector d in
  V3 (row_at (rotation_matrix a d (Some point)) 0 p) (row_at (rotation_matrix a d (Some point)) 1 p) (row_at (rotation_matrix a d (Some point)) 2 p) =
  vadd point (spun a u (vsub p point)).
Proof.
  intros u. unfold rotation_matrix. fold u. clearbody u. unfold row_at, set_column, add33, identity4, cross_matrix, vouter, rows4, spun, vscale, vsub, vadd, times, inner, vcross. cbn.
  apply vec_eq; cbn; ring.
Qed.
Lemma frame_facts e1 e2 e3 : frame3 e1 e2 e3 -> inner e3 e3 = 1 /\ inner e1 e3 = 0 /\ inner e2 e3 = 0 /\ vcross e3 e1 = e2 /\ vcross e2 e3 = e1.
Proof.
  intros (A & B & C & <-). destruct e1 as [a b c], e2 as [x y z]. unfold inner, vcross in *. cbn in *. split; [nsatz|]. split; [ring|]. split; [ring|].
  split; apply vec_eq; cbn; nsatz.
Qed.
Lemma same_unit e1 e2 e3 t d : d <> vzero -> frame3 e1 e2 e3 -> 0 < t -> d = times t e3 -> unit_vector d = e3.
Proof.
  intros N F T E. destruct (frame_facts _ _ _ F) as (U3 & _). destruct (unit_ok d N) as (s & S & D & U & _). set (u := unit_vector d) in *. clearbody u.
  assert (X : s * s = t * t).
  { assert (Y : inner d d = s * s * inner u u) by (rewrite D; unfold inner, times; cbn; ring). assert (Z : inner d d = t * t * inner e3 e3) by (rewrite E; unfold inner, times; cbn; ring).
    rewrite U in Y. rewrite U3 in Z. lra. }
  assert (ST : s = t) by nra. subst s. rewrite E in D. apply vec_eq; [apply (f_equal vx) in D|apply (f_equal vy) in D|apply (f_equal vz) in D]; cbn in D; symmetry in D; apply Rmult_eq_reg_l in D; lra.
Qed.
Lemma frame_exists d : d <> vzero -> exists e1 e2 e3 t, frame3 e1 e2 e3 /\ 0 < t /\ d = times t e3.
Proof.
  intros N. destruct (unit_ok d N) as (t & T & D & U & _). set (u := unit_vector d) in *. clearbody u.
  assert (P : exists e, inner e e = 1 /\ inner e u = 0).
  { destruct (Req_dec (vx u * vx u + vy u * vy u) 0) as [Z|Z].
    - exists (V3 1 0 0). assert (vx u = 0) by nra. unfold inner. cbn. split; lra.
    - assert (W : V3 (- vy u) (vx u) 0 <> vzero) by (intros X; injection X as X Y; apply Z; nra).
      destruct (unit_ok _ W) as (s & S & E & V & _). exists (unit_vector (V3 (- vy u) (vx u) 0)). split; [exact V|]. set (e := unit_vector _) in *. clearbody e.
      assert (Y : s * inner e u = 0).
      { transitivity (inner (times s e) u); [unfold inner, times; cbn; ring|]. rewrite <- E. unfold inner. cbn. ring. }
      apply Rmult_integral in Y. destruct Y; lra. }
  destruct P as (e & E1 & E2). exists e, (vcross u e), u, t. split; [|split; assumption].
  destruct e as [a b c], u as [x y z]. unfold frame3, inner, vcross in *. cbn in *. repeat split; try nsatz. apply vec_eq; cbn; nsatz.
Qed.
(** Two points with the same coordinates in a frame. *)
Lemma frame_inj e1 e2 e3 u v : frame3 e1 e2 e3 -> inner u e1 = inner v e1 -> inner u e2 = inner v e2 -> inner u e3 = inner v e3 -> u = v.
Proof.
  intros F A B C. destruct (frame_facts _ _ _ F) as (U3 & O1 & O2 & X2 & X1). destruct F as (U1 & U2 & O & X3).
  assert (G : forall w, w = vadd (vadd (times (inner w e1) e1) (times (inner w e2) e2)) (times (inner w e3) e3)).
  { intros w. rewrite <- X3. destruct e1 as [a b c], e2 as [x y z], w as [p q r]. unfold inner, vcross, vadd, times in U1, U2, O |- *. cbn in U1, U2, O |- *. apply vec_eq; cbn; clear -U1 U2 O; nsatz. }
  rewrite (G u), (G v), A, B, C. reflexivity.
Qed.
Lemma inner_add u v w : inner (vadd u v) w = inner u w + inner v w.
Proof. unfold inner, vadd. cbn. ring. Qed.
Lemma inner_times t u w : inner (times t u) w = t * inner u w.
Proof. unfold inner, times. cbn. ring. Qed.
Lemma inner_cross u q w : inner (vcross u q) w = inner q (vcross w u).
Proof. unfold inner, vcross. cbn. ring. Qed.
Lemma inner_opp q u v : inner q (vcross u v) = - inner q (vcross v u).
Proof. unfold inner, vcross. cbn. ring. Qed.
Lemma spun_frame a e1 e2 e3 q : frame3 e1 e2 e3 ->
  inner (spun a e3 q) e1 = cos a * inner q e1 - sin a * inner q e2 /\
  inner (spun a e3 q) e2 = sin a * inner q e1 + cos a * inner q e2 /\
  inner (spun a e3 q) e3 = inner q e3.
Proof.
  intros F. destruct (frame_facts _ _ _ F) as (U3 & O1 & O2 & X2 & X1). destruct F as (U1 & U2 & O & X3).
  assert (S : forall u v, inner u v = inner v u) by (intros; unfold inner; ring).
  unfold spun. rewrite !inner_add, !inner_times, !inner_cross. rewrite (S e3 e1), (S e3 e2), O1, O2, U3, X1, (inner_opp q e1 e3), X2.
  replace (inner q (vcross e3 e3)) with 0 by (unfold inner, vcross; cbn; ring). repeat split; ring.
Qed.
Lemma rotation_image a d point p p' : d <> vzero -> image (rotation_matrix a d (Some point)) p p' <-> turned_about point d a p p'.
Proof.
  intros N. rewrite image_affine by reflexivity. rewrite rotation_value. cbv zeta.
  assert (V : forall q, vsub (vadd point q) point = q) by (intros [x y z]; unfold vsub, vadd; cbn; f_equal; ring). split.
  - intros -> e1 e2 e3 t F T E. rewrite (same_unit e1 e2 e3 t d N F T E), V. apply spun_frame, F.
  - intros H. destruct (frame_exists d N) as (e1 & e2 & e3 & t & F & T & E). destruct (H e1 e2 e3 t F T E) as (H1 & H2 & H3).
    rewrite (same_unit e1 e2 e3 t d N F T E). destruct (spun_frame a e1 e2 e3 (vsub p point) F) as (G1 & G2 & G3).
    assert (X : vsub p' point = spun a e3 (vsub p point)) by (apply (frame_inj e1 e2 e3 _ _ F); congruence).
    rewrite <- X. destruct p', point. unfold vadd, vsub. cbn. f_equal; ring.
Qed.
Lemma rotation_origin a d : same4 (rotation_matrix a d None) (rotation_matrix a d (Some vzero)).
Proof. unfold rotation_matrix. generalize (unit_vector d). intros u. entries; unfold set_column; cbn; try reflexivity; ring. Qed.
Lemma rotation_add a b d point : d <> vzero -> same4 (mdot (rotation_matrix a d point) (rotation_matrix b d point)) (rotation_matrix (a + b) d point).
Proof.
  intros N. destruct (unit_ok d N) as (t & _ & _ & U & _). unfold rotation_matrix. rewrite sin_plus, cos_plus. set (u := unit_vector d) in *. clearbody u.
  generalize (sin a) (sin b) (cos a) (cos b). intros sa sb ca cb. destruct u as [x y z]. unfold inner in U. cbn in U. destruct point as [[p q r]|].
  all: entries; unfold mdot, set_column, add33, vouter, vscale, cross_matrix, rows4, identity4; cbn; clear -U; nsatz.
Qed.
Lemma rotation_opposite a d point : d <> vzero -> same4 (rotation_matrix (- a) (times (-1) d) point) (rotation_matrix a d point).
Proof.
  intros N. assert (E : unit_vector (times (-1) d) = times (-1) (unit_vector d)).
  { unfold unit_vector. replace (vdot (times (-1) d) (times (-1) d)) with (vdot d d) by (unfold vdot, times; cbn; ring). unfold times. cbn. unfold Rdiv. f_equal; ring. }
  unfold rotation_matrix. rewrite E, sin_neg, cos_neg. generalize (unit_vector d). intros u. destruct point as [p|].
  all: entries; unfold set_column, add33, vouter, vscale, cross_matrix, rows4, identity4, times; cbn; ring.
Qed.
Lemma rotation_period a d point : same4 (rotation_matrix (a + 2 * PI) d point) (rotation_matrix a d point).
Proof. unfold rotation_matrix. rewrite sin_plus, cos_plus, sin_2PI, cos_2PI, !Rmult_1_r, !Rmult_0_r, Rplus_0_r, Rminus_0_r. intros i j _ _. reflexivity. Qed.
