(** * C111: interpolated and random rotations, and the trackball. *)

From Coq Require Import List ZArith Reals Lra.
Import ListNotations.
From Verif Require Import Py transf_model transf_spec transf_proof affine_model affine_spec affine_proof affine_quat arcball_model arcball_spec arcball_slerp arcball_proof arcball_ball.
Local Open Scope R_scope.

(** The ends of the arc. *)
Theorem C111_slerp_ends : forall quat0 quat1 spin short, quat0 <> qzero -> quat1 <> qzero ->
  direction_of quat0 (quaternion_slerp quat0 quat1 0 spin short) /\ direction_of quat1 (quaternion_slerp quat0 quat1 1 spin short).
Proof. exact slerp_ends. Qed.
Print Assumptions C111_slerp_ends.
(** Other fractions, even spins: the point of the great circle at that fraction of the
    angle. *)
Theorem C111_slerp : forall quat0 quat1 p q f k short, direction_of quat0 p -> direction_of quat1 q -> f <> 0 -> f <> 1 -> EPS <= 1 - Rabs (qinner p q) ->
  exists r e a, faces short p q r /\ 0 < a < PI /\ (short = true -> a <= PI / 2) /\ on_arc p e a r /\
    on_arc p e (f * (a + IZR (2 * k) * PI)) (quaternion_slerp quat0 quat1 f (2 * k) short).
Proof. exact slerp_full. Qed.
Print Assumptions C111_slerp.
(** Quaternions that are (nearly) the same or opposite: the first one. *)
Theorem C111_slerp_close : forall quat0 quat1 p q f spin short, direction_of quat0 p -> direction_of quat1 q -> f <> 1 -> 1 - Rabs (qinner p q) < EPS ->
  quaternion_slerp quat0 quat1 f spin short = p.
Proof. exact slerp_close. Qed.
Print Assumptions C111_slerp_close.
Theorem C111_slerp_unit : forall quat0 quat1 f k short, quat0 <> qzero -> quat1 <> qzero ->
  let q := quaternion_slerp quat0 quat1 f (2 * k) short in qinner q q = 1.
Proof. exact slerp_unit. Qed.
Print Assumptions C111_slerp_unit.
(** With an odd spin the result is not a unit quaternion. *)
Theorem C111_slerp_odd_refuted :
  ~ (forall quat0 quat1 f spin short, quat0 <> qzero -> quat1 <> qzero -> let q := quaternion_slerp quat0 quat1 f spin short in qinner q q = 1).
Proof.
  exact (fun H => match slerp_odd with ex_intro _ p (ex_intro _ q (conj P (conj Q E))) =>
    ltac:(pose proof (H p q (1 / 2) 1%Z true (unit_nonzero p P) (unit_nonzero q Q)) as X; cbv zeta in X; rewrite E in X; lra) end).
Qed.
Print Assumptions C111_slerp_odd_refuted.

(** Random rotations. *)
Theorem C111_random : forall a b c, 0 <= a <= 1 ->
  exists q, random_quaternion [a; b; c] = Ok q /\ qinner q q = 1 /\ random_rotation_matrix [a; b; c] = Ok (quaternion_matrix q).
Proof. exact random_unit. Qed.
Print Assumptions C111_random.
Theorem C111_random_length : forall rand, List.length rand <> 3%nat -> random_quaternion rand = Err AssertionError /\ random_rotation_matrix rand = Err AssertionError.
Proof. exact random_length. Qed.
Print Assumptions C111_random_length.

(** Points of the window. *)
Theorem C111_sphere : forall point center r, 0 < r -> exists v, arcball_map_to_sphere point center r = Ok v /\ seen_at point center r v.
Proof. exact map_seen. Qed.
Print Assumptions C111_sphere.
Theorem C111_constrain : forall p a, unit_axis a -> exists c, arcball_constrain_to_axis p a = Some c /\ on_circle a c /\ (far_from a p -> drawn_to a p c).
Proof. exact constrain_spec. Qed.
Print Assumptions C111_constrain.
(** The axis straight down, with the point on it, gives NaN. *)
Theorem C111_constrain_refuted :
  ~ (forall a p, inner a a = 1 -> inner p p = 1 -> exists c, arcball_constrain_to_axis p a = Some c /\ on_circle a c).
Proof. exact constrain_refuted. Qed.
Print Assumptions C111_constrain_refuted.
Theorem C111_nearest : forall p axes, inner p p = 1 -> 0 <= vz p -> axes <> [] -> Forall unit_axis axes ->
  exists a c l1 l2, arcball_nearest_axis p axes = Some a /\ axes = l1 ++ a :: l2 /\ arcball_constrain_to_axis p a = Some c /\ on_circle a c /\ (far_from a p -> drawn_to a p c) /\
    forall a' c', far_from a' p -> drawn_to a' p c' -> (In a' l1 -> inner c' p < inner c p) /\ (In a' l2 -> inner c' p <= inner c p).
Proof. exact nearest_spec. Qed.
Print Assumptions C111_nearest.

(** Whatever is done with the ball, it stays a unit sphere with unit quaternions, and
    calls fail only if axes are wanted and none is set. *)
Theorem C111_steady : forall i ops, good_initial i -> Forall good_op ops -> exists b, arcball_init i = Ok b /\ steady (run b ops).
Proof. exact (fun i ops GI G => match init_steady i GI with ex_intro _ b (conj E (conj St _)) => ex_intro _ b (conj E (run_steady ops b St G)) end). Qed.
Print Assumptions C111_steady.
Theorem C111_calls : forall b o, steady b -> good_op o ->
  snd (step b o) = Ok tt \/ (exists p, o = Down p /\ b_constrain b = true /\ b_axes b = Some [] /\ snd (step b o) = Err IndexError).
Proof. exact (fun b o S G => proj2 (step_steady b o S G)). Qed.
Print Assumptions C111_calls.
(** setaxes() does not take the axes away: the next constrained click fails. *)
Theorem C111_no_axes : forall b point, b_radius b <> 0 -> b_constrain b = true -> snd (down point (fst (step b (Setaxes [])))) = Err IndexError.
Proof. exact no_axes. Qed.
Print Assumptions C111_no_axes.
Theorem C111_down : forall b point, 0 < b_radius b -> (b_constrain b = false \/ b_axes b = None) -> exists v, seen_at point (b_center b) (b_radius b) v /\
  down point b = (Ball None (b_axes b) (b_radius b) (b_center b) v (b_constrain b) (b_qnow b) (b_qnow b) (b_qnow b), Ok tt).
Proof. exact down_free. Qed.
Print Assumptions C111_down.
Theorem C111_down_axis : forall b point a0 axes, steady b -> 0 < b_radius b -> b_constrain b = true -> b_axes b = Some (a0 :: axes) ->
  exists p a c l1 l2, seen_at point (b_center b) (b_radius b) p /\ a0 :: axes = l1 ++ a :: l2 /\ on_circle a c /\ (far_from a p -> drawn_to a p c) /\
    (forall a' c', far_from a' p -> drawn_to a' p c' -> (In a' l1 -> inner c' p < inner c p) /\ (In a' l2 -> inner c' p <= inner c p)) /\
    down point b = (Ball (Some a) (b_axes b) (b_radius b) (b_center b) c true (b_qnow b) (b_qnow b) (b_qnow b), Ok tt).
Proof. exact down_axis_ok. Qed.
Print Assumptions C111_down_axis.
(** A drag turns the orientation of the click by half turns about the two points (twice
    the arc between them), and leaves the axis alone. *)
Theorem C111_drag : forall b point, steady b -> 0 < b_radius b -> exists v b', stands_for b point v /\ drag point b = (b', Ok tt) /\
  b_vdown b' = b_vdown b /\ b_qdown b' = b_qdown b /\ b_qpre b' = b_qnow b /\ b_axis b' = b_axis b /\
  (EPS <= inner (vcross (b_vdown b) v) (vcross (b_vdown b) v) ->
   forall x y1 y, image (quaternion_matrix (b_qdown b)) x y1 -> (image (matrix b') x y <-> y = half_turn v (half_turn (b_vdown b) y1))) /\
  (inner (vcross (b_vdown b) v) (vcross (b_vdown b) v) < EPS -> b_qnow b' = b_qdown b) /\
  (forall a x, b_axis b = Some a -> image (quaternion_matrix (b_qdown b)) x a -> image (matrix b') x a).
Proof. exact drag_image. Qed.
Print Assumptions C111_drag.
(** next repeats the last movement; with an acceleration it goes on along the same arc;
    without a movement it stays. *)
Theorem C111_next : forall b, steady b -> EPS <= 1 - Rabs (qinner (b_qpre b) (b_qnow b)) ->
  exists turn, (forall x y0 y1, image (quaternion_matrix (b_qpre b)) x y0 -> image (matrix b) x y1 -> y1 = turn y0) /\
               (forall x y1 y2, image (matrix b) x y1 -> image (matrix (next 0 b)) x y2 -> y2 = turn y1).
Proof. exact next_repeats. Qed.
Print Assumptions C111_next.
Theorem C111_next_arc : forall b x, steady b -> 2 + x <> 0 -> 2 + x <> 1 -> EPS <= 1 - Rabs (qinner (b_qpre b) (b_qnow b)) ->
  exists r e a, faces true (b_qpre b) (b_qnow b) r /\ 0 < a <= PI / 2 /\ on_arc (b_qpre b) e a r /\ on_arc (b_qpre b) e ((2 + x) * a) (b_qnow (next x b)).
Proof. exact next_arc. Qed.
Print Assumptions C111_next_arc.
Theorem C111_next_still : forall b x, steady b -> 2 + x <> 1 -> 1 - Rabs (qinner (b_qpre b) (b_qnow b)) < EPS -> b_qnow (next x b) = b_qpre b.
Proof. exact next_still. Qed.
Print Assumptions C111_next_still.

(** ** Cases *)
(** A quarter turn and no turn. *)
Example ex_quaternions : direction_of (Quat 0 0 0 2) (Quat 0 0 0 1) /\ direction_of (Quat 3 0 0 0) (Quat 1 0 0 0) /\ EPS <= 1 - Rabs (qinner (Quat 0 0 0 1) (Quat 1 0 0 0)).
Proof.
  split; [|split].
  - split; [unfold qinner; cbn; ring|]. exists 2. split; [lra|]. unfold qmul. cbn. f_equal; ring.
  - split; [unfold qinner; cbn; ring|]. exists 3. split; [lra|]. unfold qmul. cbn. f_equal; ring.
  - replace (qinner (Quat 0 0 0 1) (Quat 1 0 0 0)) with 0 by (unfold qinner; cbn; ring). rewrite Rabs_R0. pose proof EPS_small. lra.
Qed.
(** The session of the docstring, with axes. *)
Example ex_session : good_initial (IQuat (Quat 0 0 0 1)) /\
  Forall good_op [Place (320, 320) 320; Setaxes [V3 1 1 0; V3 (-1) 1 0]; Setconstrain true; Down (400, 200); Drag (200, 400); Next 0].
Proof.
  split; [intros E; injection E; lra|]. repeat constructor; cbn; try lra; try (intros E; injection E; lra); intros t T E; injection E; lra.
Qed.
(** A ball of radius 1 with one axis, ready for a constrained click. *)
Example ex_ready : let b := Ball None (Some [V3 1 0 0]) 1 (0, 0) (V3 0 0 1) true (Quat 0 0 0 1) (Quat 1 0 0 0) (Quat 0 0 0 1) in
  steady b /\ 0 < b_radius b /\ b_constrain b = true /\ EPS <= 1 - Rabs (qinner (b_qpre b) (b_qnow b)).
Proof.
  cbv zeta. split; [|split; [cbn; lra|split; [reflexivity|apply ex_quaternions]]]. unfold steady. cbn. repeat split; try (unfold qinner, inner; cbn; ring); try lra; try discriminate.
  intros axes E. injection E as <-. repeat constructor; [unfold inner; cbn; ring|intros E; injection E; lra].
Qed.
Example ex_far : far_from (V3 1 0 0) (V3 0 0 1).
Proof.
  unfold far_from. replace (vsub _ _) with (V3 0 0 1) by (unfold vsub, times, inner; cbn; apply vec_eq; cbn; ring). unfold vlength, inner. cbn. replace (0 * 0 + 0 * 0 + 1 * 1) with 1 by ring. rewrite sqrt_1. pose proof EPS_small. lra.
Qed.
