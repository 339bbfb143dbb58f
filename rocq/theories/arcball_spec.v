(** * What interpolation and the trackball should do (C111). *)

From Coq Require Import List Reals.
Import ListNotations.
From Verif Require Import transf_model transf_spec affine_model affine_spec arcball_model.
Local Open Scope R_scope.

(** ** Quaternions as vectors *)
Definition qinner (p q : quat) : R := qx p * qx q + qy p * qy q + qz p * qz q + qw p * qw q.
Definition qmul (s : R) (q : quat) : quat := Quat (s * qx q) (s * qy q) (s * qz q) (s * qw q).
Definition qsum (p q : quat) : quat := Quat (qx p + qx q) (qy p + qy q) (qz p + qz q) (qw p + qw q).
(** [u] is [q] divided by its length. *)
Definition direction_of (q u : quat) : Prop := qinner u u = 1 /\ exists s, 0 < s /\ q = qmul s u.
(** [q] lies on the great circle from [p], in the direction of [e], at an angle. *)
Definition on_arc (p e : quat) (angle : R) (q : quat) : Prop :=
  qinner p p = 1 /\ qinner e e = 1 /\ qinner p e = 0 /\ q = qsum (qmul (cos angle) p) (qmul (sin angle) e).
(** The other end of the arc: the quaternion itself, or its opposite (the same rotation)
    if the shortest path is wanted and the opposite is nearer. *)
Definition faces (short : bool) (p q r : quat) : Prop :=
  (r = q /\ (short = true -> 0 <= qinner p q)) \/ (r = qmul (-1) q /\ short = true /\ qinner p q < 0).

(** ** Points on the sphere *)
(** The point of the upper half of the unit sphere that is seen at a point of a window,
    the vertical axis of which goes down, on a disc; outside the disc, the nearest point
    of its rim. *)
Definition seen_at (point center : R * R) (radius : R) (v : vec3) : Prop :=
  let dx := fst point - fst center in
  let dy := snd center - snd point in
  inner v v = 1 /\
  (dx * dx + dy * dy <= radius * radius -> dx = radius * vx v /\ dy = radius * vy v /\ 0 <= vz v) /\
  (radius * radius < dx * dx + dy * dy -> vz v = 0 /\ exists s, radius < s /\ dx = s * vx v /\ dy = s * vy v).
(** [c] is on the great circle perpendicular to [axis]. *)
Definition on_circle (axis c : vec3) : Prop := inner c c = 1 /\ inner c axis = 0.
(** The point of that circle under [p] (or opposite to it), in the upper half. *)
Definition drawn_to (axis p c : vec3) : Prop :=
  on_circle axis c /\ exists s, p = vadd (times (inner axis p) axis) (times s c) /\ (0 < vz c \/ (vz c = 0 /\ 0 < s)).
(** The half turn about a unit vector. *)
Definition half_turn (u p : vec3) : vec3 := vsub (times (2 * inner u p) u) p.
(** [p] is far enough from the axis for the circle's point to be computed. *)
Definition far_from (axis p : vec3) : Prop := EPS < vlength (vsub p (times (inner axis p) axis)).

(** ** The trackball *)
(** An axis that may be given to setaxes: not zero, and not straight down (see
    C111_constrain_refuted). *)
Definition down_axis : vec3 := V3 0 0 (-1).
Definition good_axis (a : vec3) : Prop := a <> vzero /\ forall t, 0 < t -> a <> times t down_axis.
Definition good_op (o : op) : Prop :=
  match o with Place _ r => r <> 0 | Setaxes axes => Forall good_axis axes | _ => True end.
Definition good_initial (i : initial_value) : Prop :=
  match i with INone => True | IQuat q => q <> qzero | IMatrix m => rotation m /\ no_translation m | IOther => False end.
(** Orientations are unit quaternions, the picked point is on the sphere, and on the
    circle of the axis if there is one. *)
Definition unit_axis (a : vec3) : Prop := inner a a = 1 /\ a <> down_axis.
Definition steady (b : ball) : Prop :=
  qinner (b_qdown b) (b_qdown b) = 1 /\ qinner (b_qnow b) (b_qnow b) = 1 /\ qinner (b_qpre b) (b_qpre b) = 1 /\
  inner (b_vdown b) (b_vdown b) = 1 /\ b_radius b <> 0 /\
  (forall a, b_axis b = Some a -> unit_axis a /\ inner (b_vdown b) a = 0) /\
  (forall axes, b_axes b = Some axes -> Forall unit_axis axes).
(** The point that a window point stands for: on the sphere, or on the circle of the
    axis. *)
Definition stands_for (b : ball) (point : R * R) (v : vec3) : Prop :=
  match b_axis b with
  | None => seen_at point (b_center b) (b_radius b) v
  | Some a => exists p, seen_at point (b_center b) (b_radius b) p /\ on_circle a v /\ (far_from a p -> drawn_to a p v)
  end.
