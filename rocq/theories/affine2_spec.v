(** * What scalings, projections, shears and clip matrices do to points (C110). *)

From Coq Require Import List Reals.
Import ListNotations.
From Verif Require Import Py transf_model affine_model affine_spec.
Local Open Scope R_scope.

Definition parallel (u v : vec3) : Prop := exists t, u = times t v.
(** All distances to the origin are multiplied. *)
Definition enlarged (origin : vec3) (factor : R) (p p' : vec3) : Prop := vsub p' origin = times factor (vsub p origin).
(** Only distances in one direction are multiplied. *)
Definition stretched (origin direction : vec3) (factor : R) (p p' : vec3) : Prop :=
  parallel (vsub p' p) direction /\ inner (vsub p' origin) direction = factor * inner (vsub p origin) direction.
Definition on_plane (point normal p : vec3) : Prop := inner (vsub p point) normal = 0.
(** The point of the plane in a direction from [p]. *)
Definition projected (point normal direction p p' : vec3) : Prop := on_plane point normal p' /\ parallel (vsub p' p) direction.
(** The point of the plane on the line from [eye] through [p]. *)
Definition seen_from (point normal eye p p' : vec3) : Prop := on_plane point normal p' /\ parallel (vsub p' eye) (vsub p eye).
(** Distance to the plane, with the sign of the side and times the length of the normal. *)
Definition height (point normal p : vec3) : R := inner (vsub p point) normal.
(** [p'] is [p] moved in the direction by the height of [p] above the plane times the
    tangent; [foot] is the projection of [p]. *)
Definition sheared (angle : R) (direction point normal p p' : vec3) : Prop :=
  exists foot h, on_plane point normal foot /\ vsub p foot = times (h / vlength normal) normal /\
    vsub p' p = times (h * tan angle / vlength direction) direction.
(** The cube of normalized coordinates. *)
Definition in_cube (p : vec3) : Prop := -1 <= vx p <= 1 /\ -1 <= vy p <= 1 /\ -1 <= vz p <= 1.
Definition in_box (left right bottom top near far : R) (p : vec3) : Prop :=
  left <= vx p <= right /\ bottom <= vy p <= top /\ near <= vz p <= far.
(** The pyramid from the origin through the window at distance [near], between both
    distances. *)
Definition in_pyramid (left right bottom top near far : R) (p : vec3) : Prop :=
  near <= vz p <= far /\ exists q, vz q = near /\ left <= vx q <= right /\ bottom <= vy q <= top /\ p = times (vz p / near) q.
(** Columns of a matrix. *)
Definition column (m : mat4) (j : nat) : vec3 := V3 (m 0%nat j) (m 1%nat j) (m 2%nat j).
Definition degrees (x : R) : R := x / 180 * PI.
