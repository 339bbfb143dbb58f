(** * What homogeneous matrices do to points (C109). *)

From Coq Require Import List Reals.
Import ListNotations.
From Verif Require Import transf_model affine_model.
Local Open Scope R_scope.

(** ** Vectors *)
Definition vadd (u v : vec3) : vec3 := V3 (vx u + vx v) (vy u + vy v) (vz u + vz v).
Definition vsub (u v : vec3) : vec3 := V3 (vx u - vx v) (vy u - vy v) (vz u - vz v).
Definition times (t : R) (u : vec3) : vec3 := V3 (t * vx u) (t * vy u) (t * vz u).
Definition inner (u v : vec3) : R := vx u * vx v + vy u * vy v + vz u * vz v.
Definition vcross (u v : vec3) : vec3 := V3 (vy u * vz v - vz u * vy v) (vz u * vx v - vx u * vz v) (vx u * vy v - vy u * vx v).
Definition vzero : vec3 := V3 0 0 0.
Definition vlength (u : vec3) : R := sqrt (inner u u).

(** ** The image of a point *)
Definition row_at (m : mat4) (i : nat) (p : vec3) : R := m i 0%nat * vx p + m i 1%nat * vy p + m i 2%nat * vz p + m i 3%nat.
Definition image (m : mat4) (p p' : vec3) : Prop :=
  row_at m 3 p <> 0 /\ vx p' = row_at m 0 p / row_at m 3 p /\ vy p' = row_at m 1 p / row_at m 3 p /\ vz p' = row_at m 2 p / row_at m 3 p.
(** Equal 4 x 4 matrices. *)
Definition same4 (m n : mat4) : Prop := forall i j, (i < 4)%nat -> (j < 4)%nat -> m i j = n i j.
(** [p'] is reached from [p] by the matrices of the list, the last one first. *)
Inductive images : list mat4 -> vec3 -> vec3 -> Prop :=
| images_nil p : images [] p p
| images_cons m ms p q p' : images ms p q -> image m q p' -> images (m :: ms) p p'.

(** ** Transformations *)
(** [p'] is the mirror image of [p]: the middle of both is on the plane, and the line
    through both has the direction of the normal. *)
Definition mirrored (point normal p p' : vec3) : Prop :=
  inner (vsub (times (1 / 2) (vadd p p')) point) normal = 0 /\ exists t, vsub p' p = times t normal.
(** An orthonormal right-handed frame. *)
Definition frame3 (e1 e2 e3 : vec3) : Prop :=
  inner e1 e1 = 1 /\ inner e2 e2 = 1 /\ inner e1 e2 = 0 /\ vcross e1 e2 = e3.
(** [p'] is [p] turned by an angle about the axis through [point]: in every right-handed
    frame with its third vector along the axis. *)
Definition turned_about (point direction : vec3) (angle : R) (p p' : vec3) : Prop :=
  forall e1 e2 e3 t, frame3 e1 e2 e3 -> 0 < t -> direction = times t e3 ->
    inner (vsub p' point) e1 = cos angle * inner (vsub p point) e1 - sin angle * inner (vsub p point) e2 /\
    inner (vsub p' point) e2 = sin angle * inner (vsub p point) e1 + cos angle * inner (vsub p point) e2 /\
    inner (vsub p' point) e3 = inner (vsub p point) e3.
