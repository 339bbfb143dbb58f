(** * Matrices as a sequence of simple transformations (C112). *)

From Coq Require Import List Reals.
Import ListNotations.
From Verif Require Import Py transf_model transf_spec affine_model affine_spec decompose_model.
Local Open Scope R_scope.

(** ** The simple transformations, of points *)
Definition scaled (s p : vec3) : vec3 := V3 (vx s * vx p) (vy s * vy p) (vz s * vz p).
(** x moves with y and z, y moves with z. *)
Definition sheared (h p : vec3) : vec3 := V3 (vx p + vx h * vy p + vy h * vz p) (vy p + vz h * vz p) (vz p).
Definition turned_x (t : R) (p : vec3) : vec3 := V3 (vx p) (cos t * vy p - sin t * vz p) (sin t * vy p + cos t * vz p).
Definition turned_y (t : R) (p : vec3) : vec3 := V3 (cos t * vx p + sin t * vz p) (vy p) (- sin t * vx p + cos t * vz p).
Definition turned_z (t : R) (p : vec3) : vec3 := V3 (cos t * vx p - sin t * vy p) (sin t * vx p + cos t * vy p) (vz p).
(** About the fixed axes x, y, z in this order. *)
Definition turned_xyz (a p : vec3) : vec3 := turned_z (vz a) (turned_y (vy a) (turned_x (vx a) p)).
Definition optionally {A} (f : A -> vec3 -> vec3) (a : option A) (p : vec3) : vec3 := match a with Some a => f a p | None => p end.
(** Scaled, then sheared, then turned, then moved. *)
Definition moved_point (scale shear angles translate : option vec3) (p : vec3) : vec3 :=
  optionally (fun t q => vadd q t) translate (optionally turned_xyz angles (optionally sheared shear (optionally scaled scale p))).
(** The homogeneous weight that a perspective gives to a point. *)
Definition weight (q : quad) (p : vec3) : R := let '(a, b, c, d) := q in a * vx p + b * vy p + c * vz p + d.

(** ** Matrices *)
Definition column3 (m : mat4) (j : nat) : vec3 := V3 (m 0%nat j) (m 1%nat j) (m 2%nat j).
(** Some direction is lost in the 3 x 3 part. *)
Definition flat (m : mat4) : Prop :=
  exists u, u <> vzero /\ vadd (times (vx u) (column3 m 0)) (vadd (times (vy u) (column3 m 1)) (times (vz u) (column3 m 2))) = vzero.
(** Twice the same transformation: the matrices are multiples of each other. *)
Definition normal_form (m : mat4) : mat4 := fun i j => m i j / m 3%nat 3%nat.
Definition triple (u v w : vec3) : R := inner u (vcross v w).
(** The columns of the 3 x 3 part of the normalised matrix are right-handed. *)
Definition right_handed (m : mat4) : Prop :=
  0 < triple (column3 (normal_form m) 0) (column3 (normal_form m) 1) (column3 (normal_form m) 2).
(** Any of the first three entries of the last row is seen. *)
Definition seen (m : mat4) : Prop := exists i, (i < 3)%nat /\ EPS < Rabs (normal_form m 3%nat i).
Definition no_perspective (m : mat4) : Prop := forall i, (i < 3)%nat -> m 3%nat i = 0.
(** numpy.linalg.inv *)
Definition inverts (inv : mat4 -> mat4) : Prop :=
  forall a b, same4 (mdot b a) identity4 -> same4 (mdot (inv a) a) identity4.

(** ** Parts *)
Definition no_angle_lost (a : vec3) : Prop := - PI < vx a <= PI /\ - (PI / 2) < vy a < PI / 2 /\ - PI < vz a <= PI.
Definition one_sign (s : vec3) : Prop := (0 < vx s /\ 0 < vy s /\ 0 < vz s) \/ (vx s < 0 /\ vy s < 0 /\ vz s < 0).
