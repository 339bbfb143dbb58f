(** * Homogeneous matrices of multimodal/lib/transformations.py: translations,
      reflections, rotations about an axis, and the functions that compose and compare
      matrices.

    Numbers are reals (no rounding, NaN or infinity): a division by zero, such as
    unit_vector of the zero vector, is not modelled.  A vector is given by its three
    coordinates; further coordinates of points and directions are not used by the code
    (v[:3]).  The functions that return values of eig are not modelled. *)

From Coq Require Import List ZArith Arith Reals Bool.
Import ListNotations.
From Verif Require Import Py transf_model.
Local Open Scope R_scope.

Record vec3 := V3 { vx : R; vy : R; vz : R }.
Definition coord (v : vec3) (i : nat) : R := match i with 0%nat => vx v | 1%nat => vy v | _ => vz v end.
(** numpy.dot of two vectors *)
Definition vdot (u v : vec3) : R := vx u * vx v + vy u * vy v + vz u * vz v.
Definition vscale (t : R) (v : vec3) : vec3 := V3 (t * vx v) (t * vy v) (t * vz v).
(** numpy.outer *)
Definition vouter (u v : vec3) (i j : nat) : R := coord u i * coord v j.
(** transformations.py:1535-1565, for a vector *)
Definition vector_norm (v : vec3) : R := sqrt (vdot v v).
(** transformations.py:1574-1615, for a vector *)
Definition unit_vector (v : vec3) : vec3 := let n := sqrt (vdot v v) in V3 (vx v / n) (vy v / n) (vz v / n).

(** M[:3, :3] += f and M[:3, 3] = f *)
Definition add33 (m : mat4) (f : nat -> nat -> R) : mat4 := fun i j => if ((i <? 3)%nat && (j <? 3)%nat)%bool then m i j + f i j else m i j.
Definition set_column (m : mat4) (f : nat -> R) : mat4 := fun i j => if ((i <? 3)%nat && (j =? 3)%nat)%bool then f i else m i j.

(** transformations.py:180-192 *)
Definition identity_matrix : mat4 := identity4.
(** transformations.py:195-205 *)
Definition translation_matrix (direction : vec3) : mat4 := set_column identity4 (coord direction).
(** transformations.py:208-217 *)
Definition translation_from_matrix (m : mat4) : vec3 := V3 (m 0 3)%nat (m 1 3)%nat (m 2 3)%nat.
(** transformations.py:220-243 *)
Definition reflection_matrix (point normal : vec3) : mat4 :=
  let normal := unit_vector normal in
  let m := add33 identity4 (fun i j => - (2 * vouter normal normal i j)) in
  set_column m (fun i => (2 * vdot point normal) * coord normal i).
(** transformations.py:275-316 *)
Definition cross_matrix (v : vec3) : mat4 :=
  rows4 [[0; - vz v; vy v]; [vz v; 0; - vx v]; [- vy v; vx v; 0]].
Definition rotation_matrix (angle : R) (direction : vec3) (point : option vec3) : mat4 :=
  let sina := sin angle in
  let cosa := cos angle in
  let direction := unit_vector direction in
  let r := rows4 [[cosa; 0; 0]; [0; cosa; 0]; [0; 0; cosa]] in
  let r := add33 r (fun i j => vouter direction direction i j * (1 - cosa)) in
  let direction := vscale sina direction in
  let r := add33 r (cross_matrix direction) in
  let m : mat4 := fun i j => if ((i <? 3)%nat && (j <? 3)%nat)%bool then r i j else identity4 i j in
  match point with
  | None => m
  | Some p => set_column m (fun i => coord p i - (r i 0%nat * vx p + r i 1%nat * vy p + r i 2%nat * vz p))
  end.
(** transformations.py:1157-1171 *)
Definition quaternion_about_axis (angle : R) (axis : vec3) : quat :=
  let qlen := sqrt (qdot (Quat (vx axis) (vy axis) (vz axis) 0) (Quat (vx axis) (vy axis) (vz axis) 0)) in
  let s := if Rlt_dec EPS qlen then sin (angle / 2) / qlen else 1 in
  Quat (vx axis * s) (vy axis * s) (vz axis * s) (cos (angle / 2)).

(** numpy.dot of two matrices *)
Definition mdot (m n : mat4) : mat4 := fun i j => m i 0%nat * n 0%nat j + m i 1%nat * n 1%nat j + m i 2%nat * n 2%nat j + m i 3%nat * n 3%nat j.
(** transformations.py:1649-1662 *)
Definition concatenate_matrices (ms : list mat4) : mat4 := fold_left mdot ms identity4.
(** numpy.allclose, with rtol = 1e-5 and atol = 1e-8 *)
Definition close (a b : R) : bool := if Rle_dec (Rabs (a - b)) (1 / 10 ^ 8 + 1 / 10 ^ 5 * Rabs b) then true else false.
Definition allclose (m n : mat4) : bool :=
  forallb (fun i => forallb (fun j => close (m i j) (n i j)) (seq 0 4)) (seq 0 4).
(** transformations.py:1665-1678 *)
Definition is_same_transform (m0 m1 : mat4) : bool :=
  allclose (fun i j => m0 i j / m0 3%nat 3%nat) (fun i j => m1 i j / m1 3%nat 3%nat).
