(** * compose_matrix and decompose_matrix of multimodal/lib/transformations.py.

    Numbers are reals; in floating point cos(asin(1)) is not zero, so that the last case
    of the angles is not reached there.  numpy.linalg.inv is an argument; numpy.linalg.det
    is the determinant.  Triples of numbers are vectors, perspective is a quadruple. *)

From Coq Require Import List ZArith Arith Reals Bool.
Import ListNotations.
From Verif Require Import Py transf_model affine_model.
Local Open Scope R_scope.

Definition quad := (R * R * R * R)%type.
Definition quad_at (q : quad) (i : nat) : R :=
  let '(a, b, c, d) := q in match i with 0%nat => a | 1%nat => b | 2%nat => c | _ => d end.
Record parts := Parts { p_scale : vec3; p_shear : vec3; p_angles : vec3; p_translate : vec3; p_perspective : quad }.

(** The determinant, by the first row. *)
Definition minor3 (m : mat4) (a b c : nat) : R :=
  m 1%nat a * (m 2%nat b * m 3%nat c - m 2%nat c * m 3%nat b) -
  m 1%nat b * (m 2%nat a * m 3%nat c - m 2%nat c * m 3%nat a) +
  m 1%nat c * (m 2%nat a * m 3%nat b - m 2%nat b * m 3%nat a).
Definition det4 (m : mat4) : R :=
  m 0%nat 0%nat * minor3 m 1 2 3 - m 0%nat 1%nat * minor3 m 0 2 3 + m 0%nat 2%nat * minor3 m 0 1 3 - m 0%nat 3%nat * minor3 m 0 1 2.
Definition transposed (m : mat4) : mat4 := fun i j => m j i.
(** M[:, 3] = 0, 0, 0, 1 *)
Definition clear_column (m : mat4) : mat4 := fun i j => if (j =? 3)%nat then (if (i =? 3)%nat then 1 else 0) else m i j.
(** row[i] of an array with three columns *)
Definition row3 (m : mat4) (i : nat) : vec3 := V3 (m i 0%nat) (m i 1%nat) (m i 2%nat).
Definition vminus (u v : vec3) : vec3 := V3 (vx u - vx v) (vy u - vy v) (vz u - vz v).
Definition vover (v : vec3) (t : R) : vec3 := V3 (vx v / t) (vy v / t) (vz v / t).
Definition vcross3 (u v : vec3) : vec3 := V3 (vy u * vz v - vz u * vy v) (vz u * vx v - vx u * vz v) (vx u * vy v - vy u * vx v).

(** transformations.py:773-780, for the rows of the array *)
Definition angles_of (r0 r1 r2 : vec3) : vec3 :=
  let a1 := asin (- vz r0) in
  if Req_EM_T (cos a1) 0 then V3 (atan2 (- vy r2) (vy r1)) a1 0
  else V3 (atan2 (vz r1) (vz r2)) a1 (atan2 (vy r0) (vx r0)).

(** transformations.py:700-782 *)
Definition decompose_matrix (inv : mat4 -> mat4) (matrix : mat4) : result parts :=
  let m := transposed matrix in
  if Rlt_dec (Rabs (m 3%nat 3%nat)) EPS then Err ValueError
  else
    let m := (fun i j => m i j / matrix 3%nat 3%nat) : mat4 in
    let p := clear_column m in
    if Req_EM_T (det4 p) 0 then Err ValueError
    else
      let large i := if Rlt_dec EPS (Rabs (m i 3%nat)) then true else false in
      let '(perspective, m) :=
        if (large 0%nat || large 1%nat || large 2%nat)%bool then
          let w := inv (transposed p) in
          let dot j := m 0%nat 3%nat * w 0%nat j + m 1%nat 3%nat * w 1%nat j + m 2%nat 3%nat * w 2%nat j + m 3%nat 3%nat * w 3%nat j in
          ((dot 0%nat, dot 1%nat, dot 2%nat, dot 3%nat), clear_column m)
        else ((0, 0, 0, 1), m) in
      let translate := row3 m 3 in
      let r0 := row3 m 0 in let r1 := row3 m 1 in let r2 := row3 m 2 in
      let s0 := vector_norm r0 in
      let r0 := vover r0 s0 in
      let h0 := vdot r0 r1 in
      let r1 := vminus r1 (vscale h0 r0) in
      let s1 := vector_norm r1 in
      let r1 := vover r1 s1 in
      let h0 := h0 / s1 in
      let h1 := vdot r0 r2 in
      let r2 := vminus r2 (vscale h1 r0) in
      let h2 := vdot r1 r2 in
      let r2 := vminus r2 (vscale h2 r1) in
      let s2 := vector_norm r2 in
      let r2 := vover r2 s2 in
      let h1 := h1 / s2 in
      let h2 := h2 / s2 in
      let shear := V3 h0 h1 h2 in
      let '(s, r0, r1, r2) :=
        if Rlt_dec (vdot r0 (vcross3 r1 r2)) 0 then (vscale (-1) (V3 s0 s1 s2), vscale (-1) r0, vscale (-1) r1, vscale (-1) r2)
        else (V3 s0 s1 s2, r0, r1, r2) in
      Ok (Parts s shear (angles_of r0 r1 r2) translate perspective).

(** The axes 'sxyz'. *)
Definition sxyz : axes := Axes 0 false false false.
(** transformations.py:785-835 *)
Definition compose_matrix (scale shear angles translate : option vec3) (perspective : option quad) : mat4 :=
  let m := identity4 in
  let m := match perspective with
           | None => m
           | Some q => mdot m (fun i j => if (i =? 3)%nat then quad_at q j else identity4 i j)
           end in
  let m := match translate with None => m | Some t => mdot m (set_column identity4 (coord t)) end in
  let m := match angles with None => m | Some a => mdot m (euler_matrix (vx a) (vy a) (vz a) sxyz) end in
  let m := match shear with
           | None => m
           | Some z => mdot m (set4 (set4 (set4 identity4 1 2 (vz z)) 0 2 (vy z)) 0 1 (vx z))
           end in
  let m := match scale with
           | None => m
           | Some s => mdot m (set4 (set4 (set4 identity4 0 0 (vx s)) 1 1 (vy s)) 2 2 (vz s))
           end in
  fun i j => m i j / m 3%nat 3%nat.
Definition compose_parts (p : parts) : mat4 :=
  compose_matrix (Some (p_scale p)) (Some (p_shear p)) (Some (p_angles p)) (Some (p_translate p)) (Some (p_perspective p)).
