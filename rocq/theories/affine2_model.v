(** * Further matrices of multimodal/lib/transformations.py: scalings, projections, shears,
      clip matrices and the matrix of a crystallographic cell.

    As in affine_model: numbers are reals, divisions by zero and roots of negative numbers
    are not modelled. *)

From Coq Require Import List ZArith Arith Reals Bool.
Import ListNotations.
From Verif Require Import Py transf_model affine_model.
Local Open Scope R_scope.

(** transformations.py:359-393 *)
Definition scale_matrix (factor : R) (origin direction : option vec3) : mat4 :=
  match direction with
  | None =>
      let m := rows4 [[factor; 0; 0; 0]; [0; factor; 0; 0]; [0; 0; factor; 0]; [0; 0; 0; 1]] in
      match origin with None => m | Some o => set_column m (fun i => coord o i * (1 - factor)) end
  | Some d =>
      let d := unit_vector d in
      let factor := 1 - factor in
      let m := add33 identity4 (fun i j => - (factor * vouter d d i j)) in
      match origin with None => m | Some o => set_column m (fun i => (factor * vdot o d) * coord d i) end
  end.

(** M[0, 0] = M[1, 1] = M[2, 2] = x, M[3, :3] = v and M[3, 3] = x *)
Definition set_diagonal (m : mat4) (x : R) : mat4 := set4 (set4 (set4 m 0 0 x) 1 1 x) 2 2 x.
Definition set_last_row (m : mat4) (f : nat -> R) : mat4 := fun i j => if ((i =? 3)%nat && (j <? 3)%nat)%bool then f j else m i j.
(** transformations.py:437-496 *)
Definition projection_matrix (point normal : vec3) (direction perspective : option vec3) (pseudo : bool) : mat4 :=
  let normal := unit_vector normal in
  match perspective, direction with
  | Some e, _ =>
      let m := set_diagonal identity4 (vdot (V3 (vx e - vx point) (vy e - vy point) (vz e - vz point)) normal) in
      let m := add33 m (fun i j => - vouter e normal i j) in
      let m :=
        if pseudo then set_column (add33 m (fun i j => - vouter normal normal i j)) (fun i => vdot point normal * (coord e i + coord normal i))
        else set_column m (fun i => vdot point normal * coord e i) in
      let m := set_last_row m (fun j => - coord normal j) in
      set4 m 3 3 (vdot e normal)
  | None, Some d =>
      let scale := vdot d normal in
      let m := add33 identity4 (fun i j => - (vouter d normal i j / scale)) in
      set_column m (fun i => coord d i * (vdot point normal / scale))
  | None, None =>
      let m := add33 identity4 (fun i j => - vouter normal normal i j) in
      set_column m (fun i => vdot point normal * coord normal i)
  end.

(** transformations.py:572-621 *)
Definition clip_matrix (left right bottom top near far : R) (perspective : bool) : result mat4 :=
  if Rle_dec right left then Err ValueError
  else if Rle_dec top bottom then Err ValueError
  else if Rle_dec far near then Err ValueError
  else if perspective then
    if Rle_dec near EPS then Err ValueError
    else
      let t := 2 * near in
      Ok (rows4 [[- t / (right - left); 0; (right + left) / (right - left); 0];
                 [0; - t / (top - bottom); (top + bottom) / (top - bottom); 0];
                 [0; 0; - (far + near) / (far - near); t * far / (far - near)];
                 [0; 0; -1; 0]])
  else
    Ok (rows4 [[2 / (right - left); 0; 0; (right + left) / (left - right)];
               [0; 2 / (top - bottom); 0; (top + bottom) / (bottom - top)];
               [0; 0; 2 / (far - near); (far + near) / (near - far)];
               [0; 0; 0; 1]]).

(** transformations.py:624-652 *)
Definition shear_matrix (angle : R) (direction point normal : vec3) : result mat4 :=
  let normal := unit_vector normal in
  let direction := unit_vector direction in
  if Rlt_dec (1 / 10 ^ 6) (Rabs (vdot normal direction)) then Err ValueError
  else
    let angle := tan angle in
    let m := add33 identity4 (fun i j => angle * vouter direction normal i j) in
    Ok (set_column m (fun i => - angle * vdot point normal * coord direction i)).

(** numpy.radians *)
Definition radians (x : R) : R := x * PI / 180.
(** transformations.py:838-863 *)
Definition orthogonalization_matrix (lengths angles : vec3) : mat4 :=
  let a := vx lengths in let b := vy lengths in let c := vz lengths in
  let sina := sin (radians (vx angles)) in let sinb := sin (radians (vy angles)) in
  let cosa := cos (radians (vx angles)) in let cosb := cos (radians (vy angles)) in let cosg := cos (radians (vz angles)) in
  let co := (cosa * cosb - cosg) / (sina * sinb) in
  rows4 [[a * sinb * sqrt (1 - co * co); 0; 0; 0];
         [- a * sinb * co; b * sina; 0; 0];
         [a * cosb; b * cosa; c; 0];
         [0; 0; 0; 1]].
