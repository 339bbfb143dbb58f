(** * Interpolation of rotations, random rotations and the virtual trackball of
      multimodal/lib/transformations.py.

    Numbers are reals (no rounding or infinity).  The only place where a division by
    zero can be reached from unit axes, the last line of arcball_constrain_to_axis, is
    made visible: there the code gives a vector of NaN and the model [None].  Other
    divisions by zero (unit_vector of a zero vector or quaternion) are not modelled.
    Points and centers are Python numbers, so a zero radius raises
    ZeroDivisionError (numpy numbers would give infinities).  Random numbers are
    arguments. *)

From Coq Require Import List ZArith Reals Bool.
Import ListNotations.
From Verif Require Import Py transf_model affine_model.
Local Open Scope R_scope.

(** transformations.py:1574-1615, for a quaternion *)
Definition unit_quaternion (q : quat) : quat := let n := sqrt (qdot q q) in Quat (qx q / n) (qy q / n) (qz q / n) (qw q / n).
(** q * s and p + q of arrays of four numbers *)
Definition qtimes (s : R) (q : quat) : quat := Quat (qx q * s) (qy q * s) (qz q * s) (qw q * s).
Definition qplus (p q : quat) : quat := Quat (qx p + qx q) (qy p + qy q) (qz p + qz q) (qw p + qw q).

(** transformations.py:1270-1308; spin is an integer.  The arguments of acos and the
    divisor are legal here (see the proofs), so there is no failure. *)
Definition quaternion_slerp (quat0 quat1 : quat) (fraction : R) (spin : Z) (shortestpath : bool) : quat :=
  let q0 := unit_quaternion quat0 in
  let q1 := unit_quaternion quat1 in
  if Req_EM_T fraction 0 then q0
  else if Req_EM_T fraction 1 then q1
  else
    let d := qdot q0 q1 in
    if Rlt_dec (Rabs (Rabs d - 1)) EPS then q0
    else
      let '(d, q1) := if (shortestpath && (if Rlt_dec d 0 then true else false))%bool then (- d, qtimes (-1) q1) else (d, q1) in
      let angle := acos d + IZR spin * PI in
      if Rlt_dec (Rabs angle) EPS then q0
      else
        let isin := 1 / sin angle in
        let q0 := qtimes (sin ((1 - fraction) * angle) * isin) q0 in
        let q1 := qtimes (sin (fraction * angle) * isin) q1 in
        qplus q0 q1.

(** transformations.py:1311-1338, the numbers drawn when [rand] is None being the
    argument *)
Definition random_quaternion (rand : list R) : result quat :=
  match rand with
  | [a; b; c] =>
      let r1 := sqrt (1 - a) in
      let r2 := sqrt a in
      let pi2 := PI * 2 in
      let t1 := pi2 * b in
      let t2 := pi2 * c in
      Ok (Quat (sin t1 * r1) (cos t1 * r1) (sin t2 * r2) (cos t2 * r2))
  | _ => Err AssertionError
  end.
(** transformations.py:1341-1353 *)
Definition random_rotation_matrix (rand : list R) : result mat4 :=
  match random_quaternion rand with Ok q => Ok (quaternion_matrix q) | Err e => Err e end.

(** transformations.py:1472-1482 *)
Definition arcball_map_to_sphere (point center : R * R) (radius : R) : result vec3 :=
  if Req_EM_T radius 0 then Err ZeroDivisionError
  else
    let x := (fst point - fst center) / radius in
    let y := (snd center - snd point) / radius in
    let n := x * x + y * y in
    Ok (if Rlt_dec 1 n then V3 (x / sqrt n) (y / sqrt n) (0 / sqrt n) else V3 x y (sqrt (1 - n))).

(** transformations.py:1485-1498; [None] is a vector of NaN *)
Definition arcball_constrain_to_axis (point a : vec3) : option vec3 :=
  let k := vdot a point in
  let v := V3 (vx point - vx a * k) (vy point - vy a * k) (vz point - vz a * k) in
  let n := vector_norm v in
  if Rlt_dec EPS n then
    let v := if Rlt_dec (vz v) 0 then vscale (-1) v else v in
    Some (V3 (vx v / n) (vy v / n) (vz v / n))
  else if Req_EM_T (vz a) 1 then Some (V3 1 0 0)
  else
    let w := V3 (- vy a) (vx a) 0 in
    if Req_EM_T (vdot w w) 0 then None else Some (unit_vector w).

(** transformations.py:1501-1511; a comparison with NaN is false *)
Definition nearest_step (point : vec3) (best : option vec3 * R) (axis : vec3) : option vec3 * R :=
  match arcball_constrain_to_axis point axis with
  | None => best
  | Some c => let t := vdot c point in if Rlt_dec (snd best) t then (Some axis, t) else best
  end.
Definition arcball_nearest_axis (point : vec3) (axes : list vec3) : option vec3 :=
  fst (fold_left (nearest_step point) axes (None, -1)).

(** transformations.py:1356-1469, the attributes of an Arcball *)
Record ball := Ball {
  b_axis : option vec3; b_axes : option (list vec3); b_radius : R; b_center : R * R; b_vdown : vec3;
  b_constrain : bool; b_qdown : quat; b_qnow : quat; b_qpre : quat }.

(** The argument [initial]: None, four numbers, a 4 x 4 matrix, or anything else that
    numpy.array accepts. *)
Inductive initial_value := INone | IQuat (q : quat) | IMatrix (m : mat4) | IOther.
(** transformations.py:1380-1405 *)
Definition arcball_init (initial : initial_value) : result ball :=
  let start q := Ok (Ball None None 1 (0, 0) (V3 0 0 1) false q q q) in
  match initial with
  | INone => start (Quat 0 0 0 1)
  | IMatrix m => start (quaternion_from_matrix m)
  | IQuat q => start (unit_quaternion q)
  | IOther => Err ValueError
  end.

(** The methods that change a ball; arguments of setaxes are the axes given. *)
Inductive op :=
| Place (center : R * R) (radius : R)
| Setaxes (axes : list vec3)
| Setconstrain (constrain : bool)
| Down (point : R * R)
| Drag (point : R * R)
| Next (acceleration : R).

(** numpy.cross *)
Definition cross (u v : vec3) : vec3 := V3 (vy u * vz v - vz u * vy v) (vz u * vx v - vx u * vz v) (vx u * vy v - vy u * vx v).

(** transformations.py:1435-1444.  [arcball_constrain_to_axis(v, None)] fails when it
    reads a[2].  A vector of NaN is given as ZeroDivisionError. *)
Definition down (point : R * R) (b : ball) : ball * result unit :=
  match arcball_map_to_sphere point (b_center b) (b_radius b) with
  | Err e => (b, Err e)
  | Ok v =>
      let q := b_qnow b in
      let with_ axis v := Ball axis (b_axes b) (b_radius b) (b_center b) v (b_constrain b) q q q in
      match b_constrain b, b_axes b with
      | true, Some axes =>
          match arcball_nearest_axis v axes with
          | None => (with_ None v, Err IndexError)
          | Some a => match arcball_constrain_to_axis v a with
                      | Some c => (with_ (Some a) c, Ok tt)
                      | None => (with_ (Some a) v, Err ZeroDivisionError)
                      end
          end
      | _, _ => (with_ None v, Ok tt)
      end
  end.
(** transformations.py:1446-1460 *)
Definition drag (point : R * R) (b : ball) : ball * result unit :=
  match arcball_map_to_sphere point (b_center b) (b_radius b) with
  | Err e => (b, Err e)
  | Ok v =>
      match match b_axis b with None => Some v | Some a => arcball_constrain_to_axis v a end with
      | None => (b, Err ZeroDivisionError)
      | Some v =>
          let t := cross (b_vdown b) v in
          let q := if Rlt_dec (vdot t t) EPS then b_qdown b
                   else quaternion_multiply (Quat (vx t) (vy t) (vz t) (vdot (b_vdown b) v)) (b_qdown b) in
          (Ball (b_axis b) (b_axes b) (b_radius b) (b_center b) (b_vdown b) (b_constrain b) (b_qdown b) q (b_qnow b), Ok tt)
      end
  end.
(** transformations.py:1462-1465; False is given as the spin *)
Definition next (acceleration : R) (b : ball) : ball :=
  let q := quaternion_slerp (b_qpre b) (b_qnow b) (2 + acceleration) 0 true in
  Ball (b_axis b) (b_axes b) (b_radius b) (b_center b) (b_vdown b) (b_constrain b) (b_qdown b) q (b_qnow b).
(** transformations.py:1467-1469 *)
Definition matrix (b : ball) : mat4 := quaternion_matrix (b_qnow b).

(** A call of a method: transformations.py:1407-1418 (place), 1420-1425 (setaxes,
    where [axes] is never None), 1427-1429 (setconstrain), and the methods above. *)
Definition step (b : ball) (o : op) : ball * result unit :=
  match o with
  | Place center radius => (Ball (b_axis b) (b_axes b) radius center (b_vdown b) (b_constrain b) (b_qdown b) (b_qnow b) (b_qpre b), Ok tt)
  | Setaxes axes => (Ball (b_axis b) (Some (map unit_vector axes)) (b_radius b) (b_center b) (b_vdown b) (b_constrain b) (b_qdown b) (b_qnow b) (b_qpre b), Ok tt)
  | Setconstrain c => (Ball (b_axis b) (b_axes b) (b_radius b) (b_center b) (b_vdown b) c (b_qdown b) (b_qnow b) (b_qpre b), Ok tt)
  | Down p => down p b
  | Drag p => drag p b
  | Next a => (next a b, Ok tt)
  end.
(** A program that calls methods and goes on after failures. *)
Definition run (b : ball) (ops : list op) : ball := fold_left (fun b o => fst (step b o)) ops b.
