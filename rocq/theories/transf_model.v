(** * Model of the rotations of multimodal/lib/transformations.py and of the joint
    angles of multimodal/features/angle_histograms.py.

    Numbers are reals (no rounding, NaN or signed zeros).  A quaternion is given
    by its four components (x, y, z, w), a 4 x 4 matrix by its elements.
    Other functions of transformations.py, which the project does not use, are in
    affine_model or not modelled. *)

From Coq Require Import List ZArith Reals Bool String.
Import ListNotations.
From Verif Require Import Py.
Open Scope py_scope.
Local Open Scope R_scope.

Definition Rltb (a b : R) : bool := if Rlt_dec a b then true else false.

(** math.atan2; atan2(0, 0) is 0. *)
Definition atan2 (y x : R) : R :=
  if Rlt_dec 0 x then atan (y / x)
  else if Rlt_dec x 0 then (if Rlt_dec y 0 then atan (y / x) - PI else atan (y / x) + PI)
  else if Rlt_dec 0 y then PI / 2
  else if Rlt_dec y 0 then - (PI / 2)
  else 0.

(** transformations.py:1515: four times the epsilon of binary64, 2^-52. *)
Definition EPS : R := 4 / 2 ^ 52.

Record quat := Quat { qx : R; qy : R; qz : R; qw : R }.
Definition qdot (p q : quat) : R := qx p * qx q + qy p * qy q + qz p * qz q + qw p * qw q.

(** /repo/multimodal/lib/transformations.py:1228-1242 (the first argument is
    quaternion1, the second quaternion0). *)
Definition quaternion_multiply (quaternion1 quaternion0 : quat) : quat :=
  let '(Quat x0 y0 z0 w0) := quaternion0 in
  let '(Quat x1 y1 z1 w1) := quaternion1 in
  Quat (x1*w0 + y1*z0 - z1*y0 + w1*x0)
       (- x1*z0 + y1*w0 + z1*x0 + w1*y0)
       (x1*y0 - y1*x0 + z1*w0 + w1*z0)
       (- x1*x0 - y1*y0 - z1*z0 + w1*w0).

(** transformations.py:1245-1255 *)
Definition quaternion_conjugate (q : quat) : quat := Quat (- qx q) (- qy q) (- qz q) (qw q).

(** transformations.py:1258-1267; the zero quaternion gives NaN, not modelled. *)
Definition quaternion_inverse (q : quat) : quat :=
  let c := quaternion_conjugate q in
  let n := qdot q q in
  Quat (qx c / n) (qy c / n) (qz c / n) (qw c / n).

(** Matrices. *)
Definition mat4 := nat -> nat -> R.
Definition identity4 : mat4 := fun i j => if Nat.eqb i j then 1 else 0.
Definition set4 (m : mat4) (i j : nat) (x : R) : mat4 :=
  fun a b => if (Nat.eqb a i && Nat.eqb b j)%bool then x else m a b.
Definition at4 (m : mat4) (i j : nat) : R := m i j.
(** numpy.outer(v, v) *)
Definition outer (v : list R) (a b : nat) : R := nth a v 0 * nth b v 0.
Definition rows4 (l : list (list R)) : mat4 := fun i j => nth j (nth i l []) 0.

(** transformations.py:1174-1193 *)
Definition quaternion_matrix (quaternion : quat) : mat4 :=
  let nq := qdot quaternion quaternion in
  if Rlt_dec nq EPS then identity4
  else
    let f := sqrt (2 / nq) in
    let v := [qx quaternion * f; qy quaternion * f; qz quaternion * f; qw quaternion * f] in
    rows4 [[1 - outer v 1 1 - outer v 2 2; outer v 0 1 - outer v 2 3; outer v 0 2 + outer v 1 3; 0];
           [outer v 0 1 + outer v 2 3; 1 - outer v 0 0 - outer v 2 2; outer v 1 2 - outer v 0 3; 0];
           [outer v 0 2 - outer v 1 3; outer v 1 2 + outer v 0 3; 1 - outer v 0 0 - outer v 1 1; 0];
           [0; 0; 0; 1]].

(** transformations.py:1517-1529 *)
Definition NEXT_AXIS : list nat := [1; 2; 0; 1]%nat.
Record axes := Axes { firstaxis : nat; parity : bool; repetition : bool; frame : bool }.
Definition AXES2TUPLE : list (string * axes) :=
  let a i p r f := Axes i p r f in
  [("sxyz", a 0 false false false); ("sxyx", a 0 false true false); ("sxzy", a 0 true false false);
   ("sxzx", a 0 true true false); ("syzx", a 1 false false false); ("syzy", a 1 false true false);
   ("syxz", a 1 true false false); ("syxy", a 1 true true false); ("szxy", a 2 false false false);
   ("szxz", a 2 false true false); ("szyx", a 2 true false false); ("szyz", a 2 true true false);
   ("rzyx", a 0 false false true); ("rxyx", a 0 false true true); ("ryzx", a 0 true false true);
   ("rxzx", a 0 true true true); ("rxzy", a 1 false false true); ("ryzy", a 1 false true true);
   ("rzxy", a 1 true false true); ("ryxy", a 1 true true true); ("ryxz", a 2 false false true);
   ("rzxz", a 2 false true true); ("rxyz", a 2 true false true); ("rzyz", a 2 true true true)]%string%nat.

(** The axis sequence of a name; an unknown name is KeyError (a sequence given as
    a tuple is the value itself). *)
Definition axes_of (name : string) : result axes :=
  match dict_get String.eqb AXES2TUPLE name with Some a => Ok a | None => Err KeyError end.

Definition axis_i (a : axes) : nat := firstaxis a.
Definition axis_j (a : axes) : nat := nth (firstaxis a + (if parity a then 1 else 0)) NEXT_AXIS 0%nat.
(** The list index [i-parity+1], which is never negative. *)
Definition axis_k (a : axes) : nat := nth (firstaxis a + 1 - (if parity a then 1 else 0)) NEXT_AXIS 0%nat.

(** transformations.py:968-1028 *)
Definition euler_matrix (ai aj ak : R) (a : axes) : mat4 :=
  let i := axis_i a in let j := axis_j a in let k := axis_k a in
  let '(ai, ak) := if frame a then (ak, ai) else (ai, ak) in
  let '(ai, aj, ak) := if parity a then (- ai, - aj, - ak) else (ai, aj, ak) in
  let si := sin ai in let sj := sin aj in let sk := sin ak in
  let ci := cos ai in let cj := cos aj in let ck := cos ak in
  let cc := ci * ck in let cs := ci * sk in
  let sc := si * ck in let ss := si * sk in
  let m := identity4 in
  if repetition a then
    let m := set4 m i i cj in
    let m := set4 m i j (sj * si) in
    let m := set4 m i k (sj * ci) in
    let m := set4 m j i (sj * sk) in
    let m := set4 m j j (- cj * ss + cc) in
    let m := set4 m j k (- cj * cs - sc) in
    let m := set4 m k i (- sj * ck) in
    let m := set4 m k j (cj * sc + cs) in
    set4 m k k (cj * cc - ss)
  else
    let m := set4 m i i (cj * ck) in
    let m := set4 m i j (sj * sc - cs) in
    let m := set4 m i k (sj * cc + ss) in
    let m := set4 m j i (cj * sk) in
    let m := set4 m j j (sj * ss + cc) in
    let m := set4 m j k (sj * cs - sc) in
    let m := set4 m k i (- sj) in
    let m := set4 m k j (cj * si) in
    set4 m k k (cj * ci).

(** transformations.py:1031-1086 *)
Definition euler_from_matrix (m : mat4) (a : axes) : R * R * R :=
  let i := axis_i a in let j := axis_j a in let k := axis_k a in
  let '(ax, ay, az) :=
    if repetition a then
      let sy := sqrt (m i j * m i j + m i k * m i k) in
      if Rlt_dec EPS sy then
        (atan2 (m i j) (m i k), atan2 sy (m i i), atan2 (m j i) (- m k i))
      else (atan2 (- m j k) (m j j), atan2 sy (m i i), 0)
    else
      let cy := sqrt (m i i * m i i + m j i * m j i) in
      if Rlt_dec EPS cy then
        (atan2 (m k j) (m k k), atan2 (- m k i) cy, atan2 (m j i) (m i i))
      else (atan2 (- m j k) (m j j), atan2 (- m k i) cy, 0) in
  let '(ax, ay, az) := if parity a then (- ax, - ay, - az) else (ax, ay, az) in
  if frame a then (az, ay, ax) else (ax, ay, az).

(** transformations.py:1089-1097 *)
Definition euler_from_quaternion (q : quat) (a : axes) : R * R * R :=
  euler_from_matrix (quaternion_matrix q) a.

(** transformations.py:1100-1149 *)
Definition quaternion_from_euler (ai aj ak : R) (a : axes) : quat :=
  let i := axis_i a in let j := axis_j a in let k := axis_k a in
  let '(ai, ak) := if frame a then (ak, ai) else (ai, ak) in
  let aj := if parity a then - aj else aj in
  let ai := ai / 2 in let aj := aj / 2 in let ak := ak / 2 in
  let ci := cos ai in let si := sin ai in
  let cj := cos aj in let sj := sin aj in
  let ck := cos ak in let sk := sin ak in
  let cc := ci * ck in let cs := ci * sk in
  let sc := si * ck in let ss := si * sk in
  let '(vi, vj, vk, vw) :=
    if repetition a then (cj * (cs + sc), sj * (cc + ss), sj * (cs - sc), cj * (cc - ss))
    else (cj * sc - sj * cs, cj * ss + sj * cc, cj * cs - sj * sc, cj * cc + sj * ss) in
  let vj := if parity a then vj * -1 else vj in
  let at_ n := if Nat.eqb n i then vi else if Nat.eqb n j then vj else vk in
  Quat (at_ 0%nat) (at_ 1%nat) (at_ 2%nat) vw.

(** transformations.py:1196-1225 *)
Definition quaternion_from_matrix (matrix : mat4) : quat :=
  let m := at4 matrix in
  let t := at4 m 0 0 + at4 m 1 1 + at4 m 2 2 + at4 m 3 3 in
  let scale t q := let f := (/ 2) / sqrt (t * at4 m 3 3) in
                   Quat (qx q * f) (qy q * f) (qz q * f) (qw q * f) in
  if Rlt_dec (at4 m 3 3) t then
    scale t (Quat (at4 m 2 1 - at4 m 1 2) (at4 m 0 2 - at4 m 2 0) (at4 m 1 0 - at4 m 0 1) t)
  else
    let '(i, j, k) := if Rlt_dec (at4 m 0 0) (at4 m 1 1) then (1, 2, 0)%nat else (0, 1, 2)%nat in
    let '(i, j, k) := if Rlt_dec (m i i) (at4 m 2 2) then (2, 0, 1)%nat else (i, j, k) in
    let t := m i i - (m j j + m k k) + at4 m 3 3 in
    let at_ n := if Nat.eqb n i then t else if Nat.eqb n j then m i j + m j i else m k i + m i k in
    scale t (Quat (at_ 0%nat) (at_ 1%nat) (at_ 2%nat) (m k j - m j k)).

(** ** Joint angles *)

(** The rotation part of a row of a sample: exactly four numbers after the
    translation (other sizes fail when the quaternion is unpacked or indexed;
    ValueError here). *)
Definition rotation_part (row : list R) : result quat :=
  match skipn 3 row with
  | [x; y; z; w] => Ok (Quat x y z w)
  | _ => Err ValueError
  end.

(** /repo/multimodal/features/angle_histograms.py:45-57; the default axes of
    euler_from_quaternion are sxyz. *)
Definition get_angles (sample : list (list R)) (source_frame dest_frame : Z) : result (R * R * R) :=
  s <- py_nth sample source_frame ;;
  s <- rotation_part s ;;
  d <- py_nth sample dest_frame ;;
  d <- rotation_part d ;;
  a <- axes_of "sxyz"%string ;;
  Ok (euler_from_quaternion (quaternion_multiply (quaternion_inverse s) d) a).

(** angle_histograms.py:60-62; np.hstack of no angle is ValueError. *)
Definition get_angle_array (sample : list (list R)) (angles_idx : list (Z * Z)) : result (list R) :=
  angles <- mapM (fun sd => get_angles sample (fst sd) (snd sd)) angles_idx ;;
  match angles with
  | [] => Err ValueError
  | _ => Ok (flat_map (fun a => [fst (fst a); snd (fst a); snd a]) angles)
  end.

(** angle_histograms.py:65-67; np.vstack of nothing is ValueError. *)
Definition record_to_angle_array (record : list (list (list R))) (angles_idx : list (Z * Z))
  : result (list (list R)) :=
  rows <- mapM (fun sample => get_angle_array sample angles_idx) record ;;
  match rows with [] => Err ValueError | _ => Ok rows end.

(** angle_histograms.py:27-38 *)
Definition ANGLES : list (string * string) :=
  [("left_shoulder", "left_elbow"); ("left_elbow", "left_hand"); ("torso", "left_hip");
   ("left_hip", "left_knee"); ("left_knee", "left_foot"); ("right_shoulder", "right_elbow");
   ("right_elbow", "right_hand"); ("torso", "right_hip"); ("right_hip", "right_knee");
   ("right_knee", "right_foot")]%string.

(** angle_histograms.py:41-43 *)
Definition angles_indices (marker_names : list string) : result (list (Z * Z)) :=
  mapM (fun sd =>
    s <- list_index String.eqb marker_names (fst sd) 0 ;;
    d <- list_index String.eqb marker_names (snd sd) 0 ;;
    Ok (Z.of_nat s, Z.of_nat d)) ANGLES.

(** angle_histograms.py:70-72: a database is its marker names and the sample
    arrays of its records. *)
Definition db_to_list_of_angle_arrays (marker_names : list string)
    (records : list (list (list (list R)))) : result (list (list (list R))) :=
  angle_idx <- angles_indices marker_names ;;
  mapM (fun r => record_to_angle_array r angle_idx) records.
