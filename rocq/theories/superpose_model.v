(** * superimposition_matrix of multimodal/lib/transformations.py.

    A vector set, an array of shape (3, n) or (4, n), is given by its n columns, without
    the fourth component (v[:3]).  Numbers are reals; numpy.linalg.svd and numpy.linalg.eig
    are arguments, numpy.linalg.det is the determinant.  The ratio of a scaling is not
    modelled if it is a division by zero. *)

From Coq Require Import List ZArith Arith Reals Bool.
Import ListNotations.
From Verif Require Import Py transf_model affine_model.
Local Open Scope R_scope.

Definition rsum (l : list R) : R := fold_right Rplus 0 l.
(** numpy.mean(v, axis=1) *)
Definition mean3 (v : list vec3) : vec3 :=
  let n := INR (length v) in V3 (rsum (map vx v) / n) (rsum (map vy v) / n) (rsum (map vz v) / n).
(** v - t.reshape(3, 1) *)
Definition centred (v : list vec3) (t : vec3) : list vec3 := map (fun p => V3 (vx p - vx t) (vy p - vy t) (vz p - vz t)) v.
(** numpy.sum(a * b) over the columns, for one row of each *)
Definition cross_sum (f g : vec3 -> R) (v w : list vec3) : R := rsum (map (fun p => f (fst p) * g (snd p)) (combine v w)).
(** numpy.dot(v1, v0.T) *)
Definition covariance (v1 v0 : list vec3) : mat4 := fun i j => cross_sum (fun p => coord p i) (fun p => coord p j) v1 v0.
(** The product and the determinant of 3 x 3 matrices. *)
Definition dot33 (m n : mat4) : mat4 := fun i j => m i 0%nat * n 0%nat j + m i 1%nat * n 1%nat j + m i 2%nat * n 2%nat j.
Definition det33 (m : mat4) : R :=
  m 0%nat 0%nat * (m 1%nat 1%nat * m 2%nat 2%nat - m 1%nat 2%nat * m 2%nat 1%nat) -
  m 0%nat 1%nat * (m 1%nat 0%nat * m 2%nat 2%nat - m 1%nat 2%nat * m 2%nat 0%nat) +
  m 0%nat 2%nat * (m 1%nat 0%nat * m 2%nat 1%nat - m 1%nat 1%nat * m 2%nat 0%nat).
(** numpy.argmax of four numbers: the first largest *)
Definition argmax4 (l : nat -> R) : nat :=
  fold_left (fun b j => if Rlt_dec (l b) (l j) then j else b) [1; 2; 3]%nat 0%nat.

(** transformations.py:925-936 *)
Definition svd_matrix (svd : mat4 -> mat4 * (nat -> R) * mat4) (v0 v1 : list vec3) : mat4 :=
  let '(u, s, vh) := svd (covariance v1 v0) in
  let r := dot33 u vh in
  let r : mat4 := if Rlt_dec (det33 r) 0 then fun i j => r i j - u i 2%nat * (vh 2%nat j * 2) else r in
  fun i j => if ((i <? 3)%nat && (j <? 3)%nat)%bool then r i j else identity4 i j.

(** transformations.py:937-952 *)
Definition horn (v0 v1 : list vec3) : mat4 :=
  let xx := cross_sum vx vx v0 v1 in let yy := cross_sum vy vy v0 v1 in let zz := cross_sum vz vz v0 v1 in
  let xy := cross_sum vx vy v0 v1 in let yz := cross_sum vy vz v0 v1 in let zx := cross_sum vz vx v0 v1 in
  let xz := cross_sum vx vz v0 v1 in let yx := cross_sum vy vx v0 v1 in let zy := cross_sum vz vy v0 v1 in
  rows4 [[xx + yy + zz; yz - zy; zx - xz; xy - yx];
         [yz - zy; xx - yy - zz; xy + yx; zx + xz];
         [zx - xz; xy + yx; - xx + yy - zz; yz + zy];
         [xy - yx; zx + xz; yz + zy; - xx - yy + zz]].
Definition eig_matrix (eig : mat4 -> (nat -> R) * mat4) (v0 v1 : list vec3) : mat4 :=
  let '(l, v) := eig (horn v0 v1) in
  let k := argmax4 l in
  let n := sqrt (v 0%nat k * v 0%nat k + v 1%nat k * v 1%nat k + v 2%nat k * v 2%nat k + v 3%nat k * v 3%nat k) in
  quaternion_matrix (Quat (v 1%nat k / n) (v 2%nat k / n) (v 3%nat k / n) (v 0%nat k / n)).

(** transformations.py:866-965 *)
Definition superimposition_matrix (svd : mat4 -> mat4 * (nat -> R) * mat4) (eig : mat4 -> (nat -> R) * mat4)
  (v0 v1 : list vec3) (scaling usesvd : bool) : result mat4 :=
  if (negb (length v0 =? length v1)%nat || (length v0 <? 3)%nat)%bool then Err ValueError
  else
    let t0 := mean3 v0 in let t1 := mean3 v1 in
    let v0 := centred v0 t0 in let v1 := centred v1 t1 in
    let m := if usesvd then svd_matrix svd v0 v1 else eig_matrix eig v0 v1 in
    let squares v := rsum (map (fun p => vx p * vx p + vy p * vy p + vz p * vz p) v) in
    let m : mat4 := if scaling then
               let f := sqrt (squares v1 / squares v0) in
               fun i j => if ((i <? 3)%nat && (j <? 3)%nat)%bool then m i j * f else m i j
             else m in
    let m := set_column m (coord t1) in
    let t := set_column identity4 (fun i => - coord t0 i) in
    Ok (mdot m t).
