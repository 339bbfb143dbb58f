(** * The parameters of a homogeneous matrix from its eigenvectors:
      multimodal/lib/transformations.py, reflection_from_matrix, rotation_from_matrix,
      scale_from_matrix, projection_from_matrix and shear_from_matrix.

    numpy.linalg.eig is an argument: for a dimension and a matrix, the pairs of eigenvalues
    and columns of V in the order of the answer, with real and imaginary parts.  Numbers are
    reals.  A point is read from the homogeneous vector point / point[3]; where point[3] is
    0, numpy gives inf and nan with a warning: [None] stands for such a point.  Other
    divisions by zero are not modelled, except where said.  The fourth coordinate of a
    point, which is 1, is left out. *)

From Coq Require Import List ZArith Arith Reals Bool.
Import ListNotations.
From Verif Require Import Py transf_model affine_model affine2_model.
Local Open Scope R_scope.

(** An eigenvalue and a column of V, as complex numbers. *)
Record eigenpair := Eigenpair { re_value : R; im_value : R; re_vector : nat -> R; im_vector : nat -> R }.
Definition eig_fun := nat -> mat4 -> list eigenpair.

(** numpy.where(abs(numpy.real(l) - value) < tolerance)[0], the columns at these indices *)
Definition near (value tolerance : R) (e : eigenpair) : bool := if Rlt_dec (Rabs (re_value e - value)) tolerance then true else false.
Definition where_near (value tolerance : R) (l : list eigenpair) : list eigenpair := filter (near value tolerance) l.
(** numpy.where(abs(numpy.real(l)) > tolerance)[0] *)
Definition where_away (tolerance : R) (l : list eigenpair) : list eigenpair :=
  filter (fun e => if Rlt_dec tolerance (Rabs (re_value e)) then true else false) l.
(** i[0] and i[-1], with the ValueError raised where there is none *)
Definition first_of (l : list eigenpair) : result eigenpair := match l with [] => Err ValueError | e :: _ => Ok e end.
Definition last_of (l : list eigenpair) : result eigenpair := match rev l with [] => Err ValueError | e :: _ => Ok e end.
(** numpy.real(V[:, i]).squeeze(), of three rows *)
Definition real3 (e : eigenpair) : vec3 := V3 (re_vector e 0%nat) (re_vector e 1%nat) (re_vector e 2%nat).
(** point = numpy.real(V[:, i]).squeeze(); point /= point[3] *)
Definition real_point (e : eigenpair) : option vec3 :=
  let w := re_vector e 3%nat in
  if Req_EM_T w 0 then None else Some (V3 (re_vector e 0%nat / w) (re_vector e 1%nat / w) (re_vector e 2%nat / w)).
(** direction /= vector_norm(direction) *)
Definition normalized (v : vec3) : vec3 := let n := vector_norm v in V3 (vx v / n) (vy v / n) (vz v / n).
Definition transposed (m : mat4) : mat4 := fun i j => m j i.
(** numpy.trace(M[:3, :3]) *)
Definition trace3 (m : mat4) : R := m 0%nat 0%nat + m 1%nat 1%nat + m 2%nat 2%nat.

(** transformations.py:246-272 *)
Definition reflection_from_matrix (eig : eig_fun) (m : mat4) : result (option vec3 * vec3) :=
  bind (first_of (where_near (-1) (1 / 10 ^ 8) (eig 3%nat m))) (fun normal =>
  bind (last_of (where_near 1 (1 / 10 ^ 8) (eig 4%nat m))) (fun point =>
  Ok (real_point point, real3 normal))).

(** transformations.py:319-355 *)
Definition rotation_from_matrix (eig : eig_fun) (r : mat4) : result (R * vec3 * option vec3) :=
  bind (last_of (where_near 1 (1 / 10 ^ 8) (eig 3%nat (transposed r)))) (fun direction =>
  bind (last_of (where_near 1 (1 / 10 ^ 8) (eig 4%nat r))) (fun point =>
  let d := real3 direction in
  let cosa := (trace3 r - 1) / 2 in
  let sina :=
    if Rlt_dec (1 / 10 ^ 8) (Rabs (vz d)) then (r 1%nat 0%nat + (cosa - 1) * vx d * vy d) / vz d
    else if Rlt_dec (1 / 10 ^ 8) (Rabs (vy d)) then (r 0%nat 2%nat + (cosa - 1) * vx d * vz d) / vy d
    else (r 2%nat 1%nat + (cosa - 1) * vy d * vz d) / vx d in
  Ok (atan2 sina cosa, d, real_point point))).

(** transformations.py:396-434 *)
Definition scale_from_matrix (eig : eig_fun) (m : mat4) : result (R * option vec3 * option vec3) :=
  let factor := trace3 m - 2 in
  let '(factor, direction) :=
    match where_near factor (1 / 10 ^ 8) (eig 3%nat m) with
    | e :: _ => (factor, Some (normalized (real3 e)))
    | [] => ((factor + 2) / 3, None)
    end in
  bind (last_of (where_near 1 (1 / 10 ^ 8) (eig 4%nat m))) (fun origin =>
  Ok (factor, real_point origin, direction)).

(** transformations.py:499-569.  The last two values are perspective and pseudo; with a
    [None] point, or where numpy.dot(point[:3], normal) is 0, the perspective point has inf
    or nan for coordinates: that is the [Some None]. *)
Definition projection_from_matrix (eig : eig_fun) (m : mat4) (pseudo : bool) :
  result (option vec3 * vec3 * option vec3 * option (option vec3) * bool) :=
  let l := eig 4%nat m in
  match pseudo, last_of (where_near 1 (1 / 10 ^ 8) l) with
  | false, Ok point =>
      bind (first_of (where_near 0 (1 / 10 ^ 8) (eig 3%nat m))) (fun direction =>
      match first_of (where_near 0 (1 / 10 ^ 8) (eig 3%nat (transposed m))) with
      | Ok normal => Ok (real_point point, normalized (real3 normal), Some (normalized (real3 direction)), None, false)
      | Err _ => Ok (real_point point, normalized (real3 direction), None, None, false)
      end)
  | _, _ =>
      bind (last_of (where_away (1 / 10 ^ 8) l)) (fun point =>
      let normal := V3 (- m 3%nat 0%nat) (- m 3%nat 1%nat) (- m 3%nat 2%nat) in
      let perspective :=
        match real_point point with
        | None => None
        | Some q =>
            let t := vdot q normal in
            if Req_EM_T t 0 then None
            else
              let e := V3 (m 0%nat 3%nat / t) (m 1%nat 3%nat / t) (m 2%nat 3%nat / t) in
              Some (if pseudo then V3 (vx e - vx normal) (vy e - vy normal) (vz e - vz normal) else e)
        end in
      Ok (real_point point, normal, None, Some perspective, pseudo))
  end.

(** numpy.cross *)
Definition cross3 (a b : vec3) : vec3 := V3 (vy a * vz b - vz a * vy b) (vz a * vx b - vx a * vz b) (vx a * vy b - vy a * vx b).
(** transformations.py:674-681, the loop over pairs of rows of V *)
Fixpoint longest_cross (v : list vec3) (pairs : list (nat * nat)) (lenorm : R) (normal : vec3) : result (R * vec3) :=
  match pairs with
  | [] => Ok (lenorm, normal)
  | (i0, i1) :: rest =>
      match nth_error v i0, nth_error v i1 with
      | Some a, Some b =>
          let n := cross3 a b in
          let l := vector_norm n in
          if Rlt_dec lenorm l then longest_cross v rest l n else longest_cross v rest lenorm normal
      | _, _ => Err IndexError
      end
  end.
(** numpy.dot(M[:3, :3] - numpy.identity(3), v) *)
Definition dot_less_identity (m : mat4) (v : vec3) : vec3 :=
  let at_row i := (m i 0%nat - identity4 i 0%nat) * vx v + (m i 1%nat - identity4 i 1%nat) * vy v + (m i 2%nat - identity4 i 2%nat) * vz v in
  V3 (at_row 0%nat) (at_row 1%nat) (at_row 2%nat).
(** transformations.py:655-697; normal is bound by the first turn of the loop, since
    vector_norm(n) > -1 *)
Definition shear_from_matrix (eig : eig_fun) (m : mat4) : result (R * vec3 * option vec3 * vec3) :=
  let l := where_near 1 (1 / 10 ^ 4) (eig 3%nat m) in
  if (length l <? 2)%nat then Err ValueError
  else
    bind (longest_cross (map real3 l) [(0%nat, 1%nat); (0%nat, 2%nat); (1%nat, 2%nat)] (-1) (V3 0 0 0)) (fun '(lenorm, normal) =>
    let normal := V3 (vx normal / lenorm) (vy normal / lenorm) (vz normal / lenorm) in
    let direction := dot_less_identity m normal in
    let angle := vector_norm direction in
    let direction := V3 (vx direction / angle) (vy direction / angle) (vz direction / angle) in
    let angle := atan angle in
    bind (last_of (where_near 1 (1 / 10 ^ 8) (eig 4%nat m))) (fun point =>
    Ok (angle, direction, real_point point, normal))).
