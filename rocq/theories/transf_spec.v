(** * Rotations. *)

From Coq Require Import List ZArith Reals Bool String.
Import ListNotations.
From Verif Require Import Py transf_model.
Local Open Scope R_scope.

(** ** Matrices *)
Definition dot3 (u v : nat -> R) : R := u 0%nat * v 0%nat + u 1%nat * v 1%nat + u 2%nat * v 2%nat.
Definition det3 (m : mat4) : R :=
  let m := at4 m in
  at4 m 0 0 * (at4 m 1 1 * at4 m 2 2 - at4 m 1 2 * at4 m 2 1) -
  at4 m 0 1 * (at4 m 1 0 * at4 m 2 2 - at4 m 1 2 * at4 m 2 0) +
  at4 m 0 2 * (at4 m 1 0 * at4 m 2 1 - at4 m 1 1 * at4 m 2 0).
Definition delta (a b : nat) : R := if Nat.eqb a b then 1 else 0.

(** Orthonormal columns and determinant 1 in the 3 x 3 part. *)
Definition rotation (m : mat4) : Prop :=
  (forall a b, (a < 3)%nat -> (b < 3)%nat -> dot3 (fun r => m r a) (fun r => m r b) = delta a b) /\
  det3 m = 1.
(** The last row and column are those of the identity. *)
Definition no_translation (m : mat4) : Prop :=
  forall a, (a < 4)%nat -> m a 3%nat = delta a 3 /\ m 3%nat a = delta 3 a.
Definition same3 (m n : mat4) : Prop := forall a b, (a < 3)%nat -> (b < 3)%nat -> m a b = n a b.

(** ** Quaternions *)
Definition qzero : quat := Quat 0 0 0 0.
Definition qone : quat := Quat 0 0 0 1.
Definition norm2 (q : quat) : R := qx q ^ 2 + qy q ^ 2 + qz q ^ 2 + qw q ^ 2.
Definition qscale (t : R) (q : quat) : quat := Quat (t * qx q) (t * qy q) (t * qz q) (t * qw q).

(** A row of a sample: translation, then quaternion. *)
Definition has_rotation (row : list R) (q : quat) : Prop :=
  exists a b c, row = [a; b; c; qx q; qy q; qz q; qw q].

(** The same sample seen from a base frame turned by [r]: the quaternions are
    multiplied by [r] on the left, translations may be anything. *)
Definition turned (r : quat) (s s' : list (list R)) : Prop :=
  Forall2 (fun row row' => exists q, has_rotation row q /\
             has_rotation row' (quaternion_multiply r q)) s s'.
(** The same sample with every quaternion multiplied by some factor. *)
Definition rescaled (s s' : list (list R)) : Prop :=
  Forall2 (fun row row' => exists q t, t <> 0 /\ has_rotation row q /\
             has_rotation row' (qscale t q)) s s'.

(** ** Axis sequences: those of the table. *)
Definition known_axes (a : axes) : Prop := exists name, In (name, a) AXES2TUPLE.

(** ** The meaning of an axis sequence
    A name is s (fixed axes) or r (axes that turn with the body) and three axis
    letters, in the order in which the three angles are applied. *)
Definition turn (axis : nat) (t : R) : mat4 :=
  match axis with
  | 0%nat => rows4 [[1; 0; 0]; [0; cos t; - sin t]; [0; sin t; cos t]]
  | 1%nat => rows4 [[cos t; 0; sin t]; [0; 1; 0]; [- sin t; 0; cos t]]
  | _ => rows4 [[cos t; - sin t; 0]; [sin t; cos t; 0]; [0; 0; 1]]
  end.
Definition mul3 (m n : mat4) : mat4 := fun a b => dot3 (fun c => m a c) (fun c => n c b).

Definition letter (c : string) : option nat :=
  if String.eqb c "x" then Some 0%nat else if String.eqb c "y" then Some 1%nat
  else if String.eqb c "z" then Some 2%nat else None.
Definition reading (name : string) : option (bool * nat * nat * nat) :=
  match letter (substring 1 1 name), letter (substring 2 1 name), letter (substring 3 1 name) with
  | Some a, Some b, Some c =>
      if String.eqb (substring 0 1 name) "s" then Some (true, a, b, c)
      else if String.eqb (substring 0 1 name) "r" then Some (false, a, b, c) else None
  | _, _, _ => None
  end.
(** Fixed axes: later turns multiply on the left; turning axes: on the right. *)
Definition composed (r : bool * nat * nat * nat) (t1 t2 t3 : R) : mat4 :=
  let '(fixed, a, b, c) := r in
  if fixed then mul3 (turn c t3) (mul3 (turn b t2) (turn a t1))
  else mul3 (turn a t1) (mul3 (turn b t2) (turn c t3)).

(** The matrix entry that is plus or minus the sine of the middle angle, its
    cosine if the first axis is repeated, and what this leaves to the others:
    zero in gimbal lock. *)
Definition middle (r : bool * nat * nat * nat) (m : mat4) : R :=
  let '(fixed, a, b, c) := r in if fixed then m c a else m a c.
Definition gap (r : bool * nat * nat * nat) (m : mat4) : R := sqrt (1 - (middle r m) ^ 2).

(** The same sample with all quaternions multiplied by the same factor. *)
Definition rescaled_all (t : R) (s s' : list (list R)) : Prop :=
  Forall2 (fun row row' => exists q, has_rotation row q /\ has_rotation row' (qscale t q)) s s'.
(** The row at an index has a non-zero quaternion. *)
Definition nonzero_at (s : list (list R)) (i : Z) : Prop :=
  forall row q, py_nth s i = Ok row -> has_rotation row q -> q <> qzero.
(** The second quaternion is not vanishing compared with the first one. *)
Definition comparable (s : list (list R)) (i j : Z) : Prop :=
  forall ri rj p q, py_nth s i = Ok ri -> py_nth s j = Ok rj -> has_rotation ri p -> has_rotation rj q ->
  EPS * norm2 p <= norm2 q.

(** ** Joints: the two arms and the two legs, from the body outwards. *)
Definition limbs (side : string) : list (string * string) :=
  let part p := (side ++ "_" ++ p)%string in
  [(part "shoulder", part "elbow"); (part "elbow", part "hand");
   ("torso", part "hip"); (part "hip", part "knee"); (part "knee", part "foot")]%string.
Definition all_joints : list (string * string) := (limbs "left"%string ++ limbs "right"%string)%list.
(** The first position of a name. *)
Definition first_at (names : list string) (x : string) (i : nat) : Prop :=
  nth_error names i = Some x /\ ~ In x (firstn i names).
(** Columns 3 k, 3 k + 1 and 3 k + 2 of the row are the angles of joint number k. *)
Definition row_of (names : list string) (sample : list (list R)) (row : list R) : Prop :=
  List.length row = 30%nat /\
  forall k s d, nth_error all_joints k = Some (s, d) -> exists i j x y z,
    first_at names s i /\ first_at names d j /\ get_angles sample (Z.of_nat i) (Z.of_nat j) = Ok (x, y, z) /\
    nth_error row (3 * k) = Some x /\ nth_error row (3 * k + 1) = Some y /\ nth_error row (3 * k + 2) = Some z.
