(** * C63, C64, C80: quaternions, rotation matrices, Euler angles, joint angles. *)

From Coq Require Import List ZArith Arith Reals Bool String Lia Lra.
Import ListNotations.
From Verif Require Import Py transf_model transf_spec transf_proof transf_euler transf_quat transf_back transf_joints.
Local Open Scope R_scope.

(** C63: quaternion_multiply is associative, has unit (0, 0, 0, 1) and a
    multiplicative norm; quaternion_inverse is a two-sided inverse. *)
Theorem C63_multiply : forall p q r,
  quaternion_multiply p (quaternion_multiply q r) = quaternion_multiply (quaternion_multiply p q) r /\
  quaternion_multiply qone q = q /\ quaternion_multiply q qone = q /\
  norm2 (quaternion_multiply p q) = norm2 p * norm2 q.
Proof. exact (fun p q r => conj (mul_assoc p q r) (conj (mul_one_l q) (conj (mul_one_r q) (mul_norm p q)))). Qed.
Print Assumptions C63_multiply.

Theorem C63_inverse : forall q, q <> qzero ->
  quaternion_multiply (quaternion_inverse q) q = qone /\ quaternion_multiply q (quaternion_inverse q) = qone.
Proof. exact (fun q H => conj (inverse_l q H) (inverse_r q H)). Qed.
Print Assumptions C63_inverse.

(** C63: turning the base frame does not change a joint angle (nor which error
    is raised). *)
Theorem C63_turned : forall r s s' i j, r <> qzero -> turned r s s' -> nonzero_at s i ->
  get_angles s' i j = get_angles s i j.
Proof. exact angles_turned. Qed.
Print Assumptions C63_turned.

(** C63: neither does a common factor ... *)
Theorem C63_rescaled_all : forall t s s' i j, t <> 0 -> rescaled_all t s s' -> nonzero_at s i ->
  get_angles s' i j = get_angles s i j.
Proof. exact angles_rescaled_all. Qed.
Print Assumptions C63_rescaled_all.

(** ... nor a factor for each frame, as long as the second quaternion does not
    become negligible ... *)
Theorem C63_rescaled : forall s s' i j, rescaled s s' -> nonzero_at s i ->
  comparable s i j -> comparable s' i j -> get_angles s' i j = get_angles s i j.
Proof. exact angles_rescaled. Qed.
Print Assumptions C63_rescaled.

(** ... for then quaternion_matrix takes it as no rotation at all. *)
Theorem C63_rescaled_refuted :
  ~ (forall s s' i j, rescaled s s' -> nonzero_at s i -> get_angles s' i j = get_angles s i j).
Proof. exact rescaled_refuted. Qed.
Print Assumptions C63_rescaled_refuted.

(** C63: the three angles are those of the turns about the fixed x, y and z axes
    that carry the first frame to the second one (outside gimbal lock). *)
Theorem C63_meaning : forall s i j ri rj p q x y z,
  py_nth s i = Ok ri -> py_nth s j = Ok rj -> has_rotation ri p -> has_rotation rj q ->
  EPS <= norm2 p -> EPS <= norm2 q -> EPS * norm2 p <= norm2 q ->
  get_angles s i j = Ok (x, y, z) ->
  EPS < gap (true, 0, 1, 2)%nat (quaternion_matrix (quaternion_multiply (quaternion_inverse p) q)) ->
  same3 (mul3 (quaternion_matrix p) (composed (true, 0, 1, 2)%nat x y z)) (quaternion_matrix q).
Proof. exact angles_meaning. Qed.
Print Assumptions C63_meaning.

(** C63: each row of the angles of a database has the three angles of each of the ten joints,
    between the frames of their names, in the order of the table. *)
Theorem C63_joints : forall names records arrays, db_to_list_of_angle_arrays names records = Ok arrays ->
  Forall2 (fun record array => record <> [] /\ Forall2 (row_of names) record array) records arrays.
Proof. exact joint_columns. Qed.
Print Assumptions C63_joints.
Theorem C63_missing_joint : forall names records sd, In sd all_joints -> (~ In (fst sd) names \/ ~ In (snd sd) names) ->
  db_to_list_of_angle_arrays names records = Err ValueError.
Proof. exact joint_missing. Qed.
Print Assumptions C63_missing_joint.

(** C64: quaternion_matrix always gives a rotation without translation, and
    products go to products. *)
Theorem C64_rotation : forall q, rotation (quaternion_matrix q) /\ no_translation (quaternion_matrix q).
Proof. exact qm_rotation. Qed.
Print Assumptions C64_rotation.

Theorem C64_compose : forall p q,
  EPS <= norm2 p -> EPS <= norm2 q -> EPS <= norm2 (quaternion_multiply p q) ->
  same3 (quaternion_matrix (quaternion_multiply p q)) (mul3 (quaternion_matrix p) (quaternion_matrix q)).
Proof. exact qm_compose. Qed.
Print Assumptions C64_compose.

(** C64: outside gimbal lock, the angles of a rotation matrix rebuild it exactly,
    for each of the 24 axis sequences ... *)
Theorem C64_round_trip : forall name ax r m x y z,
  axes_of name = Ok ax -> reading name = Some r -> rotation m -> EPS < gap r m ->
  euler_from_matrix m ax = (x, y, z) -> same3 (euler_matrix x y z ax) m.
Proof.
  exact (fun name ax r m x y z EA ER H L E =>
    eq_rect _ (fun t => same3 (let '(x, y, z) := t in euler_matrix x y z ax) m)
      (round_trip m ax (axes_of_known _ _ EA) H (eq_rect_r (fun g => EPS < g) L (lock_gap _ _ _ m EA ER H))) _ E).
Qed.
Print Assumptions C64_round_trip.

(** ... and in gimbal lock up to an error in each entry below 2^-49. *)
Theorem C64_gimbal : forall name ax r m x y z,
  axes_of name = Ok ax -> reading name = Some r -> rotation m -> gap r m <= EPS ->
  euler_from_matrix m ax = (x, y, z) ->
  forall a b, (a < 3)%nat -> (b < 3)%nat -> Rabs (euler_matrix x y z ax a b - m a b) <= 2 * gap r m.
Proof. exact gimbal_bound. Qed.
Print Assumptions C64_gimbal.

(** C64 as used by get_angles, with the indices written out. *)
Theorem C64_sxyz : forall m x y z ax, axes_of "sxyz" = Ok ax -> rotation m -> EPS < sqrt (1 - (m 2%nat 0%nat) ^ 2) ->
  euler_from_matrix m ax = (x, y, z) -> same3 (euler_matrix x y z ax) m.
Proof. exact (fun m x y z ax EA H L E => C64_round_trip "sxyz" ax (true, 0, 1, 2)%nat m x y z EA eq_refl H L E). Qed.
Print Assumptions C64_sxyz.

(** C80: euler_matrix applies the three turns that the name of the sequence says. *)
Theorem C80_euler_matrix : forall name ax, axes_of name = Ok ax -> exists r, reading name = Some r /\
  forall x y z, same3 (euler_matrix x y z ax) (composed r x y z).
Proof. exact axes_of_reading. Qed.
Print Assumptions C80_euler_matrix.

Theorem C80_euler_rotation : forall name ax x y z, axes_of name = Ok ax ->
  rotation (euler_matrix x y z ax) /\ no_translation (euler_matrix x y z ax).
Proof. exact (fun name ax x y z EA => euler_rotation ax x y z (axes_of_known name ax EA)). Qed.
Print Assumptions C80_euler_rotation.

(** C80: quaternion_from_euler is a unit quaternion of the same rotation. *)
Theorem C80_quaternion_from_euler : forall name ax x y z, axes_of name = Ok ax ->
  norm2 (quaternion_from_euler x y z ax) = 1 /\
  same3 (quaternion_matrix (quaternion_from_euler x y z ax)) (euler_matrix x y z ax).
Proof. exact quaternion_euler. Qed.
Print Assumptions C80_quaternion_from_euler.

(** C80: quaternion_from_matrix and quaternion_matrix are inverse to each other
    (a rotation has two opposite unit quaternions). *)
Theorem C80_matrix_of_quaternion : forall m, rotation m -> no_translation m ->
  norm2 (quaternion_from_matrix m) = 1 /\ same3 (quaternion_matrix (quaternion_from_matrix m)) m.
Proof. exact (fun m H N => qm_from_matrix m H (proj1 (N 3%nat (le_n 4)))). Qed.
Print Assumptions C80_matrix_of_quaternion.

Theorem C80_quaternion_of_matrix : forall q, EPS <= norm2 q -> exists s, (s = 1 \/ s = -1) /\
  quaternion_from_matrix (quaternion_matrix q) = qscale (s / sqrt (norm2 q)) q.
Proof. exact from_matrix_qm. Qed.
Print Assumptions C80_quaternion_of_matrix.

(** ** Cases *)

(** A quaternion of norm 30, far above the threshold. *)
Example ex_norm : EPS <= norm2 (Quat 1 2 3 4) /\ Quat 1 2 3 4 <> qzero.
Proof.
  pose proof EPS_lt1. split; [unfold norm2; cbn [qx qy qz qw]; lra|]. intros E. injection E as E _ _ _. lra.
Qed.

(** A sample of two frames, turned by a quarter turn about z (not normalized),
    and rescaled. *)
Definition two_frames : list (list R) := [[1; 2; 3; 0; 0; 0; 1]; [4; 5; 6; 1; 2; 3; 4]].
Example ex_turned : turned (Quat 0 0 1 1) two_frames
  [[7; 7; 7; 0; 0; 1; 1]; [8; 8; 8; -1; 3; 7; 1]].
Proof.
  repeat constructor.
  - exists qone. split; [exists 1, 2, 3; reflexivity|exists 7, 7, 7]. cbn. repeat f_equal; ring.
  - exists (Quat 1 2 3 4). split; [exists 4, 5, 6; reflexivity|exists 8, 8, 8]. cbn. repeat f_equal; ring.
Qed.
Example ex_nonzero : nonzero_at two_frames 0.
Proof.
  intros row q E (a & b & c & F) Z. cbn in E. injection E as <-. subst q. injection F as _ _ _ F. lra.
Qed.
Example ex_rescaled : rescaled two_frames [[1; 2; 3; 0; 0; 0; 2]; [4; 5; 6; -1; -2; -3; -4]].
Proof.
  repeat constructor.
  - exists qone, 2. split; [lra|]. split; [exists 1, 2, 3; reflexivity|exists 1, 2, 3]. unfold qscale. cbn. repeat f_equal; ring.
  - exists (Quat 1 2 3 4), (-1). split; [lra|]. split; [exists 4, 5, 6; reflexivity|exists 4, 5, 6].
    unfold qscale. cbn [qx qy qz qw]. repeat f_equal; ring.
Qed.
Example ex_comparable : comparable two_frames 0 1.
Proof.
  intros ri rj p q EI EJ (a & b & c & F) (a' & b' & c' & F'). cbn in EI, EJ. injection EI as <-. injection EJ as <-.
  injection F as _ _ _ F1 F2 F3 F4. injection F' as _ _ _ G1 G2 G3 G4. unfold norm2.
  rewrite <- F1, <- F2, <- F3, <- F4, <- G1, <- G2, <- G3, <- G4. pose proof EPS_lt1. lra.
Qed.
(** ... and the angles exist: the first frame is the reference. *)
Example ex_angles : exists x y z, get_angles two_frames 0 1 = Ok (x, y, z).
Proof.
  unfold get_angles.
  change (py_nth two_frames 0) with (Ok [1; 2; 3; 0; 0; 0; 1]).
  change (py_nth two_frames 1) with (Ok [4; 5; 6; 1; 2; 3; 4]).
  cbn [bind rotation_part skipn]. change (axes_of "sxyz") with (Ok (Axes 0 false false false)). cbn [bind].
  destruct (euler_from_quaternion _ _) as ((x & y) & z). exists x, y, z. reflexivity.
Qed.

(** Turns by any angle about the x axis are outside gimbal lock for sxyz. *)
Example ex_turn t : rotation (turn 0 t) /\ EPS < gap (true, 0, 1, 2)%nat (turn 0 t).
Proof.
  split.
  - pose proof (sin2_cos2 t) as S. unfold Rsqr in S. split.
    + intros a b A B. destruct a as [|[|[|a]]]; try lia; destruct b as [|[|[|b]]]; try lia;
        unfold dot3, turn, rows4, delta; cbn [List.nth Nat.eqb]; lra.
    + unfold det3, at4, turn, rows4. cbn [List.nth]. lra.
  - unfold gap, middle, turn, rows4. cbn [List.nth]. replace (1 - 0 ^ 2) with 1 by ring. rewrite sqrt_1. apply EPS_lt1.
Qed.
(** A quarter turn about y is in gimbal lock. *)
Example ex_lock : gap (true, 0, 1, 2)%nat (turn 1 (PI / 2)) <= EPS.
Proof.
  unfold gap, middle, turn, rows4. cbn [List.nth]. rewrite sin_PI2. replace (1 - (- (1)) ^ 2) with 0 by ring.
  rewrite sqrt_0. apply Rlt_le, EPS_pos.
Qed.
Example ex_names : axes_of "sxyz" = Ok (Axes 0 false false false) /\ reading "ryxz" = Some (false, 1, 0, 2)%nat /\
  axes_of "sxx" = Err KeyError.
Proof. repeat split; reflexivity. Qed.
(** A skeleton with all joints: one record of one sample. *)
Definition ex_skeleton : list string := "torso"%string :: flat_map (fun side => map (fun p => (side ++ "_" ++ p)%string) ["shoulder"; "elbow"; "hand"; "hip"; "knee"; "foot"]%string) ["left"; "right"]%string.
Example ex_joints : exists arrays, db_to_list_of_angle_arrays ex_skeleton [[repeat [0; 0; 0; 0; 0; 0; 1] 13]] = Ok arrays.
Proof. eexists. reflexivity. Qed.
