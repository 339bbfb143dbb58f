(** * Lemmas on quaternions and rotation matrices. *)

From Coq Require Import List ZArith Arith Reals Bool String Lia Lra Nsatz.
Import ListNotations.
From Verif Require Import Py Py_proof transf_model transf_spec.
Open Scope py_scope.
Local Open Scope R_scope.

(** ** Quaternions *)
Lemma quat_eq x y z w x' y' z' w' : x = x' -> y = y' -> z = z' -> w = w' -> Quat x y z w = Quat x' y' z' w'.
Proof. congruence. Qed.
Lemma mul_assoc p q r : quaternion_multiply p (quaternion_multiply q r) = quaternion_multiply (quaternion_multiply p q) r.
Proof. destruct p, q, r. cbn. apply quat_eq; ring. Qed.
Lemma mul_one_l q : quaternion_multiply qone q = q.
Proof. destruct q. cbn. apply quat_eq; ring. Qed.
Lemma mul_one_r q : quaternion_multiply q qone = q.
Proof. destruct q. cbn. apply quat_eq; ring. Qed.
Lemma mul_norm p q : norm2 (quaternion_multiply p q) = norm2 p * norm2 q.
Proof. destruct p, q. unfold norm2. cbn. ring. Qed.
Lemma norm2_nonneg q : 0 <= norm2 q.
Proof.
  unfold norm2. pose proof (pow2_ge_0 (qx q)). pose proof (pow2_ge_0 (qy q)).
  pose proof (pow2_ge_0 (qz q)). pose proof (pow2_ge_0 (qw q)). lra.
Qed.
Lemma norm2_pos q : q <> qzero -> 0 < norm2 q.
Proof.
  intros N. destruct (norm2_nonneg q) as [H|H]; [exact H|]. exfalso. apply N.
  destruct q as [x y z w]. unfold norm2 in H. cbn [qx qy qz qw] in H. unfold qzero.
  apply quat_eq; nra.
Qed.
Lemma qdot_norm q : qdot q q = norm2 q.
Proof. unfold qdot, norm2. ring. Qed.
Lemma inverse_l q : q <> qzero -> quaternion_multiply (quaternion_inverse q) q = qone.
Proof.
  intros N. pose proof (norm2_pos q N) as P. unfold quaternion_inverse. rewrite qdot_norm.
  destruct q as [x y z w]. unfold norm2 in *. cbn in *. apply quat_eq; field; lra.
Qed.
Lemma inverse_r q : q <> qzero -> quaternion_multiply q (quaternion_inverse q) = qone.
Proof.
  intros N. pose proof (norm2_pos q N) as P. unfold quaternion_inverse. rewrite qdot_norm.
  destruct q as [x y z w]. unfold norm2 in *. cbn in *. apply quat_eq; field; lra.
Qed.

Lemma inverse_mul p q : p <> qzero -> q <> qzero ->
  quaternion_inverse (quaternion_multiply p q) = quaternion_multiply (quaternion_inverse q) (quaternion_inverse p).
Proof.
  intros P Q. pose proof (norm2_pos p P) as NP. pose proof (norm2_pos q Q) as NQ.
  unfold quaternion_inverse. rewrite !qdot_norm, mul_norm.
  set (a := norm2 p) in *. set (b := norm2 q) in *. clearbody a b.
  destruct p as [x y z w], q as [x' y' z' w']. cbn. apply quat_eq; field; lra.
Qed.

Lemma relative_turned r p q : r <> qzero -> p <> qzero ->
  quaternion_multiply (quaternion_inverse (quaternion_multiply r p)) (quaternion_multiply r q) =
  quaternion_multiply (quaternion_inverse p) q.
Proof.
  intros R P. rewrite inverse_mul by assumption. rewrite <- mul_assoc, (mul_assoc (quaternion_inverse r)).
  rewrite inverse_l by assumption. rewrite mul_one_l. reflexivity.
Qed.

Lemma qscale_zero t q : t <> 0 -> q <> qzero -> qscale t q <> qzero.
Proof.
  intros T N E. apply N. destruct q as [x y z w]. unfold qscale, qzero in *. cbn in E. injection E as E1 E2 E3 E4.
  apply quat_eq; [apply Rmult_integral in E1|apply Rmult_integral in E2|apply Rmult_integral in E3|apply Rmult_integral in E4]; tauto.
Qed.
Lemma relative_scaled s t p q : s <> 0 -> p <> qzero ->
  quaternion_multiply (quaternion_inverse (qscale s p)) (qscale t q) =
  qscale (t / s) (quaternion_multiply (quaternion_inverse p) q).
Proof.
  intros S P. pose proof (norm2_pos p P) as NP. unfold quaternion_inverse. rewrite !qdot_norm.
  assert (E : norm2 (qscale s p) = s ^ 2 * norm2 p) by (unfold norm2, qscale; cbn; ring).
  rewrite E. set (a := norm2 p) in *. clearbody a.
  destruct p as [x y z w], q as [x' y' z' w']. unfold qscale. cbn. apply quat_eq; field; lra.
Qed.

(** ** The matrix of a quaternion *)
Lemma EPS_pos : 0 < EPS.
Proof. unfold EPS. apply Rdiv_lt_0_compat; [lra|]. apply pow_lt. lra. Qed.
Lemma EPS_lt1 : EPS < 1.
Proof. unfold EPS. apply (Rmult_lt_reg_r (2 ^ 52)); [apply pow_lt; lra|]. unfold Rdiv. rewrite Rmult_assoc, Rinv_l by (apply pow_nonzero; lra). simpl. lra. Qed.

(** The entries without square root. *)
Definition qmat (x y z w n : R) : mat4 :=
  rows4 [[1 - 2 * (y * y + z * z) / n; 2 * (x * y - z * w) / n; 2 * (x * z + y * w) / n; 0];
         [2 * (x * y + z * w) / n; 1 - 2 * (x * x + z * z) / n; 2 * (y * z - x * w) / n; 0];
         [2 * (x * z - y * w) / n; 2 * (y * z + x * w) / n; 1 - 2 * (x * x + y * y) / n; 0];
         [0; 0; 0; 1]].

Ltac idx4 a b := destruct a as [|[|[|[|a]]]]; try lia; destruct b as [|[|[|[|b]]]]; try lia.

Lemma qm_entries q : EPS <= norm2 q -> forall a b, (a < 4)%nat -> (b < 4)%nat ->
  quaternion_matrix q a b = qmat (qx q) (qy q) (qz q) (qw q) (norm2 q) a b.
Proof.
  intros E a b A B. unfold quaternion_matrix. rewrite qdot_norm.
  destruct (Rlt_dec (norm2 q) EPS) as [X|_]; [lra|]. pose proof EPS_pos as P.
  assert (N : 0 < norm2 q) by lra.
  assert (S : forall u v, u * sqrt (2 / norm2 q) * (v * sqrt (2 / norm2 q)) = 2 * (u * v) / norm2 q).
  { intros u v. replace (u * sqrt (2 / norm2 q) * (v * sqrt (2 / norm2 q))) with
      (u * v * (sqrt (2 / norm2 q) * sqrt (2 / norm2 q))) by ring.
    rewrite sqrt_sqrt; [field; lra|]. apply Rlt_le, Rdiv_lt_0_compat; lra. }
  unfold qmat, rows4, outer. cbn [List.nth]. rewrite !S. set (n := norm2 q) in *. clearbody n.
  idx4 a b; cbn [List.nth]; field; lra.
Qed.

Lemma qm_small q : norm2 q < EPS -> quaternion_matrix q = identity4.
Proof.
  intros E. unfold quaternion_matrix. rewrite qdot_norm. destruct (Rlt_dec (norm2 q) EPS); [reflexivity|lra].
Qed.

Lemma rotation_ext m n : same3 m n -> rotation n -> rotation m.
Proof.
  intros E (O & D). split.
  - intros a b A B. rewrite <- (O a b A B). unfold dot3. rewrite !E by lia. reflexivity.
  - rewrite <- D. unfold det3, at4. rewrite !E by lia. reflexivity.
Qed.
Lemma identity_rotation : rotation identity4.
Proof.
  split; [|unfold det3, at4, identity4; cbn; ring].
  intros a b A B. destruct a as [|[|[|a]]]; try lia; destruct b as [|[|[|b]]]; try lia;
    unfold dot3, identity4, delta; cbn; ring.
Qed.

Lemma qmat_rotation x y z w : x * x + y * y + z * z + w * w <> 0 ->
  rotation (qmat x y z w (x * x + y * y + z * z + w * w)).
Proof.
  intros N. split.
  - intros a b A B. destruct a as [|[|[|a]]]; try lia; destruct b as [|[|[|b]]]; try lia;
      unfold dot3, qmat, rows4, delta; cbn [List.nth Nat.eqb]; field; exact N.
  - unfold det3, at4, qmat, rows4. cbn [List.nth]. field. exact N.
Qed.

Lemma norm2_mult q : norm2 q = qx q * qx q + qy q * qy q + qz q * qz q + qw q * qw q.
Proof. unfold norm2. ring. Qed.

Lemma qm_rotation q : rotation (quaternion_matrix q) /\ no_translation (quaternion_matrix q).
Proof.
  destruct (Rlt_dec (norm2 q) EPS) as [X|X].
  - rewrite qm_small by exact X. split; [apply identity_rotation|].
    intros a A. unfold identity4, delta. split; reflexivity.
  - assert (X' : EPS <= norm2 q) by lra. pose proof EPS_pos as P. split.
    + eapply rotation_ext; [intros a b A B; apply qm_entries; [exact X'|lia|lia]|].
      rewrite norm2_mult. apply qmat_rotation. rewrite <- norm2_mult. lra.
    + intros a A. rewrite !qm_entries by (assumption || lia).
      destruct a as [|[|[|[|a]]]]; try lia; unfold qmat, rows4, delta; cbn; split; reflexivity.
Qed.

Lemma qm_compose p q : EPS <= norm2 p -> EPS <= norm2 q -> EPS <= norm2 (quaternion_multiply p q) ->
  forall a b, (a < 3)%nat -> (b < 3)%nat ->
  quaternion_matrix (quaternion_multiply p q) a b =
  dot3 (fun c => quaternion_matrix p a c) (fun c => quaternion_matrix q c b).
Proof.
  intros P Q PQ a b A B. unfold dot3. rewrite !qm_entries by (assumption || lia).
  pose proof EPS_pos as E0. rewrite mul_norm.
  assert (NP : norm2 p <> 0) by lra. assert (NQ : norm2 q <> 0) by lra.
  rewrite !norm2_mult in *. destruct p as [x y z w], q as [x' y' z' w']. cbn [qx qy qz qw quaternion_multiply] in *.
  destruct a as [|[|[|a]]]; try lia; destruct b as [|[|[|b]]]; try lia;
    unfold qmat, rows4; cbn [List.nth]; field; split; assumption.
Qed.

Lemma qm_scale t q : t <> 0 -> EPS <= norm2 q -> EPS <= norm2 (qscale t q) ->
  forall a b, (a < 4)%nat -> (b < 4)%nat -> quaternion_matrix (qscale t q) a b = quaternion_matrix q a b.
Proof.
  intros T E E' a b A B. rewrite !qm_entries by assumption. pose proof EPS_pos as E0.
  assert (N : norm2 (qscale t q) = t ^ 2 * norm2 q) by (unfold norm2, qscale; cbn; ring).
  rewrite N. destruct q as [x y z w]. set (n := norm2 _) in *. assert (n <> 0) by lra. clearbody n.
  unfold qmat, rows4, qscale. cbn [qx qy qz qw]. idx4 a b; cbn [List.nth]; try reflexivity; field; lra.
Qed.
