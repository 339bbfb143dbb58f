(** * Lemmas on quaternion_slerp and random quaternions. *)

From Coq Require Import List ZArith Reals Bool Lra Lia Nsatz.
Import ListNotations.
From Verif Require Import Py transf_model transf_spec affine_model affine_spec affine_proof affine_quat arcball_model arcball_spec.
Local Open Scope R_scope.

Lemma quat_eq p q : qx p = qx q -> qy p = qy q -> qz p = qz q -> qw p = qw q -> p = q.
Proof. destruct p, q. cbn. intros -> -> -> ->. reflexivity. Qed.
Lemma qinner_pos q : q <> qzero -> 0 < qinner q q.
Proof.
  intros N. destruct q as [x y z w]. unfold qinner. cbn.
  destruct (Req_dec x 0) as [-> |X]; [destruct (Req_dec y 0) as [-> |Y]; [destruct (Req_dec z 0) as [-> |Z]; [destruct (Req_dec w 0) as [-> |W]; [destruct N; reflexivity|]|]|]|]; nra.
Qed.
Lemma unit_direction q : q <> qzero -> direction_of q (unit_quaternion q).
Proof.
  intros N. pose proof (qinner_pos q N) as P. assert (S : 0 < sqrt (qinner q q)) by (apply sqrt_lt_R0; exact P).
  pose proof (sqrt_sqrt (qinner q q) (Rlt_le _ _ P)) as SS. unfold unit_quaternion. change (qdot q q) with (qinner q q). set (n := sqrt (qinner q q)) in *. split.
  - unfold qinner in *. cbn. transitivity ((qx q * qx q + qy q * qy q + qz q * qz q + qw q * qw q) / (n * n)); [field; lra|]. rewrite SS. field. lra.
  - exists n. split; [exact S|]. destruct q; unfold qmul; cbn. f_equal; field; lra.
Qed.
Lemma direction_unique q u v : direction_of q u -> direction_of q v -> u = v.
Proof.
  intros (U & s & S & E) (V & t & T & F). assert (X : s * s = t * t).
  { assert (A : qinner q q = s * s) by (rewrite E; transitivity (s * s * qinner u u); [unfold qinner, qmul; cbn; ring|rewrite U; ring]).
    assert (B : qinner q q = t * t) by (rewrite F; transitivity (t * t * qinner v v); [unfold qinner, qmul; cbn; ring|rewrite V; ring]). lra. }
  assert (Y : s = t) by (destruct (Rtotal_order s t) as [Z|[Z|Z]]; [nra|exact Z|nra]). subst t. clear X. rewrite E in F. destruct u, v. unfold qmul in F. cbn in F. injection F as A B C D.
  f_equal; apply (Rmult_eq_reg_l s); lra.
Qed.
Lemma unit_of_unit q : qinner q q = 1 -> unit_quaternion q = q.
Proof. intros U. unfold unit_quaternion. change (qdot q q) with (qinner q q). rewrite U, sqrt_1. destruct q; cbn. f_equal; field. Qed.
Lemma unit_nonzero q : qinner q q = 1 -> q <> qzero.
Proof. intros U ->. unfold qinner in U. cbn in U. lra. Qed.
Lemma cauchy p q : qinner p p = 1 -> qinner q q = 1 -> -1 <= qinner p q <= 1.
Proof.
  intros P Q. assert (N : forall z, 0 <= qinner z z) by (intros z; unfold qinner; nra). pose proof (N (qsum p q)) as A.
  pose proof (N (qsum p (qmul (-1) q))) as B.
  replace (qinner (qsum p q) (qsum p q)) with (qinner p p + qinner q q + 2 * qinner p q) in A by (unfold qinner, qsum; cbn; ring).
  replace (qinner (qsum p (qmul (-1) q)) (qsum p (qmul (-1) q))) with (qinner p p + qinner q q - 2 * qinner p q) in B by (unfold qinner, qsum, qmul; cbn; ring). lra.
Qed.
(** The direction from one unit quaternion to another. *)
Lemma arc_between p q : qinner p p = 1 -> qinner q q = 1 -> -1 < qinner p q < 1 ->
  exists e, on_arc p e (acos (qinner p q)) q.
Proof.
  intros P Q D. set (d := qinner p q) in *. assert (S : 0 < sqrt (1 - d * d)) by (apply sqrt_lt_R0; nra).
  pose proof (sqrt_sqrt (1 - d * d) ltac:(nra)) as SS.
  assert (SA : sin (acos d) = sqrt (1 - d * d)) by (rewrite sin_acos by lra; f_equal; unfold Rsqr; ring).
  assert (CA : cos (acos d) = d) by (apply cos_acos; lra). set (s := sqrt (1 - d * d)) in *.
  exists (qmul (/ s) (qsum q (qmul (- d) p))). unfold on_arc. rewrite SA, CA. split; [exact P|]. split; [|split].
  - transitivity (/ s * / s * (qinner q q + d * d * qinner p p - 2 * d * qinner p q)); [unfold qinner, qmul, qsum; cbn; ring|].
    rewrite P, Q. fold d. replace (1 + d * d * 1 - 2 * d * d) with (1 - d * d) by ring. rewrite <- SS. field. lra.
  - transitivity (/ s * (qinner p q - d * qinner p p)); [unfold qinner, qmul, qsum; cbn; ring|]. rewrite P. fold d. ring.
  - destruct p, q; unfold qsum, qmul; cbn. f_equal; field; lra.
Qed.
Lemma on_arc_inner p e a q : on_arc p e a q -> qinner q q = 1 /\ qinner p q = cos a.
Proof.
  intros (P & E & O & ->). pose proof (sin2_cos2 a) as SC. unfold Rsqr in SC. split.
  - transitivity (cos a * cos a * qinner p p + sin a * sin a * qinner e e + 2 * (sin a * cos a) * qinner p e); [unfold qinner, qmul, qsum; cbn; ring|]. rewrite P, E, O. lra.
  - transitivity (cos a * qinner p p + sin a * qinner p e); [unfold qinner, qmul, qsum; cbn; ring|]. rewrite P, O. ring.
Qed.
Lemma cos_even a k : cos (a + IZR (2 * k) * PI) = cos a /\ sin (a + IZR (2 * k) * PI) = sin a.
Proof.
  rewrite mult_IZR. replace (a + IZR 2 * IZR k * PI) with (a + 2 * IZR k * PI) by (cbn; ring).
  destruct (Z_le_dec 0 k) as [K|K].
  - replace (IZR k) with (INR (Z.to_nat k)) by (rewrite INR_IZR_INZ, Z2Nat.id by exact K; reflexivity). split; [apply cos_period|apply sin_period].
  - assert (E : IZR k = - INR (Z.to_nat (- k))) by (rewrite INR_IZR_INZ, Z2Nat.id, opp_IZR by lia; ring).
    rewrite E. set (n := Z.to_nat (- k)). split; [rewrite <- (cos_period _ n)|rewrite <- (sin_period _ n)]; f_equal; ring.
Qed.
(** The weighted sum is a point of the arc. *)
Lemma weights p e a q f : on_arc p e a q -> sin a <> 0 ->
  on_arc p e (f * a) (qplus (qtimes (sin ((1 - f) * a) * (1 / sin a)) p) (qtimes (sin (f * a) * (1 / sin a)) q)).
Proof.
  intros (P & E & O & ->) S. repeat split; try assumption. replace ((1 - f) * a) with (a - f * a) by ring. rewrite sin_minus.
  set (sa := sin a) in *. set (ca := cos a). set (x := cos (f * a)). set (y := sin (f * a)).
  destruct p, e. unfold qplus, qtimes, qsum, qmul. cbn. f_equal; field; exact S.
Qed.
(** The quaternion at the other end, with the sign that is nearest. *)
Definition facing (short : bool) (p q : quat) : quat := if (short && (if Rlt_dec (qinner p q) 0 then true else false))%bool then qmul (-1) q else q.
Lemma slerp_between quat0 quat1 p q f k short : direction_of quat0 p -> direction_of quat1 q -> f <> 0 -> f <> 1 -> EPS <= 1 - Rabs (qinner p q) ->
  let r := facing short p q in
  let a := acos (qinner p r) + IZR (2 * k) * PI in EPS <= Rabs a ->
  exists e, on_arc p e (acos (qinner p r)) r /\ on_arc p e (f * a) (quaternion_slerp quat0 quat1 f (2 * k) short).
Proof.
  intros DP DQ F0 F1 ED r a EA. pose proof EPS_pos as EP.
  assert (UP : unit_quaternion quat0 = p).
  { apply (direction_unique quat0); [apply unit_direction|exact DP]. intros ->. destruct DP as (U & s & S & E). destruct p. unfold qmul in E. injection E as A B C D. unfold qinner in U. cbn in U. nra. }
  assert (UQ : unit_quaternion quat1 = q).
  { apply (direction_unique quat1); [apply unit_direction|exact DQ]. intros ->. destruct DQ as (U & s & S & E). destruct q. unfold qmul in E. injection E as A B C D. unfold qinner in U. cbn in U. nra. }
  destruct DP as (P & _), DQ as (Q & _). pose proof (cauchy p q P Q) as CS.
  assert (R1 : qinner r r = 1) by (unfold r, facing; destruct (short && _)%bool; [transitivity (qinner q q); [unfold qinner, qmul; cbn; ring|]|]; exact Q).
  assert (ER : qinner p r = if (short && (if Rlt_dec (qinner p q) 0 then true else false))%bool then - qinner p q else qinner p q)
    by (unfold r, facing; destruct (short && _)%bool; [unfold qinner, qmul; cbn; ring|reflexivity]).
  assert (LR : -1 < qinner p r < 1).
  { rewrite ER. unfold Rabs in ED. destruct (Rcase_abs (qinner p q)) in ED; destruct (short && _)%bool; lra. }
  destruct (arc_between p r P R1 LR) as (e & A). exists e. split; [exact A|].
  unfold quaternion_slerp. rewrite UP, UQ. destruct (Req_EM_T f 0) as [|_]; [contradiction|]. destruct (Req_EM_T f 1) as [|_]; [contradiction|].
  change (qdot p q) with (qinner p q). destruct (Rlt_dec (Rabs (Rabs (qinner p q) - 1)) EPS) as [L|_].
  { exfalso. unfold Rabs in *. destruct (Rcase_abs (qinner p q)); repeat match goal with H : context [Rcase_abs ?x] |- _ => destruct (Rcase_abs x) end; lra. }
  assert (EQ : (if (short && (if Rlt_dec (qinner p q) 0 then true else false))%bool then (- qinner p q, qtimes (-1) q) else (qinner p q, q)) = (qinner p r, r)).
  { rewrite ER. unfold r, facing. destruct (short && _)%bool; [|reflexivity]. f_equal. unfold qtimes, qmul. f_equal; ring. }
  rewrite EQ. cbv beta iota zeta. fold a. destruct (Rlt_dec (Rabs a) EPS) as [L|_]; [lra|].
  destruct (cos_even (acos (qinner p r)) k) as (CE & SE). fold a in CE, SE.
  apply weights.
  - destruct A as (A1 & A2 & A3 & A4). repeat split; try assumption. rewrite CE, SE. exact A4.
  - rewrite SE, sin_acos by lra. apply Rgt_not_eq, sqrt_lt_R0. unfold Rsqr. nra.
Qed.
(** The result is always a unit quaternion for even spins. *)
Lemma slerp_unit quat0 quat1 f k short : quat0 <> qzero -> quat1 <> qzero -> qinner (quaternion_slerp quat0 quat1 f (2 * k) short) (quaternion_slerp quat0 quat1 f (2 * k) short) = 1.
Proof.
  intros N0 N1. pose proof (unit_direction _ N0) as D0. pose proof (unit_direction _ N1) as D1.
  set (p := unit_quaternion quat0) in *. set (q := unit_quaternion quat1) in *. pose proof (cauchy p q (proj1 D0) (proj1 D1)) as CS.
  destruct (Req_EM_T f 0) as [F0|F0]; [unfold quaternion_slerp; destruct (Req_EM_T f 0); [apply D0|contradiction]|].
  destruct (Req_EM_T f 1) as [F1|F1]; [unfold quaternion_slerp; destruct (Req_EM_T f 0); [contradiction|destruct (Req_EM_T f 1); [apply D1|contradiction]]|].
  assert (AB : Rabs (Rabs (qinner p q) - 1) = 1 - Rabs (qinner p q)).
  { unfold Rabs. destruct (Rcase_abs (qinner p q)); match goal with |- context [Rcase_abs ?x] => destruct (Rcase_abs x) end; lra. }
  destruct (Rlt_dec (1 - Rabs (qinner p q)) EPS) as [L|G].
  { unfold quaternion_slerp. destruct (Req_EM_T f 0) as [|_]; [contradiction|]. destruct (Req_EM_T f 1) as [|_]; [contradiction|]. fold p q.
    change (qdot p q) with (qinner p q). rewrite AB. destruct (Rlt_dec _ EPS); [apply D0|contradiction]. }
  destruct (Rlt_dec (Rabs (acos (qinner p (facing short p q)) + IZR (2 * k) * PI)) EPS) as [L|G2].
  - unfold quaternion_slerp. destruct (Req_EM_T f 0) as [|_]; [contradiction|]. destruct (Req_EM_T f 1) as [|_]; [contradiction|]. fold p q.
    change (qdot p q) with (qinner p q). rewrite AB. destruct (Rlt_dec _ EPS); [contradiction|].
    unfold facing in L. destruct (short && _)%bool.
    + replace (qinner p (qmul (-1) q)) with (- qinner p q) in L by (unfold qinner, qmul; cbn; ring). destruct (Rlt_dec _ EPS); [apply D0|contradiction].
    + destruct (Rlt_dec _ EPS); [apply D0|contradiction].
  - destruct (slerp_between quat0 quat1 p q f k short D0 D1 F0 F1 ltac:(lra) ltac:(lra)) as (e & _ & A). apply (on_arc_inner _ _ _ _ A).
Qed.
Lemma slerp_ends quat0 quat1 k short : quat0 <> qzero -> quat1 <> qzero ->
  direction_of quat0 (quaternion_slerp quat0 quat1 0 k short) /\ direction_of quat1 (quaternion_slerp quat0 quat1 1 k short).
Proof.
  intros N0 N1. unfold quaternion_slerp. destruct (Req_EM_T 0 0); [|lra]. destruct (Req_EM_T 1 0); [lra|]. destruct (Req_EM_T 1 1); [|lra].
  split; apply unit_direction; assumption.
Qed.
Lemma slerp_close quat0 quat1 p q f k short : direction_of quat0 p -> direction_of quat1 q -> f <> 1 -> 1 - Rabs (qinner p q) < EPS ->
  quaternion_slerp quat0 quat1 f k short = p.
Proof.
  intros DP DQ F1 L.
  assert (NZ : forall z u, direction_of z u -> z <> qzero).
  { intros z u (U & s & S & E) ->. destruct u. unfold qmul in E. injection E as A B C D. unfold qinner in U. cbn in U. nra. }
  pose proof (direction_unique quat0 _ _ (unit_direction _ (NZ _ _ DP)) DP) as UP. pose proof (direction_unique quat1 _ _ (unit_direction _ (NZ _ _ DQ)) DQ) as UQ.
  pose proof (cauchy p q (proj1 DP) (proj1 DQ)) as CS. unfold quaternion_slerp. rewrite UP, UQ. destruct (Req_EM_T f 0); [reflexivity|]. destruct (Req_EM_T f 1); [contradiction|].
  change (qdot p q) with (qinner p q).
  assert (AB : Rabs (Rabs (qinner p q) - 1) = 1 - Rabs (qinner p q)).
  { unfold Rabs. destruct (Rcase_abs (qinner p q)); match goal with |- context [Rcase_abs ?x] => destruct (Rcase_abs x) end; lra. }
  rewrite AB. destruct (Rlt_dec _ EPS); [reflexivity|contradiction].
Qed.
(** On the shortest path the whole arc is at most a quarter of the circle. *)
Lemma facing_short p q : 0 <= qinner p (facing true p q).
Proof.
  unfold facing. destruct (Rlt_dec (qinner p q) 0) as [L|L]; cbn [andb].
  - replace (qinner p (qmul (-1) q)) with (- qinner p q) by (unfold qinner, qmul; cbn; ring). lra.
  - lra.
Qed.
Lemma acos_quarter d : 0 <= d < 1 -> 0 < acos d <= PI / 2.
Proof.
  intros D. pose proof PI_RGT_0 as PP. destruct (acos_bound d) as (A & B). assert (C : cos (acos d) = d) by (apply cos_acos; lra). split.
  - destruct A as [A|A]; [exact A|]. rewrite <- A, cos_0 in C. lra.
  - destruct (Rle_dec (acos d) (PI / 2)) as [|G]; [assumption|]. exfalso. assert (X : cos (acos d) < cos (PI / 2)) by (apply cos_decreasing_1; lra). rewrite cos_PI2 in X. lra.
Qed.
(** An odd spin. *)
Lemma slerp_odd : exists p q, qinner p p = 1 /\ qinner q q = 1 /\
  qinner (quaternion_slerp p q (1 / 2) 1 true) (quaternion_slerp p q (1 / 2) 1 true) = 3.
Proof.
  pose proof EPS_small as ES. pose proof EPS_pos as EP. pose proof PI_RGT_0 as PP.
  assert (S3 : sqrt 3 * sqrt 3 = 3) by (apply sqrt_sqrt; lra). assert (SP : 0 < sqrt 3) by (apply sqrt_lt_R0; lra).
  set (p := Quat 0 0 0 1). set (q := Quat (sqrt 3 / 2) 0 0 (1 / 2)). exists p, q.
  assert (P : qinner p p = 1) by (unfold qinner, p; cbn; ring). assert (Q : qinner q q = 1).
  { unfold qinner, q. cbn. replace (sqrt 3 / 2 * (sqrt 3 / 2)) with (sqrt 3 * sqrt 3 / 4) by field. rewrite S3. lra. }
  split; [exact P|]. split; [exact Q|]. assert (D : qinner p q = 1 / 2) by (unfold qinner, p, q; cbn; lra).
  unfold quaternion_slerp. rewrite !unit_of_unit by assumption. destruct (Req_EM_T (1 / 2) 0); [lra|]. destruct (Req_EM_T (1 / 2) 1); [lra|].
  change (qdot p q) with (qinner p q). rewrite D. destruct (Rlt_dec (Rabs (Rabs (1 / 2) - 1)) EPS) as [L|_].
  { exfalso. rewrite (Rabs_pos_eq (1 / 2)) in L by lra. replace (1 / 2 - 1) with (- (1 / 2)) in L by field. rewrite Rabs_Ropp, Rabs_pos_eq in L; lra. }
  destruct (Rlt_dec (1 / 2) 0) as [L|_]; [lra|]. cbv beta iota zeta. cbn [andb].
  assert (AC : acos (1 / 2) = PI / 3).
  { rewrite <- cos_PI3. apply acos_cos. lra. }
  rewrite AC. rewrite Rmult_1_l. destruct (Rlt_dec (Rabs (PI / 3 + PI)) EPS) as [L|_].
  { exfalso. rewrite Rabs_pos_eq in L by lra. pose proof PI2_1. lra. }
  replace ((1 - 1 / 2) * (PI / 3 + PI)) with (PI - PI / 3) by field. replace (1 / 2 * (PI / 3 + PI)) with (PI - PI / 3) by field.
  rewrite neg_sin. replace (sin (PI - PI / 3)) with (sin (PI / 3)) by (rewrite sin_PI_x; reflexivity). rewrite sin_PI3.
  replace (sqrt 3 / 2 * (1 / - (sqrt 3 / 2))) with (-1) by (field; lra).
  unfold qinner, qplus, qtimes, p, q. cbn. replace (_ + _ + _ + _) with (sqrt 3 * sqrt 3 / 4 + 9 / 4) by field. rewrite S3. lra.
Qed.

(** ** Random quaternions *)
Lemma random_unit a b c : 0 <= a <= 1 -> exists q, random_quaternion [a; b; c] = Ok q /\ qinner q q = 1 /\ random_rotation_matrix [a; b; c] = Ok (quaternion_matrix q).
Proof.
  intros A. unfold random_rotation_matrix, random_quaternion. eexists. split; [reflexivity|]. split; [|reflexivity]. unfold qinner. cbn.
  pose proof (sin2_cos2 (PI * 2 * b)) as B. pose proof (sin2_cos2 (PI * 2 * c)) as C. unfold Rsqr in *.
  pose proof (sqrt_sqrt (1 - a) ltac:(lra)) as S1. pose proof (sqrt_sqrt a ltac:(lra)) as S2.
  set (s := sin (PI * 2 * b)) in *. set (t := sin (PI * 2 * c)) in *. set (u := cos (PI * 2 * b)) in *. set (v := cos (PI * 2 * c)) in *. set (x := sqrt (1 - a)) in *. set (y := sqrt a) in *.
  transitivity ((s * s + u * u) * (x * x) + (t * t + v * v) * (y * y)); [ring|]. rewrite B, C, S1, S2. ring.
Qed.
Lemma random_length rand : (List.length rand <> 3)%nat -> random_quaternion rand = Err AssertionError /\ random_rotation_matrix rand = Err AssertionError.
Proof. intros H. destruct rand as [|a [|b [|c [|d l]]]]; try (split; reflexivity). destruct H. reflexivity. Qed.
