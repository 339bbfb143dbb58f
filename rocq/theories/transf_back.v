(** * Quaternion of a matrix; joint angles. *)

From Coq Require Import List ZArith Arith Reals Bool String Lia Lra Psatz.
Import ListNotations.
From Verif Require Import Py Py_proof transf_model transf_spec transf_proof transf_euler transf_quat.
Open Scope py_scope.
Local Open Scope R_scope.

Lemma rotation_rows_dot m : rotation m -> forall a b, (a < 3)%nat -> (b < 3)%nat ->
  m a 0%nat * m b 0%nat + m a 1%nat * m b 1%nat + m a 2%nat * m b 2%nat = delta a b.
Proof.
  intros H a b A B. destruct (rotation_cof m H) as ((C00 & C01 & C02) & (C10 & C11 & C12) & (C20 & C21 & C22)).
  pose proof (rotation_rows m H a A) as RR.
  unfold at4 in *. unfold delta.
  assert (K01 : m 0%nat 0%nat * m 1%nat 0%nat + m 0%nat 1%nat * m 1%nat 1%nat + m 0%nat 2%nat * m 1%nat 2%nat = 0).
  { rewrite C00, C01, C02. ring. }
  assert (K02 : m 0%nat 0%nat * m 2%nat 0%nat + m 0%nat 1%nat * m 2%nat 1%nat + m 0%nat 2%nat * m 2%nat 2%nat = 0).
  { rewrite C00, C01, C02. ring. }
  assert (K12 : m 1%nat 0%nat * m 2%nat 0%nat + m 1%nat 1%nat * m 2%nat 1%nat + m 1%nat 2%nat * m 2%nat 2%nat = 0).
  { rewrite C10, C11, C12. ring. }
  clear C00 C01 C02 C10 C11 C12 C20 C21 C22.
  destruct a as [|[|[|a]]]; try lia; destruct b as [|[|[|b]]]; try lia; cbn [Nat.eqb]; lra.
Qed.

(** The products of the components of the result. *)
Definition outer_of (q : quat) (m : mat4) : Prop :=
  let p u v t := 4 * (u * v) = t in
  let a := at4 m 0 0 in let b := at4 m 0 1 in let c := at4 m 0 2 in
  let d := at4 m 1 0 in let e := at4 m 1 1 in let f := at4 m 1 2 in
  let g := at4 m 2 0 in let h := at4 m 2 1 in let i := at4 m 2 2 in
  (p (qx q) (qx q) (1 + a - e - i) /\ p (qy q) (qy q) (1 - a + e - i) /\
   p (qz q) (qz q) (1 - a - e + i) /\ p (qw q) (qw q) (1 + a + e + i)) /\
  (p (qx q) (qy q) (b + d) /\ p (qx q) (qz q) (c + g) /\ p (qy q) (qz q) (f + h)) /\
  (p (qx q) (qw q) (h - f) /\ p (qy q) (qw q) (c - g) /\ p (qz q) (qw q) (d - b)).

Lemma product_scaled u v s T : 0 < T -> u * v = T * s ->
  4 * (u * (/ 2 / sqrt (T * 1)) * (v * (/ 2 / sqrt (T * 1)))) = s.
Proof.
  intros P E. rewrite Rmult_1_r. assert (Q : 0 < sqrt T) by (apply sqrt_lt_R0, P).
  replace (4 * (u * (/ 2 / sqrt T) * (v * (/ 2 / sqrt T)))) with (u * v / (sqrt T * sqrt T)) by (field; lra).
  rewrite E, sqrt_sqrt by lra. field. lra.
Qed.

Lemma from_matrix_outer m : rotation m -> m 3%nat 3%nat = 1 -> outer_of (quaternion_from_matrix m) m.
Proof.
  intros H M3. pose proof (rotation_cof m H) as C.
  pose proof (rotation_rows_dot m H 0%nat 0%nat ltac:(lia) ltac:(lia)) as R00.
  pose proof (rotation_rows_dot m H 0%nat 1%nat ltac:(lia) ltac:(lia)) as R01.
  pose proof (rotation_rows_dot m H 0%nat 2%nat ltac:(lia) ltac:(lia)) as R02.
  pose proof (rotation_rows_dot m H 1%nat 1%nat ltac:(lia) ltac:(lia)) as R11.
  pose proof (rotation_rows_dot m H 1%nat 2%nat ltac:(lia) ltac:(lia)) as R12.
  pose proof (rotation_rows_dot m H 2%nat 2%nat ltac:(lia) ltac:(lia)) as R22.
  pose proof (rotation_columns m H 0%nat 0%nat ltac:(lia) ltac:(lia)) as G00.
  pose proof (rotation_columns m H 0%nat 1%nat ltac:(lia) ltac:(lia)) as G01.
  pose proof (rotation_columns m H 0%nat 2%nat ltac:(lia) ltac:(lia)) as G02.
  pose proof (rotation_columns m H 1%nat 1%nat ltac:(lia) ltac:(lia)) as G11.
  pose proof (rotation_columns m H 1%nat 2%nat ltac:(lia) ltac:(lia)) as G12.
  pose proof (rotation_columns m H 2%nat 2%nat ltac:(lia) ltac:(lia)) as G22.
  clear H. unfold delta, cof in *. cbn [Nat.eqb] in *.
  unfold quaternion_from_matrix, outer_of. unfold at4 in *. rewrite M3.
  destruct C as ((C00 & C01 & C02) & (C10 & C11 & C12) & (C20 & C21 & C22)).
  assert (Fin : forall T X Y Z W : R, 0 < T ->
    let a := m 0%nat 0%nat in let b := m 0%nat 1%nat in let c := m 0%nat 2%nat in
    let d := m 1%nat 0%nat in let e := m 1%nat 1%nat in let f := m 1%nat 2%nat in
    let g := m 2%nat 0%nat in let h := m 2%nat 1%nat in let i := m 2%nat 2%nat in
    (X * X = T * (1 + a - e - i) /\ Y * Y = T * (1 - a + e - i) /\ Z * Z = T * (1 - a - e + i) /\ W * W = T * (1 + a + e + i)) ->
    (X * Y = T * (b + d) /\ X * Z = T * (c + g) /\ Y * Z = T * (f + h)) ->
    (X * W = T * (h - f) /\ Y * W = T * (c - g) /\ Z * W = T * (d - b)) ->
    let k := / 2 / sqrt (T * 1) in
    let q := Quat (X * k) (Y * k) (Z * k) (W * k) in
    (4 * (qx q * qx q) = 1 + a - e - i /\ 4 * (qy q * qy q) = 1 - a + e - i /\
     4 * (qz q * qz q) = 1 - a - e + i /\ 4 * (qw q * qw q) = 1 + a + e + i) /\
    (4 * (qx q * qy q) = b + d /\ 4 * (qx q * qz q) = c + g /\ 4 * (qy q * qz q) = f + h) /\
    (4 * (qx q * qw q) = h - f /\ 4 * (qy q * qw q) = c - g /\ 4 * (qz q * qw q) = d - b)).
  { intros T X Y Z W P. cbn zeta. cbn [qx qy qz qw].
    intros (E1 & E2 & E3 & E4) (E5 & E6 & E7) (E8 & E9 & E10). repeat split; apply product_scaled; assumption. }
  cbn zeta in Fin. cbn zeta beta.
  destruct (Rlt_dec 1 (m 0%nat 0%nat + m 1%nat 1%nat + m 2%nat 2%nat + 1)) as [L|L].
  - apply Fin; [lra| | |]; clear Fin; cbn [qx qy qz qw]; name_entries m; repeat split; lra.
  - destruct (Rlt_dec (m 0%nat 0%nat) (m 1%nat 1%nat)) as [D|D]; cbv iota beta.
    + destruct (Rlt_dec (m 1%nat 1%nat) (m 2%nat 2%nat)) as [D'|D']; cbv iota beta; cbn [Nat.eqb qx qy qz qw];
        (apply Fin; [lra| | |]; clear Fin; cbn [qx qy qz qw]; name_entries m; repeat split; lra).
    + destruct (Rlt_dec (m 0%nat 0%nat) (m 2%nat 2%nat)) as [D'|D']; cbv iota beta; cbn [Nat.eqb qx qy qz qw];
        (apply Fin; [lra| | |]; clear Fin; cbn [qx qy qz qw]; name_entries m; repeat split; lra).
Qed.

Lemma qm_from_matrix m : rotation m -> m 3%nat 3%nat = 1 ->
  norm2 (quaternion_from_matrix m) = 1 /\ same3 (quaternion_matrix (quaternion_from_matrix m)) m.
Proof.
  intros H M3. pose proof (from_matrix_outer m H M3) as O. unfold outer_of, at4 in O. cbn zeta beta in O.
  set (q := quaternion_from_matrix m) in *. clearbody q.
  destruct O as ((E1 & E2 & E3 & E4) & (E5 & E6 & E7) & (E8 & E9 & E10)).
  assert (N : norm2 q = 1) by (rewrite norm2_mult; lra).
  split; [exact N|]. intros a b A B. rewrite qmat_ext by (exact N || lia).
  rewrite (entries3 m a b A B). unfold qmat, rows4.
  destruct a as [|[|[|a]]]; try lia; destruct b as [|[|[|b]]]; try lia; cbn [List.nth]; lra.
Qed.

Lemma same_outer (q r : quat) n : 0 < n -> q <> qzero ->
  (qx r * qx r = qx q * qx q / n /\ qy r * qy r = qy q * qy q / n /\ qz r * qz r = qz q * qz q / n /\ qw r * qw r = qw q * qw q / n) ->
  (qx r * qy r = qx q * qy q / n /\ qx r * qz r = qx q * qz q / n /\ qy r * qz r = qy q * qz q / n) ->
  (qx r * qw r = qx q * qw q / n /\ qy r * qw r = qy q * qw q / n /\ qz r * qw r = qz q * qw q / n) ->
  exists s, (s = 1 \/ s = -1) /\ r = qscale (s / sqrt n) q.
Proof.
  intros N Z (E1 & E2 & E3 & E4) (E5 & E6 & E7) (E8 & E9 & E10).
  destruct q as [x y z w], r as [x' y' z' w']. cbn [qx qy qz qw] in *.
  assert (Q : 0 < sqrt n) by (apply sqrt_lt_R0, N).
  set (k := sqrt n) in *. assert (KK : n = k * k) by (unfold k; rewrite sqrt_sqrt; lra). clearbody k.
  assert (G : forall u u', u <> 0 -> u' * u' = u * u / n -> exists s, (s = 1 \/ s = -1) /\ u' = s / k * u /\
                (forall v v', u' * v' = u * v / n -> v' = s / k * v)).
  { intros u u' U E. assert (F : (u' - u / k) * (u' + u / k) = 0).
    { replace ((u' - u / k) * (u' + u / k)) with (u' * u' - u * u / (k * k)) by (field; lra). rewrite E, <- KK. ring. }
    assert (S : exists s, (s = 1 \/ s = -1) /\ u' = s / k * u).
    { apply Rmult_integral in F. destruct F as [F|F].
      - exists 1. split; [left; reflexivity|]. replace u' with (u / k) by lra. field. lra.
      - exists (-1). split; [right; reflexivity|]. replace u' with (- (u / k)) by lra. field. lra. }
    destruct S as (s & S & ->). exists s. split; [exact S|]. split; [reflexivity|].
    intros v v' V. assert (SS : s * s = 1) by (destruct S; subst s; ring).
    apply (Rmult_eq_reg_l (s / k * u)).
    - rewrite V, KK. replace (s / k * u * (s / k * v)) with (s * s * (u * v / (k * k))) by (field; lra). rewrite SS. ring.
    - intros B. apply Rmult_integral in B. destruct B as [B|B]; [|tauto].
      assert (s = 0); [|destruct S; lra]. replace s with (s / k * k) by (field; lra). rewrite B. ring. }
  destruct (Req_dec x 0) as [X|X].
  - destruct (Req_dec y 0) as [Y|Y].
    + destruct (Req_dec z 0) as [Z0|Z0].
      * assert (W : w <> 0) by (intros ->; apply Z; subst; reflexivity).
        destruct (G w w' W E4) as (s & S & F & H). exists s. split; [exact S|]. unfold qscale. cbn [qx qy qz qw].
        apply quat_eq; [apply H; rewrite Rmult_comm, E8; unfold Rdiv; ring|apply H; rewrite Rmult_comm, E9; unfold Rdiv; ring|
                        apply H; rewrite Rmult_comm, E10; unfold Rdiv; ring|exact F].
      * destruct (G z z' Z0 E3) as (s & S & F & H). exists s. split; [exact S|]. unfold qscale. cbn [qx qy qz qw].
        apply quat_eq; [apply H; rewrite Rmult_comm, E6; unfold Rdiv; ring|apply H; rewrite Rmult_comm, E7; unfold Rdiv; ring|exact F|apply H; exact E10].
    + destruct (G y y' Y E2) as (s & S & F & H). exists s. split; [exact S|]. unfold qscale. cbn [qx qy qz qw].
      apply quat_eq; [apply H; rewrite Rmult_comm, E5; unfold Rdiv; ring|exact F|apply H; exact E7|apply H; exact E9].
  - destruct (G x x' X E1) as (s & S & F & H). exists s. split; [exact S|]. unfold qscale. cbn [qx qy qz qw].
    apply quat_eq; [exact F|apply H; exact E5|apply H; exact E6|apply H; exact E8].
Qed.

Lemma from_matrix_qm q : EPS <= norm2 q -> exists s, (s = 1 \/ s = -1) /\
  quaternion_from_matrix (quaternion_matrix q) = qscale (s / sqrt (norm2 q)) q.
Proof.
  intros E. pose proof EPS_pos as E0. assert (N : 0 < norm2 q) by lra.
  destruct (qm_rotation q) as (H & NT).
  assert (M3 : quaternion_matrix q 3%nat 3%nat = 1) by (destruct (NT 3%nat ltac:(lia)) as (T & _); exact T).
  pose proof (from_matrix_outer _ H M3) as O. unfold outer_of, at4 in O. cbn zeta beta in O.
  rewrite !qm_entries in O by (assumption || lia).
  assert (NE : norm2 q = qx q * qx q + qy q * qy q + qz q * qz q + qw q * qw q) by apply norm2_mult.
  unfold qmat, rows4 in O. cbn [List.nth] in O.
  destruct O as ((E1 & E2 & E3 & E4) & (E5 & E6 & E7) & (E8 & E9 & E10)).
  apply same_outer; [exact N| | | |].
  - intros ->. unfold norm2, qzero in N. cbn in N. lra.
  - clear -E1 E2 E3 E4 N NE. set (n := norm2 q) in *. clearbody n.
    repeat split; apply (Rmult_eq_reg_l 4); try lra; rewrite ?E1, ?E2, ?E3, ?E4; try (field; lra).
    rewrite NE. field. rewrite <- NE. lra.
  - clear -E5 E6 E7. unfold Rdiv in *. repeat split; lra.
  - clear -E8 E9 E10. unfold Rdiv in *. repeat split; lra.
Qed.

(** ** Joint angles *)
Lemma has_rotation_part row q : has_rotation row q -> rotation_part row = Ok q.
Proof. intros (a & b & c & ->). destruct q. reflexivity. Qed.
Lemma has_rotation_fun row p q : has_rotation row p -> has_rotation row q -> p = q.
Proof. intros A B. apply has_rotation_part in A, B. congruence. Qed.

Lemma py_nth_F2 {A B} (P : A -> B -> Prop) l l' i : Forall2 P l l' ->
  match py_nth l i, py_nth l' i with
  | Ok x, Ok y => P x y
  | Err e, Err e' => e = e'
  | _, _ => False
  end.
Proof.
  intros F. assert (L : List.length l = List.length l') by (induction F; cbn; congruence).
  unfold py_nth. rewrite L. destruct (norm_index _ _) as [n|e]; cbn; [|reflexivity].
  clear L. revert n. induction F as [|x y l l' H F IH]; intros [|n]; cbn; auto.
  apply IH.
Qed.

Lemma angles_shared s s' i j (P : quat -> quat -> Prop) :
  Forall2 (fun row row' => exists q q', P q q' /\ has_rotation row q /\ has_rotation row' q') s s' ->
  (forall ri rj p p' q q', py_nth s i = Ok ri -> py_nth s j = Ok rj -> has_rotation ri p -> has_rotation rj q ->
     P p p' -> P q q' ->
     (exists ri', py_nth s' i = Ok ri' /\ has_rotation ri' p') ->
     (exists rj', py_nth s' j = Ok rj' /\ has_rotation rj' q') ->
     forall ax, known_axes ax -> euler_from_quaternion (quaternion_multiply (quaternion_inverse p') q') ax =
     euler_from_quaternion (quaternion_multiply (quaternion_inverse p) q) ax) ->
  get_angles s' i j = get_angles s i j.
Proof.
  intros F K. unfold get_angles.
  pose proof (py_nth_F2 _ s s' i F) as I. pose proof (py_nth_F2 _ s s' j F) as J.
  destruct (py_nth s i) as [ri|e] eqn:EI, (py_nth s' i) as [ri'|e'] eqn:EI'; try contradiction; cbn [bind]; [|congruence].
  destruct I as (p & p' & PP & HP & HP'). rewrite (has_rotation_part _ _ HP), (has_rotation_part _ _ HP'). cbn [bind].
  destruct (py_nth s j) as [rj|e] eqn:EJ, (py_nth s' j) as [rj'|e'] eqn:EJ'; try contradiction; cbn [bind]; [|congruence].
  destruct J as (q & q' & QQ & HQ & HQ'). rewrite (has_rotation_part _ _ HQ), (has_rotation_part _ _ HQ'). cbn [bind].
  destruct (axes_of "sxyz") as [ax|e] eqn:EA; cbn [bind]; [|reflexivity]. f_equal.
  apply (K ri rj p p' q q'); try assumption; try exact (axes_of_known _ _ EA); try reflexivity; eexists; split; try reflexivity; assumption.
Qed.

Lemma F2_weaken {A B} (P Q : A -> B -> Prop) l l' : (forall a b, P a b -> Q a b) -> Forall2 P l l' -> Forall2 Q l l'.
Proof. intros H F. induction F; constructor; auto. Qed.

Lemma angles_turned r s s' i j : r <> qzero -> turned r s s' -> nonzero_at s i ->
  get_angles s' i j = get_angles s i j.
Proof.
  intros R T Z. apply (angles_shared s s' i j (fun q q' => q' = quaternion_multiply r q)).
  - refine (F2_weaken _ _ _ _ _ T). intros a b (q & H & H'). exists q, (quaternion_multiply r q). tauto.
  - intros ri rj p p' q q' EI EJ HP HQ -> -> _ _ ax _. rewrite relative_turned; [reflexivity|exact R|].
    exact (Z ri p EI HP).
Qed.

Lemma angles_rescaled_all t s s' i j : t <> 0 -> rescaled_all t s s' -> nonzero_at s i ->
  get_angles s' i j = get_angles s i j.
Proof.
  intros R T Z. apply (angles_shared s s' i j (fun q q' => q' = qscale t q)).
  - refine (F2_weaken _ _ _ _ _ T). intros a b (q & H & H'). exists q, (qscale t q). tauto.
  - intros ri rj p p' q q' EI EJ HP HQ -> -> _ _ ax _. rewrite relative_scaled; [|exact R|exact (Z ri p EI HP)].
    f_equal. replace (t / t) with 1 by (field; exact R).
    destruct (quaternion_multiply _ _) as [x1 y1 z1 w1]. unfold qscale. cbn [qx qy qz qw]. apply quat_eq; ring.
Qed.

Lemma inverse_norm q : q <> qzero -> norm2 (quaternion_inverse q) = / norm2 q.
Proof.
  intros N. pose proof (norm2_pos q N) as P. unfold quaternion_inverse. rewrite qdot_norm.
  assert (E : norm2 q = norm2 q) by reflexivity. unfold norm2 at 1 in E.
  set (n := norm2 q) in *. clearbody n. destruct q as [x y z w]. unfold norm2. cbn [qx qy qz qw quaternion_conjugate] in *.
  replace ((- x / n) ^ 2 + (- y / n) ^ 2 + (- z / n) ^ 2 + (w / n) ^ 2) with ((x ^ 2 + y ^ 2 + z ^ 2 + w ^ 2) / (n * n)) by (field; lra).
  rewrite E. field. lra.
Qed.

Lemma relative_large p q : p <> qzero -> EPS * norm2 p <= norm2 q ->
  EPS <= norm2 (quaternion_multiply (quaternion_inverse p) q).
Proof.
  intros P L. pose proof (norm2_pos p P) as N. rewrite mul_norm, inverse_norm by exact P.
  apply (Rmult_le_reg_l (norm2 p)); [exact N|]. rewrite <- Rmult_assoc, Rinv_r by lra. lra.
Qed.

Lemma euler_from_ext m n ax : is_perm (axis_i ax) (axis_j ax) (axis_k ax) ->
  (forall a b, (a < 3)%nat -> (b < 3)%nat -> m a b = n a b) -> euler_from_matrix m ax = euler_from_matrix n ax.
Proof.
  intros P H. unfold euler_from_matrix.
  assert (B : (axis_i ax < 3 /\ axis_j ax < 3 /\ axis_k ax < 3)%nat).
  { unfold is_perm in P. cbn [In] in P. set (i := axis_i ax) in *. set (j := axis_j ax) in *. set (k := axis_k ax) in *.
    clearbody i j k. perms P; lia. }
  destruct B as (Bi & Bj & Bk). cbn zeta. rewrite !H by assumption. reflexivity.
Qed.

Lemma angles_rescaled s s' i j : rescaled s s' -> nonzero_at s i -> comparable s i j -> comparable s' i j ->
  get_angles s' i j = get_angles s i j.
Proof.
  intros T Z C C'.
  apply (angles_shared s s' i j (fun q q' => exists t, t <> 0 /\ q' = qscale t q)).
  - refine (F2_weaken _ _ _ _ _ T). intros a b (q & t & N & H & H'). exists q, (qscale t q).
    split; [|tauto]. exists t. tauto.
  - intros ri rj p p' q q' EI EJ HP HQ (u & U & ->) (t & NT & ->) (ri' & EI' & HP') (rj' & EJ' & HQ') ax KA.
    pose proof (Z ri p EI HP) as NP.
    pose proof (relative_large p q NP (C ri rj p q EI EJ HP HQ)) as L1.
    pose proof (relative_large _ _ (qscale_zero u p U NP) (C' ri' rj' _ _ EI' EJ' HP' HQ')) as L2.
    rewrite relative_scaled in * by assumption. unfold euler_from_quaternion.
    assert (E : forall a b, (a < 4)%nat -> (b < 4)%nat ->
      quaternion_matrix (qscale (t / u) (quaternion_multiply (quaternion_inverse p) q)) a b =
      quaternion_matrix (quaternion_multiply (quaternion_inverse p) q) a b).
    { apply qm_scale; [|exact L1|exact L2]. intros B.
      assert (t = 0); [|tauto]. replace t with (t / u * u) by (field; exact U). rewrite B. ring. }
    apply euler_from_ext; [apply known_perm, KA|]. intros a b A B. apply E; lia.
Qed.

(** The returned angles describe the relative rotation. *)
Lemma angles_meaning s i j ri rj p q x y z :
  py_nth s i = Ok ri -> py_nth s j = Ok rj -> has_rotation ri p -> has_rotation rj q ->
  EPS <= norm2 p -> EPS <= norm2 q -> EPS * norm2 p <= norm2 q ->
  get_angles s i j = Ok (x, y, z) ->
  let rel := quaternion_matrix (quaternion_multiply (quaternion_inverse p) q) in
  EPS < gap (true, 0, 1, 2)%nat rel ->
  same3 (mul3 (quaternion_matrix p) (composed (true, 0, 1, 2)%nat x y z)) (quaternion_matrix q).
Proof.
  intros EI EJ HP HQ NP NQ L G rel LK. pose proof EPS_pos as E0.
  assert (P0 : p <> qzero).
  { intros ->. unfold norm2, qzero in NP. cbn in NP. lra. }
  unfold get_angles in G. rewrite EI, EJ in G. cbn [bind] in G.
  rewrite (has_rotation_part _ _ HP), (has_rotation_part _ _ HQ) in G. cbn [bind] in G.
  destruct (axes_of "sxyz") as [ax|e] eqn:EA; [|discriminate]. cbn [bind] in G. injection G as G.
  destruct (axes_of_reading _ _ EA) as (r & ER & EM).
  assert (Hr : r = (true, 0, 1, 2)%nat) by (vm_compute in ER; congruence). subst r.
  destruct (qm_rotation (quaternion_multiply (quaternion_inverse p) q)) as (HR & _).
  pose proof (round_trip rel ax (axes_of_known _ _ EA) HR) as RT.
  rewrite (lock_gap _ _ _ rel EA ER HR) in RT. specialize (RT LK).
  unfold euler_from_quaternion in G. fold rel in G. rewrite G in RT.
  intros a b A B.
  assert (PQ : quaternion_multiply p (quaternion_multiply (quaternion_inverse p) q) = q).
  { rewrite mul_assoc, inverse_r, mul_one_l by exact P0. reflexivity. }
  rewrite <- PQ. rewrite qm_compose; [|exact NP|apply relative_large; assumption|rewrite PQ; exact NQ|exact A|exact B].
  unfold mul3, dot3. rewrite <- !(EM x y z) by lia. rewrite !RT by lia. reflexivity.
Qed.

Lemma inverse_one : quaternion_inverse qone = qone.
Proof. unfold quaternion_inverse, qone, qdot. cbn. apply quat_eq; field. Qed.

Lemma rescaled_refuted : ~ (forall s s' i j, rescaled s s' -> nonzero_at s i -> get_angles s' i j = get_angles s i j).
Proof.
  intros H.
  pose proof EPS_pos as E0. pose proof EPS_lt1 as E1.
  set (s := [[0; 0; 0; 0; 0; 0; 1]; [0; 0; 0; 1; 0; 0; 0]]).
  set (s' := [[0; 0; 0; 0; 0; 0; 1]; [0; 0; 0; EPS; 0; 0; 0]]).
  specialize (H s s' 0%Z 1%Z).
  assert (RS : rescaled s s').
  { repeat constructor.
    - exists qone, 1. split; [lra|]. split; exists 0, 0, 0; unfold qscale; cbn; repeat f_equal; ring.
    - exists (Quat 1 0 0 0), EPS. split; [lra|]. split; exists 0, 0, 0; unfold qscale; cbn [qx qy qz qw]; repeat f_equal; ring. }
  assert (NZ : nonzero_at s 0%Z).
  { intros row q E (a & b & c & F) Q. cbn in E. injection E as <-. subst q. cbn in F. injection F as _ _ _ F.
    lra. }
  specialize (H RS NZ).
  assert (A : forall t, get_angles [[0; 0; 0; 0; 0; 0; 1]; [0; 0; 0; t; 0; 0; 0]] 0%Z 1%Z =
              Ok (euler_from_matrix (quaternion_matrix (Quat t 0 0 0)) (Axes 0 false false false))).
  { intros t. change (Quat 0 0 0 1) with qone. unfold get_angles. cbn [py_nth norm_index bind].
    change (py_nth [[0; 0; 0; 0; 0; 0; 1]; [0; 0; 0; t; 0; 0; 0]] 0%Z) with (Ok [0; 0; 0; 0; 0; 0; 1]).
    change (py_nth [[0; 0; 0; 0; 0; 0; 1]; [0; 0; 0; t; 0; 0; 0]] 1%Z) with (Ok [0; 0; 0; t; 0; 0; 0]).
    cbn [bind rotation_part skipn]. change (axes_of "sxyz") with (Ok (Axes 0 false false false)). cbn [bind].
    change (Quat 0 0 0 1) with qone. rewrite inverse_one, mul_one_l. reflexivity. }
  unfold s, s' in H. rewrite !A in H. injection H as H.
  assert (X1 : euler_from_matrix (quaternion_matrix (Quat EPS 0 0 0)) (Axes 0 false false false) =
               euler_from_matrix identity4 (Axes 0 false false false)).
  { rewrite qm_small; [reflexivity|]. unfold norm2. cbn [qx qy qz qw]. nra. }
  assert (X2 : euler_from_matrix (quaternion_matrix (Quat 1 0 0 0)) (Axes 0 false false false) =
               euler_from_matrix (rows4 [[1; 0; 0]; [0; -1; 0]; [0; 0; -1]]) (Axes 0 false false false)).
  { apply euler_from_ext; [left; reflexivity|]. intros a b HA HB.
    rewrite qm_entries; [|unfold norm2; cbn [qx qy qz qw]; nra|lia|lia].
    unfold norm2, qmat, rows4. cbn [qx qy qz qw].
    destruct a as [|[|[|a]]]; try lia; destruct b as [|[|[|b]]]; try lia; cbn [List.nth]; field. }
  assert (Y : forall m : mat4, m 0%nat 0%nat = 1 -> m 1%nat 0%nat = 0 ->
    fst (fst (euler_from_matrix m (Axes 0 false false false))) = atan2 (m 2%nat 1%nat) (m 2%nat 2%nat)).
  { intros m M0 M1. unfold euler_from_matrix.
    cbn [repetition parity frame axis_i axis_j axis_k firstaxis NEXT_AXIS List.nth Nat.add Nat.sub].
    rewrite M0, M1. replace (1 * 1 + 0 * 0) with 1 by ring. rewrite sqrt_1.
    destruct (Rlt_dec EPS 1) as [_|B]; [reflexivity|lra]. }
  rewrite X1, X2 in H. apply (f_equal (fun t => fst (fst t))) in H.
  rewrite !Y in H by reflexivity. unfold rows4, identity4, atan2 in H. cbn [List.nth Nat.eqb] in H.
  destruct (Rlt_dec 0 1) as [_|B]; [|lra]. destruct (Rlt_dec 0 (-1)) as [B|_]; [lra|].
  destruct (Rlt_dec (-1) 0) as [_|B]; [|lra]. destruct (Rlt_dec 0 0) as [B|_]; [lra|].
  replace (0 / 1) with 0 in H by field. replace (0 / -1) with 0 in H by field. rewrite atan_0 in H.
  pose proof PI_RGT_0. lra.
Qed.

Lemma gimbal_bound name ax r m x y z :
  axes_of name = Ok ax -> reading name = Some r -> rotation m -> gap r m <= EPS ->
  euler_from_matrix m ax = (x, y, z) ->
  forall a b, (a < 3)%nat -> (b < 3)%nat -> Rabs (euler_matrix x y z ax a b - m a b) <= 2 * gap r m.
Proof.
  intros EA ER H L E a b A B. pose proof (lock_gap _ _ _ m EA ER H) as G. rewrite <- G in *.
  pose proof (round_trip_lock m ax (axes_of_known _ _ EA) H L a b A B) as K. rewrite E in K. exact K.
Qed.
