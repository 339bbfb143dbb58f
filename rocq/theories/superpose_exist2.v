(** * The decompositions of 3 x 3 and of symmetric 4 x 4 matrices (C113). *)

From Coq Require Import List Reals Lra Lia Nsatz Arith Bool.
Import ListNotations.
From Verif Require Import Py transf_model affine_model affine_spec affine_proof affine2_proof decompose_model decompose_spec decompose_gs decompose_proof superpose_model superpose_spec superpose_frame superpose_exist.
Local Open Scope R_scope.

Lemma inner_sym x y : inner x y = inner y x.
Proof. flatten; ring. Qed.
Lemma ortho_swap12 a b c : ortho3 a b c -> ortho3 b a c.
Proof. unfold ortho3. rewrite (inner_sym b a). tauto. Qed.
Lemma ortho_swap23 a b c : ortho3 a b c -> ortho3 a c b.
Proof. unfold ortho3. rewrite (inner_sym c b). tauto. Qed.

(** The eigenvectors in the order of the eigenvalues. *)
Lemma spectral_sorted a1 a2 a3 : selfadjoint a1 a2 a3 -> exists v1 v2 v3 l1 l2 l3, ortho3 v1 v2 v3 /\
  lin a1 a2 a3 v1 = times l1 v1 /\ lin a1 a2 a3 v2 = times l2 v2 /\ lin a1 a2 a3 v3 = times l3 v3 /\ l2 <= l1 /\ l3 <= l2.
Proof.
  intros S. destruct (spectral3 a1 a2 a3 S) as (v1 & v2 & v3 & l1 & l2 & l3 & O & E1 & E2 & E3).
  destruct (Rle_dec l2 l1) as [A|A]; destruct (Rle_dec l3 l2) as [B|B]; destruct (Rle_dec l3 l1) as [C|C]; try (exfalso; lra).
  - exists v1, v2, v3, l1, l2, l3. repeat (split; [assumption|]). assumption.
  - exists v1, v3, v2, l1, l3, l2. split; [apply ortho_swap23; exact O|]. repeat (split; [assumption|]). lra.
  - exists v3, v1, v2, l3, l1, l2. split; [apply ortho_swap12, ortho_swap23; exact O|]. repeat (split; [first [assumption|lra]|]). lra.
  - exists v2, v1, v3, l2, l1, l3. split; [apply ortho_swap12; exact O|]. repeat (split; [first [assumption|lra]|]). lra.
  - exists v2, v3, v1, l2, l3, l1. split; [apply ortho_swap23, ortho_swap12; exact O|]. repeat (split; [first [assumption|lra]|]). lra.
  - exists v3, v2, v1, l3, l2, l1. split; [apply ortho_swap12, ortho_swap23, ortho_swap12; exact O|]. repeat (split; [first [assumption|lra]|]). lra.
Qed.

(** ** Singular values *)
Lemma singular a1 a2 a3 : exists u1 u2 u3 v1 v2 v3 s1 s2 s3, ortho3 u1 u2 u3 /\ ortho3 v1 v2 v3 /\ s2 <= s1 /\ s3 <= s2 /\ 0 <= s3 /\
  lin a1 a2 a3 v1 = times s1 u1 /\ lin a1 a2 a3 v2 = times s2 u2 /\ lin a1 a2 a3 v3 = times s3 u3.
Proof.
  set (b := fun a => V3 (inner a1 a) (inner a2 a) (inner a3 a)).
  assert (G : forall p q, inner (lin (b a1) (b a2) (b a3) p) q = inner (lin a1 a2 a3 p) (lin a1 a2 a3 q)) by (intros p q; unfold b, lin; clear; flatten; ring).
  assert (S : selfadjoint (b a1) (b a2) (b a3)) by (intros p q; rewrite (inner_sym p), !G; apply inner_sym).
  destruct (spectral_sorted _ _ _ S) as (v1 & v2 & v3 & l1 & l2 & l3 & O & E1 & E2 & E3 & L1 & L2).
  pose proof O as (V1 & V2 & V3' & O12 & O13 & O23).
  set (A := lin a1 a2 a3) in *.
  assert (I11 : inner (A v1) (A v1) = l1) by (rewrite <- G, E1, inner_times, V1; ring).
  assert (I22 : inner (A v2) (A v2) = l2) by (rewrite <- G, E2, inner_times, V2; ring).
  assert (I33 : inner (A v3) (A v3) = l3) by (rewrite <- G, E3, inner_times, V3'; ring).
  assert (I12 : inner (A v1) (A v2) = 0) by (rewrite <- G, E1, inner_times, O12; ring).
  assert (I13 : inner (A v1) (A v3) = 0) by (rewrite <- G, E1, inner_times, O13; ring).
  assert (I23 : inner (A v2) (A v3) = 0) by (rewrite <- G, E2, inner_times, O23; ring).
  pose proof (inner_nonneg (A v3)) as P3. rewrite I33 in P3. assert (P2 : 0 <= l2) by lra. assert (P1 : 0 <= l1) by lra.
  set (s1 := sqrt l1). set (s2 := sqrt l2). set (s3 := sqrt l3).
  assert (S1 : s1 * s1 = l1) by (apply sqrt_sqrt; exact P1). assert (S2 : s2 * s2 = l2) by (apply sqrt_sqrt; exact P2). assert (S3 : s3 * s3 = l3) by (apply sqrt_sqrt; exact P3).
  assert (M1 : s2 <= s1) by (apply sqrt_le_1; assumption). assert (M2 : s3 <= s2) by (apply sqrt_le_1; assumption). assert (M3 : 0 <= s3) by apply sqrt_pos.
  clearbody s1 s2 s3. clear G S E1 E2 E3. clearbody A. clear b.
  assert (Z : forall x, inner x x = 0 -> x = vzero) by (intros x H; destruct (zero_dec x) as [Y|Y]; [exact Y|apply inner_pos in Y; lra]).
  assert (Q : forall s x, 0 < s -> inner x x = s * s -> inner (times (/ s) x) (times (/ s) x) = 1 /\ x = times s (times (/ s) x)).
  { intros s x H I. rewrite inner_times, inner_times_r, I. split; [field; lra|]. clear I. destruct x as [x y z]. unfold times. cbn. f_equal; field; lra. }
  assert (Z0 : forall x, vzero = times 0 x) by (intros x; apply vec_eq; flatten; ring).
  assert (IT : forall c d x y, inner x y = 0 -> inner (times c x) (times d y) = 0) by (intros c d x y H; rewrite inner_times, inner_times_r, H; ring).
  assert (FIN : forall u1 u2 u3, ortho3 u1 u2 u3 -> A v1 = times s1 u1 -> A v2 = times s2 u2 -> A v3 = times s3 u3 ->
     exists u1 u2 u3 v1 v2 v3 s1 s2 s3, ortho3 u1 u2 u3 /\ ortho3 v1 v2 v3 /\ s2 <= s1 /\ s3 <= s2 /\ 0 <= s3 /\ A v1 = times s1 u1 /\ A v2 = times s2 u2 /\ A v3 = times s3 u3).
  { intros u1 u2 u3 U F1 F2 F3. exists u1, u2, u3, v1, v2, v3, s1, s2, s3. repeat (split; [assumption|]). assumption. }
  rewrite <- S1 in I11. rewrite <- S2 in I22. rewrite <- S3 in I33.
  destruct (Rle_lt_or_eq_dec 0 s1 ltac:(lra)) as [N1|N1].
  - destruct (Q s1 (A v1) N1 I11) as (U1 & F1). destruct (Rle_lt_or_eq_dec 0 s2 ltac:(lra)) as [N2|N2].
    + destruct (Q s2 (A v2) N2 I22) as (U2 & F2). destruct (Rle_lt_or_eq_dec 0 s3 ltac:(lra)) as [N3|N3].
      * destruct (Q s3 (A v3) N3 I33) as (U3 & F3). apply (FIN (times (/ s1) (A v1)) (times (/ s2) (A v2)) (times (/ s3) (A v3))); try assumption.
        do 3 (split; [assumption|]). split; [apply IT, I12|]. split; [apply IT, I13|apply IT, I23].
      * apply (FIN (times (/ s1) (A v1)) (times (/ s2) (A v2)) (vcross (times (/ s1) (A v1)) (times (/ s2) (A v2)))); try assumption.
        -- apply extend2; [assumption|assumption|apply IT, I12].
        -- rewrite <- N3, <- Z0. apply Z. rewrite I33, <- N3. ring.
    + destruct (extend1 _ U1) as (w1 & w2 & W). apply (FIN _ w1 w2 W F1).
      * rewrite <- N2, <- Z0. apply Z. rewrite I22, <- N2. ring.
      * assert (N3 : s3 = 0) by lra. rewrite N3, <- Z0. apply Z. rewrite I33, N3. ring.
  - assert (N2 : s2 = 0) by lra. assert (N3 : s3 = 0) by lra. apply (FIN _ _ _ axes_ortho); [rewrite <- N1|rewrite N2|rewrite N3]; rewrite <- Z0; apply Z; [rewrite I11, <- N1|rewrite I22, N2|rewrite I33, N3]; ring.
Qed.
Lemma svd_exists h : exists d, decomposition h d.
Proof.
  set (col := fun j => V3 (h 0%nat j) (h 1%nat j) (h 2%nat j)).
  destruct (singular (col 0%nat) (col 1%nat) (col 2%nat)) as (u1 & u2 & u3 & v1 & v2 & v3 & s1 & s2 & s3 & U & V & L1 & L2 & L3 & E1 & E2 & E3).
  exists (fun i k => match k with 0%nat => coord u1 i | 1%nat => coord u2 i | _ => coord u3 i end, fun k => match k with 0%nat => s1 | 1%nat => s2 | _ => s3 end,
          fun k j => match k with 0%nat => coord v1 j | 1%nat => coord v2 j | _ => coord v3 j end).
  unfold decomposition.
  assert (C : forall v, V3 (coord v 0) (coord v 1) (coord v 2) = v) by (intros [x y z]; reflexivity). rewrite !C.
  do 5 (split; [assumption|]). intros i j I J.
  assert (K : forall p, lin (col 0%nat) (col 1%nat) (col 2%nat) p = vadd (times (inner v1 p * s1) u1) (vadd (times (inner v2 p * s2) u2) (times (inner v3 p * s3) u3))).
  { intros p. rewrite (complete v1 v2 v3 p V) at 1. rewrite !lin_add, !lin_times, E1, E2, E3. generalize (inner v1 p) (inner v2 p) (inner v3 p). clear. intros. apply vec_eq; unfold vadd, times; cbn; ring. }
  assert (Q : col j = vadd (times (coord v1 j * s1) u1) (vadd (times (coord v2 j * s2) u2) (times (coord v3 j * s3) u3))).
  { destruct j as [|[|[|j]]]; try lia; [pose proof (K (V3 1 0 0)) as X|pose proof (K (V3 0 1 0)) as X|pose proof (K (V3 0 0 1)) as X];
    (etransitivity; [|etransitivity; [exact X|]]); clear; [unfold lin|unfold inner, coord|unfold lin|unfold inner, coord|unfold lin|unfold inner, coord]; apply vec_eq; unfold vadd, times; cbn [vx vy vz]; ring. }
  transitivity (coord (col j) i); [destruct i as [|[|[|i]]]; try lia; reflexivity|]. rewrite Q. clear. unfold vadd, times. destruct i as [|[|i]]; cbn [coord vx vy vz]; ring.
Qed.

(** ** Symmetric matrices in four dimensions *)
(** The matrix has the entry a, then z beside and below, then the columns b1 b2 b3. *)
Definition head (a : R) (z : vec3) (w : R) (p : vec3) : R := a * w + inner z p.
Definition rest (z b1 b2 b3 : vec3) (w : R) (p : vec3) : vec3 := vadd (times w z) (lin b1 b2 b3 p).
Lemma some_eigenvector a z b1 b2 b3 : selfadjoint b1 b2 b3 -> exists l w p, (w <> 0 \/ p <> vzero) /\ head a z w p = l * w /\ rest z b1 b2 b3 w p = times l p.
Proof.
  intros S. destruct (spectral_sorted _ _ _ S) as (v1 & v2 & v3 & d1 & d2 & d3 & O & E1 & E2 & E3 & L1 & L2).
  unfold head, rest. set (B := lin b1 b2 b3) in *.
  assert (BL : forall x y t, B (vadd (times x v1) (vadd (times y v2) (times t v3))) = vadd (times (x * d1) v1) (vadd (times (y * d2) v2) (times (t * d3) v3))).
  { intros x y t. unfold B. rewrite !lin_add, !lin_times. fold B. rewrite E1, E2, E3. clear. apply vec_eq; flatten; ring. }
  pose proof (complete v1 v2 v3 z O) as Z. set (z1 := inner v1 z) in *. set (z2 := inner v2 z) in *. set (z3 := inner v3 z) in *.
  assert (ZI : forall x y t, inner z (vadd (times x v1) (vadd (times y v2) (times t v3))) = x * z1 + y * z2 + t * z3) by (intros x y t; unfold z1, z2, z3; clear; flatten; ring).
  assert (NZ : forall x y t, x <> 0 \/ y <> 0 \/ t <> 0 -> vadd (times x v1) (vadd (times y v2) (times t v3)) <> vzero).
  { intros x y t H Q. destruct O as (V1 & V2 & V3' & O12 & O13 & O23).
    assert (X : inner (vadd (times x v1) (vadd (times y v2) (times t v3))) (vadd (times x v1) (vadd (times y v2) (times t v3))) = x * x + y * y + t * t).
    { transitivity (x * x * inner v1 v1 + y * y * inner v2 v2 + t * t * inner v3 v3 + 2 * (x * y * inner v1 v2 + x * t * inner v1 v3 + y * t * inner v2 v3)); [clear; flatten; ring|]. rewrite V1, V2, V3', O12, O13, O23. ring. }
    rewrite Q in X. unfold inner, vzero in X. cbn in X. pose proof (Rle_0_sqr x). pose proof (Rle_0_sqr y). pose proof (Rle_0_sqr t). unfold Rsqr in *.
    destruct H as [H|[H|H]]; apply H; nra. }
  assert (TRY : forall l x y t, x <> 0 \/ y <> 0 \/ t <> 0 -> x * z1 + y * z2 + t * z3 = 0 -> x * d1 = l * x -> y * d2 = l * y -> t * d3 = l * t ->
    exists l w p, (w <> 0 \/ p <> vzero) /\ a * w + inner z p = l * w /\ vadd (times w z) (B p) = times l p).
  { intros l x y t H I X Y T. exists l, 0, (vadd (times x v1) (vadd (times y v2) (times t v3))). split; [right; apply NZ; exact H|]. split; [rewrite ZI, I; ring|].
    rewrite BL, X, Y, T. clear. apply vec_eq; flatten; ring. }
  destruct (Req_dec z1 0) as [Z1|Z1]; [apply (TRY d1 1 0 0); [left; lra|rewrite Z1; ring|ring|ring|ring]|].
  destruct (Req_dec d2 d1) as [D2|D2]; [apply (TRY d1 z2 (- z1) 0); [right; left; lra|ring|ring|rewrite D2; ring|ring]|].
  set (g := fun l => (a - l) * ((l - d1) * (l - d2) * (l - d3)) + (z1 * z1 * ((l - d2) * (l - d3)) + z2 * z2 * ((l - d1) * (l - d3)) + z3 * z3 * ((l - d1) * (l - d2)))).
  assert (GP : 0 < g d1).
  { unfold g. replace (d1 - d1) with 0 by ring. assert (0 < z1 * z1) by (assert (0 < Rsqr z1) by (apply Rsqr_pos_lt; exact Z1); exact H). assert (0 < (d1 - d2) * (d1 - d3)) by (apply Rmult_lt_0_compat; lra). nra. }
  set (e1 := d1 + d2 + d3). set (e2 := d1 * d2 + d1 * d3 + d2 * d3). set (e3 := d1 * d2 * d3).
  assert (GX : forall x, g x = -1 * (x * x * x * x) + (a + e1) * (x * x * x) + (- (a * e1 + e2) + (z1 * z1 + z2 * z2 + z3 * z3)) * (x * x) + (a * e2 + e3 - (z1 * z1 * (d2 + d3) + z2 * z2 * (d1 + d3) + z3 * z3 * (d1 + d2))) * x + (- (a * e3) + (z1 * z1 * (d2 * d3) + z2 * z2 * (d1 * d3) + z3 * z3 * (d1 * d2)))).
  { intros x. unfold g, e1, e2, e3. ring. }
  assert (GP' := Rlt_le _ _ GP). rewrite GX in GP'. destruct (quartic_root _ _ _ _ _ GP') as (l & L & G). rewrite <- GX in G.
  assert (N1 : l <> d1) by (intros Q; rewrite Q in G; lra).
  exists l, 1, (vadd (times (z1 / (l - d1)) v1) (vadd (times (z2 / (l - d2)) v2) (times (z3 / (l - d3)) v3))).
  split; [left; lra|]. split.
  - rewrite ZI. apply (Rmult_eq_reg_r ((l - d1) * (l - d2) * (l - d3))); [|apply Rmult_integral_contrapositive_currified; [apply Rmult_integral_contrapositive_currified|]; lra].
    apply Rminus_diag_uniq. rewrite <- G. unfold g. field. lra.
  - rewrite BL, Z at 1. clearbody z1 z2 z3. assert (l - d1 <> 0) by lra. assert (l - d2 <> 0) by lra. assert (l - d3 <> 0) by lra. clear - H H0 H1.
    apply vec_eq; flatten; field; auto.
Qed.

(** Quaternion product with the eigenvector: the vectors at right angles to it. *)
Definition push0 (p e : vec3) : R := - inner e p.
Definition push (w : R) (p e : vec3) : vec3 := vadd (times w e) (vcross e p).
Definition pull (w : R) (p : vec3) (w' : R) (p' : vec3) : vec3 := vadd (times (- w') p) (vadd (times w p') (vcross p p')).
Lemma push0_add p e f : push0 p (vadd e f) = push0 p e + push0 p f.
Proof. unfold push0. flatten; ring. Qed.
Lemma push0_times p c e : push0 p (times c e) = c * push0 p e.
Proof. unfold push0. flatten; ring. Qed.
Lemma push_add w p e f : push w p (vadd e f) = vadd (push w p e) (push w p f).
Proof. unfold push. apply vec_eq; flatten; ring. Qed.
Lemma push_times w p c e : push w p (times c e) = times c (push w p e).
Proof. unfold push. apply vec_eq; flatten; ring. Qed.
Lemma head_add a z w p w' p' : head a z (w + w') (vadd p p') = head a z w p + head a z w' p'.
Proof. unfold head. flatten; ring. Qed.
Lemma head_times a z c w p : head a z (c * w) (times c p) = c * head a z w p.
Proof. unfold head. flatten; ring. Qed.
Lemma rest_add z b1 b2 b3 w p w' p' : rest z b1 b2 b3 (w + w') (vadd p p') = vadd (rest z b1 b2 b3 w p) (rest z b1 b2 b3 w' p').
Proof. unfold rest. rewrite lin_add. generalize (lin b1 b2 b3 p) (lin b1 b2 b3 p'). intros. apply vec_eq; flatten; ring. Qed.
Lemma rest_times z b1 b2 b3 c w p : rest z b1 b2 b3 (c * w) (times c p) = times c (rest z b1 b2 b3 w p).
Proof. unfold rest. rewrite lin_times. generalize (lin b1 b2 b3 p). intros. apply vec_eq; flatten; ring. Qed.
Lemma pull_add w p v q v' q' : pull w p (v + v') (vadd q q') = vadd (pull w p v q) (pull w p v' q').
Proof. unfold pull. apply vec_eq; flatten; ring. Qed.
Lemma pull_times w p c v q : pull w p (c * v) (times c q) = times c (pull w p v q).
Proof. unfold pull. apply vec_eq; flatten; ring. Qed.
Lemma spectral4 a z b1 b2 b3 : selfadjoint b1 b2 b3 -> exists (l : nat -> R) (w : nat -> R) (p : nat -> vec3),
  (forall k, (k < 4)%nat -> head a z (w k) (p k) = l k * w k /\ rest z b1 b2 b3 (w k) (p k) = times (l k) (p k) /\ w k * w k + inner (p k) (p k) = 1) /\
  forall w' p', exists c : nat -> R, w' = c 0%nat * w 0%nat + c 1%nat * w 1%nat + c 2%nat * w 2%nat + c 3%nat * w 3%nat /\
    p' = vadd (times (c 0%nat) (p 0%nat)) (vadd (times (c 1%nat) (p 1%nat)) (vadd (times (c 2%nat) (p 2%nat)) (times (c 3%nat) (p 3%nat)))).
Proof.
  intros S. destruct (some_eigenvector a z b1 b2 b3 S) as (l & w0 & p0 & N & H0 & R0).
  assert (U : exists w p, w * w + inner p p = 1 /\ head a z w p = l * w /\ rest z b1 b2 b3 w p = times l p).
  { assert (P : 0 < w0 * w0 + inner p0 p0).
    { pose proof (Rle_0_sqr w0) as A. pose proof (inner_nonneg p0) as B. destruct N as [N|N]; [assert (0 < Rsqr w0) by (apply Rsqr_pos_lt; exact N)|apply inner_pos in N]; unfold Rsqr in *; lra. }
    set (n := sqrt (w0 * w0 + inner p0 p0)). assert (NP : 0 < n) by (apply sqrt_lt_R0; exact P). assert (NN : n * n = w0 * w0 + inner p0 p0) by (apply sqrt_sqrt; lra).
    exists (/ n * w0), (times (/ n) p0). split; [|split].
    - rewrite inner_times, inner_times_r. transitivity ((w0 * w0 + inner p0 p0) / (n * n)); [field; lra|rewrite NN; field; lra].
    - transitivity (/ n * head a z w0 p0); [unfold head; rewrite inner_sym, inner_times, inner_sym; ring|rewrite H0; ring].
    - transitivity (times (/ n) (rest z b1 b2 b3 w0 p0)); [unfold rest; rewrite lin_times; generalize (lin b1 b2 b3 p0); clear; intros; apply vec_eq; flatten; ring|]. rewrite R0. clear. apply vec_eq; flatten; ring. }
  destruct U as (w & p & U & H & R). clear w0 p0 N H0 R0.
  set (C := fun e => pull w p (head a z (push0 p e) (push w p e)) (rest z b1 b2 b3 (push0 p e) (push w p e))).
  assert (CL : forall e, lin (C (V3 1 0 0)) (C (V3 0 1 0)) (C (V3 0 0 1)) e = C e).
  { assert (CA : forall e f, C (vadd e f) = vadd (C e) (C f)).
    { intros e f. unfold C. rewrite push0_add, push_add, head_add, rest_add, pull_add. reflexivity. }
    assert (CT : forall c e, C (times c e) = times c (C e)).
    { intros c e. unfold C. rewrite push0_times, push_times, head_times, rest_times, pull_times. reflexivity. }
    intros e. unfold lin. rewrite <- !CT, <- !CA. f_equal. clear. apply vec_eq; flatten; ring. }
  assert (ADJ : forall e w' p', push0 p e * w' + inner (push w p e) p' = inner e (pull w p w' p')) by (intros e w' p'; unfold push0, push, pull; clear; flatten; ring).
  assert (HS : forall w1 p1 w2 p2, head a z w1 p1 * w2 + inner (rest z b1 b2 b3 w1 p1) p2 = w1 * head a z w2 p2 + inner p1 (rest z b1 b2 b3 w2 p2)).
  { intros w1 p1 w2 p2. unfold head, rest. transitivity (a * w1 * w2 + inner z p1 * w2 + w1 * inner z p2 + inner (lin b1 b2 b3 p1) p2); [generalize (lin b1 b2 b3 p1); clear; intros; flatten; ring|].
    rewrite (S p1 p2). generalize (lin b1 b2 b3 p2). clear. intros. flatten; ring. }
  assert (SC : selfadjoint (C (V3 1 0 0)) (C (V3 0 1 0)) (C (V3 0 0 1))).
  { intros e f. rewrite !CL. unfold C. rewrite <- ADJ, (inner_sym _ f), <- ADJ, (inner_sym (push w p f)), (inner_sym (push w p e)).
    rewrite (Rmult_comm (push0 p f)), HS, (inner_sym (push w p e)). ring. }
  destruct (spectral3 _ _ _ SC) as (f1 & f2 & f3 & m1 & m2 & m3 & O & F1 & F2 & F3). rewrite CL in F1, F2, F3.
  assert (FULL : forall w' p', w' = (w * w' + inner p p') * w + push0 p (pull w p w' p') /\ p' = vadd (times (w * w' + inner p p') p) (push w p (pull w p w' p'))).
  { intros w' p'. split.
    - transitivity ((w * w + inner p p) * w'); [rewrite U; ring|]. unfold push0, pull. clear. flatten; ring.
    - transitivity (times (w * w + inner p p) p'); [rewrite U; clear; apply vec_eq; flatten; ring|]. unfold push, pull. clear. apply vec_eq; flatten; ring. }
  assert (EIG : forall f m, C f = times m f -> head a z (push0 p f) (push w p f) = m * push0 p f /\ rest z b1 b2 b3 (push0 p f) (push w p f) = times m (push w p f)).
  { intros f m F. destruct (FULL (head a z (push0 p f) (push w p f)) (rest z b1 b2 b3 (push0 p f) (push w p f))) as (A & B). fold (C f) in A, B. rewrite F in A, B.
    assert (ORT : w * head a z (push0 p f) (push w p f) + inner p (rest z b1 b2 b3 (push0 p f) (push w p f)) = 0).
    { rewrite <- HS, H, R, inner_times. unfold push0, push. clear. flatten; ring. }
    rewrite ORT in A, B. split; [rewrite A|rewrite B]; unfold push0, push; clear; [flatten; ring|apply vec_eq; flatten; ring]. }
  assert (UN : forall f, inner f f = 1 -> push0 p f * push0 p f + inner (push w p f) (push w p f) = 1).
  { intros f F. transitivity ((w * w + inner p p) * inner f f); [unfold push0, push; clear; flatten; ring|rewrite U, F; ring]. }
  exists (fun k => match k with 0 => l | 1 => m1 | 2 => m2 | _ => m3 end)%nat, (fun k => match k with 0 => w | 1 => push0 p f1 | 2 => push0 p f2 | _ => push0 p f3 end)%nat,
         (fun k => match k with 0 => p | 1 => push w p f1 | 2 => push w p f2 | _ => push w p f3 end)%nat.
  pose proof O as (A1 & A2 & A3 & _). split.
  - intros k K. destruct (EIG f1 m1 F1). destruct (EIG f2 m2 F2). destruct (EIG f3 m3 F3). destruct k as [|[|[|[|k]]]]; try lia; (split; [assumption|split; [assumption|]]); try assumption; apply UN; assumption.
  - intros w' p'. destruct (FULL w' p') as (A & B). set (d := w * w' + inner p p') in *. set (e := pull w p w' p') in *. clearbody d e.
    exists (fun k => match k with 0 => d | 1 => inner f1 e | 2 => inner f2 e | _ => inner f3 e end)%nat. cbv beta iota.
    pose proof (complete f1 f2 f3 e O) as E. set (c1 := inner f1 e) in *. set (c2 := inner f2 e) in *. set (c3 := inner f3 e) in *. clearbody c1 c2 c3.
    split; [rewrite A|rewrite B]; rewrite E; unfold push0, push; clear; [flatten; ring|apply vec_eq; flatten; ring].
Qed.
Lemma eig_exists h : symmetric4 h -> exists d, eigenbasis h d.
Proof.
  intros S. set (col := fun j => V3 (h 1%nat j) (h 2%nat j) (h 3%nat j)).
  assert (S3 : selfadjoint (col 1%nat) (col 2%nat) (col 3%nat)).
  { intros p q. unfold col, lin. rewrite (S 2 1)%nat, (S 3 1)%nat, (S 3 2)%nat by lia. clear. flatten; ring. }
  destruct (spectral4 (h 0%nat 0%nat) (col 0%nat) _ _ _ S3) as (l & w & p & E & F).
  exists (l, fun i k => match i with 0%nat => w k | 1%nat => vx (p k) | 2%nat => vy (p k) | _ => vz (p k) end). split; [|split].
  - intros i k I K. destruct (E k K) as (A & B & _). unfold head, rest, lin, col, inner in A, B.
    destruct i as [|[|[|[|i]]]]; try lia; [|apply (f_equal vx) in B|apply (f_equal vy) in B|apply (f_equal vz) in B].
    + rewrite (S 0 1)%nat, (S 0 2)%nat, (S 0 3)%nat by lia. cbn in A. lra.
    + unfold vadd, times in B. cbn in B. lra.
    + unfold vadd, times in B. cbn in B. lra.
    + unfold vadd, times in B. cbn in B. lra.
  - intros k K. destruct (E k K) as (_ & _ & U). destruct (Req_dec (w k) 0) as [W|W]; [|exists 0%nat; split; [lia|exact W]].
    unfold inner in U. destruct (Req_dec (vx (p k)) 0) as [X|X]; [|exists 1%nat; split; [lia|exact X]].
    destruct (Req_dec (vy (p k)) 0) as [Y|Y]; [|exists 2%nat; split; [lia|exact Y]]. exists 3%nat. split; [lia|]. intros Z. rewrite W, X, Y, Z in U. lra.
  - intros x. destruct (F (x 0%nat) (V3 (x 1%nat) (x 2%nat) (x 3%nat))) as (c & A & B). exists c. intros i I.
    destruct i as [|[|[|[|i]]]]; try lia; [exact A|apply (f_equal vx) in B|apply (f_equal vy) in B|apply (f_equal vz) in B]; unfold vadd, times in B; cbn in B; lra.
Qed.
