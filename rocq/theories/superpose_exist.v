(** * Decompositions exist: what is asked of the svd and eig arguments can be had (C113). *)

From Coq Require Import List Reals Lra Lia Nsatz Arith Bool.
Import ListNotations.
From Verif Require Import Py transf_model affine_model affine_spec affine_proof affine2_proof decompose_model decompose_spec decompose_gs decompose_proof superpose_model superpose_spec superpose_frame.
Local Open Scope R_scope.

(** ** A cubic has a root *)
Lemma cubic_root b c d : exists x, x * x * x + b * (x * x) + c * x + d = 0.
Proof.
  set (f := fun x => x * x * x + b * (x * x) + c * x + d).
  set (k := Rabs b + Rabs c + Rabs d). set (M := 1 + k).
  pose proof (Rabs_pos b) as B0. pose proof (Rabs_pos c) as C0. pose proof (Rabs_pos d) as D0.
  assert (LE : forall x, - Rabs x <= x <= Rabs x) by (intros x; unfold Rabs; destruct (Rcase_abs x); lra).
  pose proof (LE b) as B1. pose proof (LE c) as C1. pose proof (LE d) as D1.
  assert (M1 : 1 <= M) by (unfold M, k; lra). assert (M2 : M <= M * M) by nra. assert (MP : 0 < M * M) by nra.
  assert (BM : Rabs (b * (M * M)) <= Rabs b * (M * M)) by (rewrite Rabs_mult, (Rabs_pos_eq (M * M)) by lra; lra).
  assert (CM : Rabs (c * M) <= Rabs c * (M * M)) by (rewrite Rabs_mult, (Rabs_pos_eq M) by lra; nra).
  assert (DM : Rabs d <= Rabs d * (M * M)) by nra.
  pose proof (LE (b * (M * M))) as X1. pose proof (LE (c * M)) as X2.
  assert (MM : M * M * M = M * M + (Rabs b + Rabs c + Rabs d) * (M * M)) by (unfold M, k; ring).
  assert (P : 0 < f M) by (unfold f; lra).
  assert (N : f (- M) < 0) by (unfold f; replace (- M * - M * - M) with (- (M * M * M)) by ring; replace (- M * - M) with (M * M) by ring; replace (c * - M) with (- (c * M)) by ring; lra).
  destruct (IVT f (- M) M) as (z & _ & Z); [|lra|exact N|exact P|exists z; exact Z].
  unfold f. apply derivable_continuous. reg.
Qed.

(** A quartic that is not negative somewhere and has the leading coefficient -1 has a root beyond. *)
Lemma quartic_root b c d e x0 : 0 <= -1 * (x0 * x0 * x0 * x0) + b * (x0 * x0 * x0) + c * (x0 * x0) + d * x0 + e ->
  exists x, x0 <= x /\ -1 * (x * x * x * x) + b * (x * x * x) + c * (x * x) + d * x + e = 0.
Proof.
  intros P. set (f := fun x => -1 * (x * x * x * x) + b * (x * x * x) + c * (x * x) + d * x + e). fold (f x0) in P.
  set (k := Rabs b + Rabs c + Rabs d + Rabs e). set (M := 1 + k + Rabs x0).
  pose proof (Rabs_pos b) as B0. pose proof (Rabs_pos c) as C0. pose proof (Rabs_pos d) as D0. pose proof (Rabs_pos e) as E0. pose proof (Rabs_pos x0) as X0.
  assert (LE : forall x, - Rabs x <= x <= Rabs x) by (intros x; unfold Rabs; destruct (Rcase_abs x); lra).
  pose proof (LE b) as B1. pose proof (LE c) as C1. pose proof (LE d) as D1. pose proof (LE e) as E1. pose proof (LE x0) as X1.
  assert (M1 : 1 <= M) by (unfold M, k; lra). assert (M2 : M <= M * M) by nra. assert (M3 : M * M <= M * M * M) by nra.
  assert (MP : 0 < M * M * M) by nra.
  assert (BM : b * (M * M * M) <= Rabs b * (M * M * M)) by (apply Rmult_le_compat_r; lra).
  assert (CM : c * (M * M) <= Rabs c * (M * M * M)) by (apply Rle_trans with (Rabs c * (M * M)); [apply Rmult_le_compat_r|apply Rmult_le_compat_l]; lra).
  assert (DM : d * M <= Rabs d * (M * M * M)) by (apply Rle_trans with (Rabs d * M); [apply Rmult_le_compat_r|apply Rmult_le_compat_l]; lra).
  assert (EM : e <= Rabs e * (M * M * M)) by (apply Rle_trans with (Rabs e * 1); [|apply Rmult_le_compat_l]; lra).
  assert (XM : 0 <= Rabs x0 * (M * M * M)) by (apply Rmult_le_pos; lra).
  assert (MM : M * M * M * M = M * M * M + (Rabs b + Rabs c + Rabs d + Rabs e) * (M * M * M) + Rabs x0 * (M * M * M)) by (unfold M, k; ring).
  assert (N : f M < 0) by (unfold f; lra).
  assert (L : x0 < M) by (unfold M, k; lra).
  destruct (Rle_lt_or_eq_dec _ _ P) as [P'|Z]; [|exists x0; split; [lra|symmetry; exact Z]].
  destruct (IVT (fun x => - f x) x0 M) as (z & ZL & Z); [|exact L|lra|lra|exists z; split; [lra|]].
  - unfold f. apply derivable_continuous. reg.
  - fold (f z). lra.
Qed.

(** ** Systems of unit vectors *)
Lemma normalise v : v <> vzero -> exists c, c <> 0 /\ inner (times c v) (times c v) = 1.
Proof.
  intros N. apply inner_pos in N. exists (/ sqrt (inner v v)). pose proof (sqrt_lt_R0 _ N) as P. split; [apply Rinv_neq_0_compat; lra|].
  rewrite inner_times, inner_times_r. pose proof (sqrt_sqrt (inner v v) (Rlt_le _ _ N)) as Q. set (s := sqrt (inner v v)) in *. rewrite <- Q. field. lra.
Qed.
Lemma extend1 v : inner v v = 1 -> exists w1 w2, ortho3 v w1 w2.
Proof.
  intros U. assert (W : exists w, inner w w = 1 /\ inner v w = 0).
  { destruct (zero_dec (V3 (- vy v) (vx v) 0)) as [Z|Z].
    - exists (V3 1 0 0). injection Z as Z1 Z2. unfold inner. cbn. split; [ring|rewrite Z2; ring].
    - destruct (normalise _ Z) as (c & _ & C). exists (times c (V3 (- vy v) (vx v) 0)). split; [exact C|]. clear. flatten. ring. }
  destruct W as (w & W & O). exists w, (vcross v w). unfold ortho3.
  split; [exact U|split; [exact W|split; [|split; [exact O|split]]]].
  - transitivity (inner v v * inner w w - inner v w * inner v w); [clear; flatten; ring|]. rewrite U, W, O. ring.
  - clear. flatten. ring.
  - clear. flatten. ring.
Qed.
Lemma extend2 v w : inner v v = 1 -> inner w w = 1 -> inner v w = 0 -> ortho3 v w (vcross v w).
Proof.
  intros U W O. unfold ortho3. split; [exact U|split; [exact W|split; [|split; [exact O|split]]]].
  - transitivity (inner v v * inner w w - inner v w * inner v w); [clear; flatten; ring|]. rewrite U, W, O. ring.
  - clear. flatten. ring.
  - clear. flatten. ring.
Qed.
Lemma axes_ortho : ortho3 (V3 1 0 0) (V3 0 1 0) (V3 0 0 1).
Proof. unfold ortho3, inner. cbn. repeat split; ring. Qed.

(** ** Symmetric matrices of the plane *)
Lemma symmetric2 a b g : exists c s l1 l2, c * c + s * s = 1 /\ a * c + b * s = l1 * c /\ b * c + g * s = l1 * s /\ b * c - a * s = - l2 * s /\ g * c - b * s = l2 * c.
Proof.
  destruct (Req_dec b 0) as [->|B]; [exists 1, 0, a, g; repeat split; ring|].
  set (D := sqrt ((a - g) * (a - g) + 4 * (b * b))).
  assert (DD : D * D = (a - g) * (a - g) + 4 * (b * b)) by (apply sqrt_sqrt; pose proof (Rle_0_sqr (a - g)); pose proof (Rle_0_sqr b); unfold Rsqr in *; lra).
  set (l := (a + g + D) / 2). assert (L : (l - a) * (l - g) = b * b) by (unfold l; nra).
  set (n2 := b * b + (l - a) * (l - a)). assert (P : 0 < n2) by (unfold n2; pose proof (Rle_0_sqr (l - a)); assert (0 < Rsqr b) by (apply Rsqr_pos_lt; exact B); unfold Rsqr in *; lra).
  set (n := sqrt n2). assert (NP : 0 < n) by (apply sqrt_lt_R0; exact P). assert (NN : n * n = n2) by (apply sqrt_sqrt; lra).
  exists (b / n), ((l - a) / n), l, (a + g - l). clearbody n l. clear D DD. split; [transitivity (n2 / (n * n)); [unfold n2; field; lra|rewrite NN; field; lra]|].
  split; [field; lra|]. split; [|split].
  - apply (Rmult_eq_reg_r n); [|lra]. transitivity (b * b + g * (l - a)); [field; lra|]. rewrite <- L. field; lra.
  - apply (Rmult_eq_reg_r n); [|lra]. transitivity (b * b - a * (l - a)); [field; lra|]. rewrite <- L. field; lra.
  - field. lra.
Qed.

(** ** Symmetric matrices of the space *)
Definition selfadjoint (a1 a2 a3 : vec3) : Prop := forall p q, inner (lin a1 a2 a3 p) q = inner p (lin a1 a2 a3 q).
Lemma lin_times a1 a2 a3 c p : lin a1 a2 a3 (times c p) = times c (lin a1 a2 a3 p).
Proof. unfold lin. apply vec_eq; flatten; ring. Qed.
Lemma lin_add a1 a2 a3 p q : lin a1 a2 a3 (vadd p q) = vadd (lin a1 a2 a3 p) (lin a1 a2 a3 q).
Proof. unfold lin. apply vec_eq; flatten; ring. Qed.
Lemma one_eigenvector a1 a2 a3 : exists l v, inner v v = 1 /\ lin a1 a2 a3 v = times l v.
Proof.
  destruct a1 as [a b c] eqn:A1, a2 as [d e f] eqn:A2, a3 as [g h i] eqn:A3.
  destruct (cubic_root (- (a + e + i)) (a * e - b * d + (a * i - c * g) + (e * i - f * h)) (- triple a1 a2 a3)) as (l & Z).
  assert (T : triple (V3 (a - l) b c) (V3 d (e - l) f) (V3 g h (i - l)) = 0).
  { subst a1 a2 a3. unfold triple, inner, vcross in *. cbn in *. lra. }
  apply dependent in T. destruct T as (u & N & C). destruct (normalise u N) as (k & _ & K).
  exists l, (times k u). split; [exact K|]. rewrite lin_times.
  assert (E : lin (V3 a b c) (V3 d e f) (V3 g h i) u = times l u).
  { unfold combo in C. unfold lin. clear - C. destruct u as [x y z]. unfold vadd, times, vzero in *. cbn in *. injection C as C1 C2 C3. f_equal; lra. }
  rewrite E. clear. apply vec_eq; flatten; ring.
Qed.
Lemma spectral3 a1 a2 a3 : selfadjoint a1 a2 a3 -> exists v1 v2 v3 l1 l2 l3, ortho3 v1 v2 v3 /\
  lin a1 a2 a3 v1 = times l1 v1 /\ lin a1 a2 a3 v2 = times l2 v2 /\ lin a1 a2 a3 v3 = times l3 v3.
Proof.
  intros S. destruct (one_eigenvector a1 a2 a3) as (l & v & U & E). destruct (extend1 v U) as (w1 & w2 & O).
  unfold selfadjoint in S. set (A := lin a1 a2 a3) in *.
  assert (SY : forall x y, inner x y = inner y x) by (clear; intros; flatten; ring).
  pose proof O as (_ & W1 & W2 & O1 & O2 & O12).
  assert (K1 : inner v (A w1) = 0) by (rewrite <- (S v w1); rewrite E, inner_times, O1; ring).
  assert (K2 : inner v (A w2) = 0) by (rewrite <- (S v w2); rewrite E, inner_times, O2; ring).
  set (al := inner w1 (A w1)). set (be := inner w1 (A w2)). set (ga := inner w2 (A w2)).
  assert (BE : inner w2 (A w1) = be) by (unfold be; rewrite (SY w2), <- (S w1 w2); reflexivity).
  assert (Q1 : A w1 = vadd (times al w1) (times be w2)).
  { rewrite (complete v w1 w2 (A w1) O) at 1. rewrite K1, BE. fold al. clear. apply vec_eq; flatten; ring. }
  assert (Q2 : A w2 = vadd (times be w1) (times ga w2)).
  { rewrite (complete v w1 w2 (A w2) O) at 1. rewrite K2. fold be ga. clear. apply vec_eq; flatten; ring. }
  destruct (symmetric2 al be ga) as (c & s & l1 & l2 & C & D1 & D2 & D3 & D4).
  assert (AL : forall x y, A (vadd (times x w1) (times y w2)) = vadd (times (x * al + y * be) w1) (times (x * be + y * ga) w2)).
  { intros x y. unfold A. rewrite lin_add, !lin_times. fold A. rewrite Q1, Q2. generalize al be ga. clear. intros. apply vec_eq; flatten; ring. }
  exists v, (vadd (times c w1) (times s w2)), (vadd (times (- s) w1) (times c w2)), l, l1, l2.
  assert (IN : forall x y z t, inner (vadd (times x w1) (times y w2)) (vadd (times z w1) (times t w2)) = x * z + y * t).
  { intros x y z t. transitivity (x * z * inner w1 w1 + y * t * inner w2 w2 + (x * t + y * z) * inner w1 w2); [clear; flatten; ring|]. rewrite W1, W2, O12. ring. }
  assert (IV : forall x y, inner v (vadd (times x w1) (times y w2)) = 0).
  { intros x y. transitivity (x * inner v w1 + y * inner v w2); [clear; flatten; ring|]. rewrite O1, O2. ring. }
  split; [unfold ortho3; rewrite !IN, !IV; repeat split; try assumption; lra|].
  split; [exact E|]. rewrite !AL. clearbody al be ga A. 
  split; [replace (c * al + s * be) with (l1 * c) by lra; replace (c * be + s * ga) with (l1 * s) by lra|replace (- s * al + c * be) with (l2 * - s) by lra; replace (- s * be + c * ga) with (l2 * c) by lra];
  clear; apply vec_eq; flatten; ring.
Qed.
