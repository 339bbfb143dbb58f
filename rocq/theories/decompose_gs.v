(** * Orthogonalisation and angles (C112). *)

From Coq Require Import List Reals Lra Lia Nsatz Arith.
Import ListNotations.
From Verif Require Import Py transf_model transf_spec transf_euler affine_model affine_spec affine_proof affine2_proof decompose_model decompose_spec.
Local Open Scope R_scope.

Lemma normed v : v <> vzero -> 0 < vector_norm v /\ v = times (vector_norm v) (vover v (vector_norm v)) /\ inner (vover v (vector_norm v)) (vover v (vector_norm v)) = 1.
Proof. intros N. destruct (unit_ok v N) as (t & T & E & U & L). subst t. split; [exact T|]. split; [exact E|exact U]. Qed.

Lemma zero_dec v : v = vzero \/ v <> vzero.
Proof.
  destruct (Req_dec (vx v) 0) as [X|X]; [destruct (Req_dec (vy v) 0) as [Y|Y]; [destruct (Req_dec (vz v) 0) as [Z|Z]|]|].
  - left. apply vec_eq; assumption.
  - right. intros E. apply Z. rewrite E. reflexivity.
  - right. intros E. apply Y. rewrite E. reflexivity.
  - right. intros E. apply X. rewrite E. reflexivity.
Qed.

Ltac flatten := repeat match goal with v : vec3 |- _ => destruct v end; unfold triple, frame3, inner, vcross, vadd, vsub, times, vzero in *; cbn [vx vy vz] in *.

(** Three orthonormal vectors are a frame or the mirror image of one. *)
Lemma orthonormal r0 r1 r2 : inner r0 r0 = 1 -> inner r1 r1 = 1 -> inner r2 r2 = 1 -> inner r0 r1 = 0 -> inner r0 r2 = 0 -> inner r1 r2 = 0 ->
  triple r0 r1 r2 * triple r0 r1 r2 = 1 /\ vcross r0 r1 = times (triple r0 r1 r2) r2.
Proof.
  intros A B C D E F. set (t := triple r0 r1 r2).
  assert (G : vcross r0 r1 = times t r2).
  { set (w := vsub (vcross r0 r1) (times t r2)).
    assert (W : inner w w = 0).
    { assert (Q : inner (vcross r0 r1) (vcross r0 r1) = 1) by (clear - A B D; flatten; nsatz).
      assert (T2 : t = inner (vcross r0 r1) r2) by (unfold t; clear; flatten; ring).
      assert (W0 : inner w r0 = 0) by (unfold w; clear - E; clearbody t; flatten; nsatz).
      assert (W1 : inner w r1 = 0) by (unfold w; clear - F; clearbody t; flatten; nsatz).
      assert (W2 : inner w r2 = 0) by (unfold w; rewrite inner_sub, inner_times, C, <- T2; ring).
      clearbody w. clear - A B C D E F W0 W1 W2.
      assert (H : inner w w * (triple r0 r1 r2 * triple r0 r1 r2) = 0) by (flatten; nsatz).
      assert (T : triple r0 r1 r2 * triple r0 r1 r2 = 1).
      { transitivity (inner r0 r0 * (inner r1 r1 * inner r2 r2 - inner r1 r2 * inner r1 r2) - inner r0 r1 * (inner r0 r1 * inner r2 r2 - inner r1 r2 * inner r0 r2)
                      + inner r0 r2 * (inner r0 r1 * inner r1 r2 - inner r1 r1 * inner r0 r2)); [flatten; ring|rewrite A, B, C, D, E, F; ring]. }
      rewrite T in H. lra. }
    destruct (zero_dec w) as [Z|Z]; [|apply inner_pos in Z; lra].
    apply vec_eq; [apply (f_equal vx) in Z|apply (f_equal vy) in Z|apply (f_equal vz) in Z]; unfold w, vsub in Z; cbn [vx vy vz vzero] in Z; lra. }
  split; [|exact G].
  transitivity (inner r0 r0 * (inner r1 r1 * inner r2 r2 - inner r1 r2 * inner r1 r2) - inner r0 r1 * (inner r0 r1 * inner r2 r2 - inner r1 r2 * inner r0 r2)
                + inner r0 r2 * (inner r0 r1 * inner r1 r2 - inner r1 r1 * inner r0 r2)); [unfold t; clear; flatten; ring|rewrite A, B, C, D, E, F; ring].
Qed.

(** What the lines 753-771 compute from three vectors. *)
Definition gram (r0 r1 r2 : vec3) : vec3 * vec3 * (vec3 * vec3 * vec3) :=
  let s0 := vector_norm r0 in
  let r0 := vover r0 s0 in
  let h0 := vdot r0 r1 in
  let r1 := vminus r1 (vscale h0 r0) in
  let s1 := vector_norm r1 in
  let r1 := vover r1 s1 in
  let h0 := h0 / s1 in
  let h1 := vdot r0 r2 in
  let r2 := vminus r2 (vscale h1 r0) in
  let h2 := vdot r1 r2 in
  let r2 := vminus r2 (vscale h2 r1) in
  let s2 := vector_norm r2 in
  let r2 := vover r2 s2 in
  let h1 := h1 / s2 in
  let h2 := h2 / s2 in
  if Rlt_dec (vdot r0 (vcross3 r1 r2)) 0 then (vscale (-1) (V3 s0 s1 s2), V3 h0 h1 h2, (vscale (-1) r0, vscale (-1) r1, vscale (-1) r2))
  else (V3 s0 s1 s2, V3 h0 h1 h2, (r0, r1, r2)).

(** Columns that are a sheared and scaled frame. *)
Definition made (s h r0 r1 r2 c0 c1 c2 : vec3) : Prop :=
  c0 = times (vx s) r0 /\ c1 = times (vy s) (vadd (times (vx h) r0) r1) /\ c2 = times (vz s) (vadd (times (vy h) r0) (vadd (times (vz h) r1) r2)).

Lemma made_triple s h r0 r1 r2 c0 c1 c2 : frame3 r0 r1 r2 -> made s h r0 r1 r2 c0 c1 c2 -> triple c0 c1 c2 = vx s * vy s * vz s.
Proof.
  intros F (-> & -> & ->). destruct (frame_facts _ _ _ F) as (F3 & _). destruct F as (_ & _ & _ & <-).
  transitivity (vx s * vy s * vz s * inner (vcross r0 r1) (vcross r0 r1)); [clear; destruct s, h; flatten; ring|rewrite F3; ring].
Qed.

Lemma gram_made c0 c1 c2 : triple c0 c1 c2 <> 0 ->
  let '(s, h, (r0, r1, r2)) := gram c0 c1 c2 in
  frame3 r0 r1 r2 /\ made s h r0 r1 r2 c0 c1 c2 /\ one_sign s /\ (0 < vx s <-> 0 < triple c0 c1 c2).
Proof.
  intros T.
  assert (N0 : c0 <> vzero) by (intros ->; apply T; clear; flatten; ring).
  destruct (normed c0 N0) as (S0 & E0 & U0). unfold gram.
  set (s0 := vector_norm c0) in *. set (r0 := vover c0 s0) in *. clearbody s0 r0.
  change (vdot r0 c1) with (inner r0 c1). set (h0 := inner r0 c1). change (vscale h0 r0) with (times h0 r0). change (vminus c1 (times h0 r0)) with (vsub c1 (times h0 r0)).
  assert (O1 : inner r0 (vsub c1 (times h0 r0)) = 0) by (subst h0; clear - U0; flatten; nsatz).
  assert (D1 : c1 = vadd (times h0 r0) (vsub c1 (times h0 r0))) by (clear; apply vec_eq; flatten; ring).
  set (w1 := vsub c1 (times h0 r0)) in *. clearbody w1 h0.
  assert (N1 : w1 <> vzero) by (intros ->; apply T; rewrite E0, D1; clear; flatten; ring).
  destruct (normed w1 N1) as (S1 & E1 & U1). set (s1 := vector_norm w1) in *. set (r1 := vover w1 s1) in *. clearbody s1 r1.
  assert (O01 : inner r0 r1 = 0).
  { apply (Rmult_eq_reg_l s1); [|lra]. rewrite Rmult_0_r, <- O1, E1. clear. flatten. ring. }
  change (vdot r0 c2) with (inner r0 c2). set (h1 := inner r0 c2). change (vscale h1 r0) with (times h1 r0).
  change (vminus c2 (times h1 r0)) with (vsub c2 (times h1 r0)).
  change (vdot r1 (vsub c2 (times h1 r0))) with (inner r1 (vsub c2 (times h1 r0))). set (h2 := inner r1 (vsub c2 (times h1 r0))).
  change (vscale h2 r1) with (times h2 r1).
  change (vminus (vsub c2 (times h1 r0)) (times h2 r1)) with (vsub (vsub c2 (times h1 r0)) (times h2 r1)).
  assert (O2 : inner r0 (vsub (vsub c2 (times h1 r0)) (times h2 r1)) = 0) by (clearbody h2; subst h1; clear - U0 O01; flatten; nsatz).
  assert (O3 : inner r1 (vsub (vsub c2 (times h1 r0)) (times h2 r1)) = 0) by (subst h2; clearbody h1; clear - U1 O01; flatten; nsatz).
  assert (D2 : c2 = vadd (times h1 r0) (vadd (times h2 r1) (vsub (vsub c2 (times h1 r0)) (times h2 r1)))) by (clearbody h2 h1; clear; apply vec_eq; flatten; ring).
  clearbody h2. set (w2 := vsub (vsub c2 (times h1 r0)) (times h2 r1)) in *. clearbody w2 h1.
  assert (N2 : w2 <> vzero) by (intros ->; apply T; rewrite E0, D1, E1, D2; clear; flatten; ring).
  destruct (normed w2 N2) as (S2 & E2 & U2). set (s2 := vector_norm w2) in *. set (r2 := vover w2 s2) in *. clearbody s2 r2.
  assert (O02 : inner r0 r2 = 0) by (apply (Rmult_eq_reg_l s2); [|lra]; rewrite Rmult_0_r, <- O2, E2; clear; flatten; ring).
  assert (O12 : inner r1 r2 = 0) by (apply (Rmult_eq_reg_l s2); [|lra]; rewrite Rmult_0_r, <- O3, E2; clear; flatten; ring).
  destruct (orthonormal r0 r1 r2 U0 U1 U2 O01 O02 O12) as (TT & CR).
  change (vdot r0 (vcross3 r1 r2)) with (triple r0 r1 r2). set (t := triple r0 r1 r2) in *.
  assert (M : made (V3 s0 s1 s2) (V3 (h0 / s1) (h1 / s2) (h2 / s2)) r0 r1 r2 c0 c1 c2).
  { rewrite D2, E2, D1, E1, E0. clear - S1 S2. split; [reflexivity|]. split; apply vec_eq; flatten; field; lra. }
  assert (TR : triple c0 c1 c2 = s0 * s1 * s2 * t) by (rewrite D2, E2, D1, E1, E0; unfold t; clear; flatten; ring).
  assert (SP : 0 < s0 * s1 * s2) by (apply Rmult_lt_0_compat; [apply Rmult_lt_0_compat|]; assumption).
  destruct (Rlt_dec t 0) as [L|L].
  - assert (T1 : t = -1) by nra.
    split; [|split; [|split]].
    + rewrite T1 in CR. clear - CR U0 U1 O01. change vscale with times.
      split; [|split; [|split]]; [clear - U0; flatten; nsatz|clear - U1; flatten; nsatz|clear - O01; flatten; nsatz|].
      rewrite <- CR. clear. apply vec_eq; flatten; ring.
    + destruct M as (-> & -> & ->). clear. split; [|split]; apply vec_eq; flatten; cbn; ring.
    + right. cbn. lra.
    + cbn. rewrite TR, T1. split; intros; nra.
  - assert (T1 : t = 1) by nra.
    split; [|split; [|split]].
    + rewrite T1 in CR. split; [exact U0|split; [exact U1|split; [exact O01|]]]. rewrite CR. clear. apply vec_eq; flatten; ring.
    + exact M.
    + left. cbn. lra.
    + cbn. rewrite TR, T1. split; intros; nra.
Qed.

(** Only one way with scales of one sign. *)
Lemma made_unique s h r0 r1 r2 s' h' q0 q1 q2 c0 c1 c2 :
  frame3 r0 r1 r2 -> frame3 q0 q1 q2 -> made s h r0 r1 r2 c0 c1 c2 -> made s' h' q0 q1 q2 c0 c1 c2 -> one_sign s -> one_sign s' ->
  s = s' /\ h = h' /\ r0 = q0 /\ r1 = q1 /\ r2 = q2.
Proof.
  intros F F' M M' O O'.
  pose proof (made_triple _ _ _ _ _ _ _ _ F M) as T. pose proof (made_triple _ _ _ _ _ _ _ _ F' M') as T'.
  assert (SG : (0 < vx s /\ 0 < vy s /\ 0 < vz s /\ 0 < vx s' /\ 0 < vy s' /\ 0 < vz s') \/ (vx s < 0 /\ vy s < 0 /\ vz s < 0 /\ vx s' < 0 /\ vy s' < 0 /\ vz s' < 0)).
  { rewrite T in T'. clear - T' O O'. destruct O as [(A & B & C)|(A & B & C)], O' as [(A' & B' & C')|(A' & B' & C')]; [left; tauto| | |right; tauto]; exfalso.
    - assert (0 < vx s * vy s * vz s) by (apply Rmult_lt_0_compat; [apply Rmult_lt_0_compat|]; assumption).
      assert (0 < (- vx s') * (- vy s') * (- vz s')) by (apply Rmult_lt_0_compat; [apply Rmult_lt_0_compat|]; lra). nra.
    - assert (0 < vx s' * vy s' * vz s') by (apply Rmult_lt_0_compat; [apply Rmult_lt_0_compat|]; assumption).
      assert (0 < (- vx s) * (- vy s) * (- vz s)) by (apply Rmult_lt_0_compat; [apply Rmult_lt_0_compat|]; lra). nra. }
  clear T T' O O'.
  assert (KEY : forall a b u v, ((0 < a /\ 0 < b) \/ (a < 0 /\ b < 0)) -> inner u u = 1 -> inner v v = 1 -> times a u = times b v -> a = b /\ u = v).
  { clear. intros a b u v S U V E.
    assert (Q : a * a = b * b).
    { transitivity (inner (times a u) (times a u)); [transitivity (a * a * inner u u); [rewrite U; ring|flatten; ring]|].
      rewrite E. transitivity (b * b * inner v v); [flatten; ring|rewrite V; ring]. }
    assert (AB : a = b) by (destruct (Rtotal_order a b) as [L|[L|L]]; [exfalso; nra|exact L|exfalso; nra]).
    subst b. split; [reflexivity|]. assert (a <> 0) by lra.
    apply vec_eq; [apply (f_equal vx) in E|apply (f_equal vy) in E|apply (f_equal vz) in E]; unfold times in E; cbn in E; eapply Rmult_eq_reg_l; eassumption. }
  destruct M as (M0 & M1 & M2), M' as (M0' & M1' & M2').
  destruct (frame_facts _ _ _ F) as (F2 & F02 & F12 & _). destruct (frame_facts _ _ _ F') as (F2' & F02' & F12' & _).
  destruct F as (U0 & U1 & O01 & _), F' as (U0' & U1' & O01' & _).
  destruct (KEY (vx s) (vx s') r0 q0) as (A0 & R0); [lra|assumption|assumption|rewrite <- M0; exact M0'|]. subst q0.
  assert (H0 : vy s * vx h = vy s' * vx h').
  { transitivity (inner c1 r0).
    - rewrite M1. transitivity (vy s * vx h * inner r0 r0 + vy s * inner r0 r1); [rewrite U0, O01; ring|clear; destruct s, h; flatten; ring].
    - rewrite M1'. transitivity (vy s' * vx h' * inner r0 r0 + vy s' * inner r0 q1); [clear; destruct s', h'; flatten; ring|rewrite U0, O01'; ring]. }
  destruct (KEY (vy s) (vy s') r1 q1) as (A1 & R1); [lra|assumption|assumption| |].
  { transitivity (vsub c1 (times (vy s * vx h) r0)); [rewrite M1; clear; apply vec_eq; destruct s, h; flatten; ring|].
    rewrite H0, M1'. clear. apply vec_eq; destruct s', h'; flatten; ring. }
  subst q1.
  assert (H1 : vz s * vy h = vz s' * vy h').
  { transitivity (inner c2 r0).
    - rewrite M2. transitivity (vz s * vy h * inner r0 r0 + vz s * vz h * inner r0 r1 + vz s * inner r0 r2); [rewrite U0, O01, F02; ring|clear; destruct s, h; flatten; ring].
    - rewrite M2'. transitivity (vz s' * vy h' * inner r0 r0 + vz s' * vz h' * inner r0 r1 + vz s' * inner r0 q2); [clear; destruct s', h'; flatten; ring|rewrite U0, O01, F02'; ring]. }
  assert (H2 : vz s * vz h = vz s' * vz h').
  { transitivity (inner c2 r1).
    - rewrite M2. transitivity (vz s * vy h * inner r0 r1 + vz s * vz h * inner r1 r1 + vz s * inner r1 r2); [rewrite U1, O01, F12; ring|clear; destruct s, h; flatten; ring].
    - rewrite M2'. transitivity (vz s' * vy h' * inner r0 r1 + vz s' * vz h' * inner r1 r1 + vz s' * inner r1 q2); [clear; destruct s', h'; flatten; ring|rewrite U1, O01, F12'; ring]. }
  destruct (KEY (vz s) (vz s') r2 q2) as (A2 & R2); [lra|assumption|assumption| |].
  { transitivity (vsub c2 (vadd (times (vz s * vy h) r0) (times (vz s * vz h) r1))); [rewrite M2; clear; apply vec_eq; destruct s, h; flatten; ring|].
    rewrite H1, H2, M2'. clear. apply vec_eq; destruct s', h'; flatten; ring. }
  subst q2. rewrite <- A1 in H0. rewrite <- A2 in H1, H2.
  split; [apply vec_eq; assumption|]. split; [|auto].
  apply vec_eq; (eapply Rmult_eq_reg_l; [eassumption|lra]).
Qed.

(** ** Angles *)
Lemma atan2_turn r t : 0 < r -> - PI < t <= PI -> atan2 (r * sin t) (r * cos t) = t.
Proof.
  intros P (L & U). pose proof PI_RGT_0 as PI0. unfold atan2.
  assert (Q : forall u, cos u <> 0 -> r * sin u / (r * cos u) = tan u) by (intros; unfold tan; field; split; [assumption|lra]).
  destruct (Rlt_dec 0 (r * cos t)) as [C|C].
  - assert (CP : 0 < cos t) by nra. rewrite Q by lra. apply atan_tan. split.
    + apply Rnot_le_lt. intros H. assert (cos t <= 0); [|lra]. rewrite <- cos_neg. apply cos_le_0; lra.
    + apply Rnot_le_lt. intros H. assert (cos t <= 0); [|lra]. apply cos_le_0; lra.
  - destruct (Rlt_dec (r * cos t) 0) as [D|D].
    + assert (CN : cos t < 0) by nra. rewrite Q by lra.
      destruct (Rlt_dec (r * sin t) 0) as [E|E].
      * assert (SN : sin t < 0) by nra.
        assert (T0 : t < 0) by (apply Rnot_le_lt; intros H; pose proof (sin_ge_0 t H U); lra).
        assert (T1 : t < - (PI / 2)) by (apply Rnot_le_lt; intros H; assert (0 <= cos t) by (apply cos_ge_0; lra); lra).
        replace (tan t) with (tan (t + PI)) by (unfold tan; rewrite neg_sin, neg_cos; field; lra).
        rewrite atan_tan by lra. ring.
      * assert (SN : 0 <= sin t) by nra.
        assert (T0 : 0 <= t).
        { apply Rnot_lt_le. intros H. assert (0 < sin (- t)) by (apply sin_gt_0; lra). rewrite sin_neg in *. lra. }
        assert (T1 : PI / 2 < t) by (apply Rnot_le_lt; intros H; assert (0 <= cos t) by (apply cos_ge_0; lra); lra).
        replace (tan t) with (tan (t - PI)).
        { rewrite atan_tan by lra. ring. }
        unfold tan. replace (sin (t - PI)) with (- sin t) by (rewrite sin_minus, sin_PI, cos_PI; ring).
        replace (cos (t - PI)) with (- cos t) by (rewrite cos_minus, sin_PI, cos_PI; ring). field. lra.
    + assert (C0 : cos t = 0) by nra.
      assert (S2 : sin t * sin t = 1) by (pose proof (sin2_cos2 t); unfold Rsqr in *; nra).
      assert (TT : t = PI / 2 \/ t = - (PI / 2)).
      { destruct (Rlt_dec t 0) as [N|N].
        - right. destruct (Rtotal_order t (- (PI / 2))) as [X|[X|X]]; [exfalso| exact X |exfalso].
          + assert (cos (- t) < 0) by (apply cos_lt_0; lra). rewrite cos_neg in *. lra.
          + assert (0 < cos t) by (apply cos_gt_0; lra). lra.
        - left. destruct (Rtotal_order t (PI / 2)) as [X|[X|X]]; [exfalso| exact X |exfalso].
          + assert (0 < cos t) by (apply cos_gt_0; lra). lra.
          + assert (cos t < 0) by (apply cos_lt_0; lra). lra. }
      destruct TT as [-> | ->]; rewrite ?sin_neg, sin_PI2.
      * destruct (Rlt_dec 0 (r * 1)); lra.
      * destruct (Rlt_dec 0 (r * - (1))); [lra|]. destruct (Rlt_dec (r * - (1)) 0); lra.
Qed.

(** The columns of the rotation. *)
Definition col0 (a : vec3) : vec3 := turned_xyz a (V3 1 0 0).
Definition col1 (a : vec3) : vec3 := turned_xyz a (V3 0 1 0).
Definition col2 (a : vec3) : vec3 := turned_xyz a (V3 0 0 1).
Lemma turned_cols a p : turned_xyz a p = vadd (times (vx p) (col0 a)) (vadd (times (vy p) (col1 a)) (times (vz p) (col2 a))).
Proof. apply vec_eq; unfold col0, col1, col2, turned_xyz, turned_x, turned_y, turned_z, vadd, times; cbn [vx vy vz]; ring. Qed.
Lemma cols_frame a : frame3 (col0 a) (col1 a) (col2 a).
Proof.
  unfold frame3, col0, col1, col2, turned_xyz, turned_x, turned_y, turned_z. cbn [vx vy vz].
  destruct a as [x y z]. cbn [vx vy vz].
  pose proof (sin2_cos2 x) as X. pose proof (sin2_cos2 y) as Y. pose proof (sin2_cos2 z) as Z. unfold Rsqr in *.
  set (sx := sin x) in *. set (cx := cos x) in *. set (sy := sin y) in *. set (cy := cos y) in *. set (sz := sin z) in *. set (cz := cos z) in *.
  clearbody sx cx sy cy sz cz. unfold inner, vcross. cbn [vx vy vz].
  split; [nsatz|]. split; [nsatz|]. split; [nsatz|]. apply vec_eq; cbn [vx vy vz]; nsatz.
Qed.

Lemma unit_sq x y r : 0 < r -> x * x + y * y = r * r -> sqrt (x * x + y * y) = r.
Proof. intros P ->. apply sqrt_square. lra. Qed.

Lemma angles_cols r0 r1 r2 : frame3 r0 r1 r2 -> let a := angles_of r0 r1 r2 in col0 a = r0 /\ col1 a = r1 /\ col2 a = r2.
Proof.
  intros F. destruct (frame_facts _ _ _ F) as (F2 & F02 & F12 & X1 & X0). destruct F as (U0 & U1 & O01 & X2).
  destruct r0 as [a d g], r1 as [b e h], r2 as [c f i].
  unfold inner in U0, U1, O01, F2, F02, F12. unfold vcross in X0, X1, X2. cbn [vx vy vz] in *.
  injection X0 as X0a X0b X0c. injection X1 as X1a X1b X1c. injection X2 as X2a X2b X2c.
  assert (G : -1 <= - g <= 1) by (split; nra).
  pose proof (sin_asin (- g) G) as SN. pose proof (cos_asin (- g) G) as CS.
  assert (CS2 : cos (asin (- g)) * cos (asin (- g)) = 1 - g * g).
  { pose proof (sin2_cos2 (asin (- g))) as Q. rewrite SN in Q. unfold Rsqr in Q. lra. }
  assert (CP : 0 <= cos (asin (- g))) by (rewrite CS; apply sqrt_pos).
  unfold angles_of. cbn [vx vy vz]. set (a1 := asin (- g)) in *. clear CS.
  destruct (Req_EM_T (cos a1) 0) as [Z|Z]; cbv zeta; unfold col0, col1, col2, turned_xyz, turned_x, turned_y, turned_z; cbn [vx vy vz].
  - rewrite SN, Z, cos_0, sin_0. rewrite Z in CS2.
    assert (A : a = 0) by nra. assert (D : d = 0) by nra. assert (H : h = 0) by nra. assert (I : i = 0) by nra.
    assert (N : e * e + - f * - f = 1) by (clear - A D H I X0a X0b X0c X1a X1b X1c X2a X2b X2c U0 U1 O01 F2 F02 F12; nsatz).
    destruct (atan2_polar (- f) e) as (CA & SA); [rewrite N; lra|]. rewrite CA, SA, N, sqrt_1. unfold Rdiv. rewrite Rinv_1.
    clear - CS2 A D H I X0a X0b X0c X1a X1b X1c X2a X2b X2c U0. split; [|split]; apply vec_eq; cbn [vx vy vz]; nsatz.
  - assert (P : 0 < cos a1) by lra. set (k := cos a1) in *. clearbody k.
    assert (N1 : i * i + h * h = k * k) by (rewrite CS2; clear - X0a X0b X0c X1a X1b X1c X2a X2b X2c U0 U1 O01 F2 F02 F12; nsatz).
    assert (N2 : a * a + d * d = k * k) by (rewrite CS2; lra).
    destruct (atan2_polar h i) as (CA & SA); [nra|]. destruct (atan2_polar d a) as (CB & SB); [nra|].
    rewrite CA, SA, CB, SB, (unit_sq i h k P N1), (unit_sq a d k P N2), SN.
    assert (K2 : k * k <> 0) by nra.
    clear - Z K2 CS2 X0a X0b X0c X1a X1b X1c X2a X2b X2c U0 U1 O01 F2 F02 F12.
    split; [|split]; apply vec_eq; cbn [vx vy vz].
    + field. exact Z.
    + field. exact Z.
    + field. exact Z.
    + apply (Rmult_eq_reg_l (k * k)); [|exact K2]. transitivity (a * (- g) * h - d * i); [field; exact Z|]. rewrite CS2. nsatz.
    + apply (Rmult_eq_reg_l (k * k)); [|exact K2]. transitivity (d * (- g) * h + a * i); [field; exact Z|]. rewrite CS2. nsatz.
    + field. exact Z.
    + apply (Rmult_eq_reg_l (k * k)); [|exact K2]. transitivity (a * (- g) * i + d * h); [field; exact Z|]. rewrite CS2. nsatz.
    + apply (Rmult_eq_reg_l (k * k)); [|exact K2]. transitivity (d * (- g) * i - a * h); [field; exact Z|]. rewrite CS2. nsatz.
    + field. exact Z.
Qed.

Lemma angles_back a : no_angle_lost a -> angles_of (col0 a) (col1 a) (col2 a) = a.
Proof.
  intros (X & Y & Z). destruct a as [x y z]. cbn [vx vy vz] in *.
  unfold angles_of, col0, col1, col2, turned_xyz, turned_x, turned_y, turned_z. cbn [vx vy vz].
  replace (- (- sin y * 1 + cos y * (sin x * 0 + cos x * 0))) with (sin y) by ring. rewrite asin_sin by lra.
  assert (P : 0 < cos y) by (apply cos_gt_0; lra). destruct (Req_EM_T (cos y) 0); [lra|].
  f_equal.
  - transitivity (atan2 (cos y * sin x) (cos y * cos x)); [f_equal; ring|apply atan2_turn; assumption].
  - transitivity (atan2 (cos y * sin z) (cos y * cos z)); [f_equal; ring|apply atan2_turn; assumption].
Qed.
