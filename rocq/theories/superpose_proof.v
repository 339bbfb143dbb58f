(** * The best rotation, by both methods (C113). *)

From Coq Require Import List Reals Lra Lia Nsatz Arith Bool.
Import ListNotations.
From Verif Require Import Py transf_model transf_spec transf_proof transf_quat transf_back affine_model affine_spec affine_proof affine2_proof decompose_model decompose_spec decompose_gs superpose_model superpose_spec superpose_frame.
Local Open Scope R_scope.

Definition col (m : mat4) (j : nat) : vec3 := V3 (m 0%nat j) (m 1%nat j) (m 2%nat j).
Definition row (m : mat4) (i : nat) : vec3 := V3 (m i 0%nat) (m i 1%nat) (m i 2%nat).
(** The columns turn as well as possible. *)
Definition best (m : mat4) (a b : list vec3) : Prop :=
  frame3 (col m 0) (col m 1) (col m 2) /\
  forall e1 e2 e3, frame3 e1 e2 e3 -> agree e1 e2 e3 a b <= agree (col m 0) (col m 1) (col m 2) a b.

(** ** By singular values *)
Lemma agree_svd e1 e2 e3 a b u0 u1 u2 v0 v1 v2 s0 s1 s2 :
  (forall i j, (i < 3)%nat -> (j < 3)%nat -> covariance b a i j = coord u0 i * s0 * coord v0 j + coord u1 i * s1 * coord v1 j + coord u2 i * s2 * coord v2 j) ->
  agree e1 e2 e3 a b = s0 * inner (lin e1 e2 e3 v0) u0 + s1 * inner (lin e1 e2 e3 v1) u1 + s2 * inner (lin e1 e2 e3 v2) u2.
Proof.
  intros H. rewrite agree_covariance. cbv zeta. rewrite !H by lia. unfold lin, coord. clear. flatten. ring.
Qed.

(** The map that takes one orthonormal system to another. *)
Definition carry (u0 u1 u2 v0 v1 v2 p : vec3) : vec3 := vadd (times (inner v0 p) u0) (vadd (times (inner v1 p) u1) (times (inner v2 p) u2)).
Lemma carry_lin u0 u1 u2 v0 v1 v2 p : lin (carry u0 u1 u2 v0 v1 v2 (V3 1 0 0)) (carry u0 u1 u2 v0 v1 v2 (V3 0 1 0)) (carry u0 u1 u2 v0 v1 v2 (V3 0 0 1)) p = carry u0 u1 u2 v0 v1 v2 p.
Proof. unfold lin, carry. apply vec_eq; flatten; ring. Qed.
Lemma carry_inner u0 u1 u2 v0 v1 v2 p q : ortho3 u0 u1 u2 -> ortho3 v0 v1 v2 -> inner (carry u0 u1 u2 v0 v1 v2 p) (carry u0 u1 u2 v0 v1 v2 q) = inner p q.
Proof.
  intros U V. rewrite (parseval v0 v1 v2 p q V).
  change (carry u0 u1 u2 v0 v1 v2 p) with (lin u0 u1 u2 (V3 (inner v0 p) (inner v1 p) (inner v2 p))). change (carry u0 u1 u2 v0 v1 v2 q) with (lin u0 u1 u2 (V3 (inner v0 q) (inner v1 q) (inner v2 q))).
  rewrite lin_inner by exact U. reflexivity.
Qed.
Lemma carry_frame u0 u1 u2 v0 v1 v2 : ortho3 u0 u1 u2 -> ortho3 v0 v1 v2 -> 0 <= triple u0 u1 u2 * triple v0 v1 v2 ->
  frame3 (carry u0 u1 u2 v0 v1 v2 (V3 1 0 0)) (carry u0 u1 u2 v0 v1 v2 (V3 0 1 0)) (carry u0 u1 u2 v0 v1 v2 (V3 0 0 1)).
Proof.
  intros U V T. set (K := carry u0 u1 u2 v0 v1 v2).
  assert (O : ortho3 (K (V3 1 0 0)) (K (V3 0 1 0)) (K (V3 0 0 1))).
  { unfold ortho3, K. rewrite !carry_inner by assumption. unfold inner. cbn. repeat (split; [ring|]). ring. }
  assert (E : triple (K (V3 1 0 0)) (K (V3 0 1 0)) (K (V3 0 0 1)) = triple u0 u1 u2 * triple v0 v1 v2) by (unfold K, carry; clear; flatten; ring).
  pose proof (ortho_frame _ _ _ O) as F. destruct (ortho_triple _ _ _ O) as (S & _). rewrite E in S, F.
  assert (E1 : triple u0 u1 u2 * triple v0 v1 v2 = 1) by nra. rewrite E1 in F.
  assert (I : forall x, times 1 x = x) by (intros; apply vec_eq; unfold times; cbn; ring). rewrite I in F. exact F.
Qed.
Lemma carry_image u0 u1 u2 v0 v1 v2 : ortho3 v0 v1 v2 -> carry u0 u1 u2 v0 v1 v2 v0 = u0 /\ carry u0 u1 u2 v0 v1 v2 v1 = u1 /\ carry u0 u1 u2 v0 v1 v2 v2 = u2.
Proof.
  intros (A & B & C & D & E & F). assert (SY : forall u v, inner u v = inner v u) by (clear; intros; flatten; ring).
  unfold carry. rewrite A, B, C, (SY v1 v0), (SY v2 v0), (SY v2 v1), D, E, F. clear. split; [|split]; apply vec_eq; flatten; ring.
Qed.

Lemma svd_best a b u0 u1 u2 v0 v1 v2 s0 s1 s2 w :
  ortho3 u0 u1 u2 -> ortho3 v0 v1 v2 -> s1 <= s0 -> s2 <= s1 -> 0 <= s2 ->
  (forall i j, (i < 3)%nat -> (j < 3)%nat -> covariance b a i j = coord u0 i * s0 * coord v0 j + coord u1 i * s1 * coord v1 j + coord u2 i * s2 * coord v2 j) ->
  (0 <= triple u0 u1 u2 * triple v0 v1 v2 /\ w = u2) \/ (triple u0 u1 u2 * triple v0 v1 v2 < 0 /\ w = times (-1) u2) ->
  let K := carry u0 u1 w v0 v1 v2 in
  frame3 (K (V3 1 0 0)) (K (V3 0 1 0)) (K (V3 0 0 1)) /\
  forall e1 e2 e3, frame3 e1 e2 e3 -> agree e1 e2 e3 a b <= agree (K (V3 1 0 0)) (K (V3 0 1 0)) (K (V3 0 0 1)) a b.
Proof.
  intros U V L1 L2 L3 H C K.
  assert (W : ortho3 u0 u1 w /\ 0 <= triple u0 u1 w * triple v0 v1 v2).
  { destruct C as [(T & ->)|(T & ->)]; [split; assumption|]. split.
    - destruct U as (A & B & C & D & E & F). unfold ortho3. rewrite !inner_times_r, !inner_times. repeat (split; [lra|]). lra.
    - assert (E : triple u0 u1 (times (-1) u2) = - triple u0 u1 u2) by (clear; flatten; ring). rewrite E. lra. }
  destruct W as (W & T). split; [apply carry_frame; assumption|].
  intros e1 e2 e3 F. destruct (frame_ortho _ _ _ F) as (O & T1).
  rewrite !(agree_svd _ _ _ a b u0 u1 u2 v0 v1 v2 s0 s1 s2 H). unfold K. rewrite !carry_lin. destruct (carry_image u0 u1 w v0 v1 v2 V) as (-> & -> & ->).
  pose proof (lin_ortho e1 e2 e3 _ _ _ O V) as P. pose proof (lin_triple e1 e2 e3 v0 v1 v2) as PT. rewrite T1, Rmult_1_l in PT.
  set (p0 := lin e1 e2 e3 v0) in *. set (p1 := lin e1 e2 e3 v1) in *. set (p2 := lin e1 e2 e3 v2) in *. clearbody p0 p1 p2.
  pose proof U as (A & B & C0 & _). pose proof P as (PA & PB & PC & _).
  pose proof (unit_bound p0 u0 PA A) as B0. pose proof (unit_bound p1 u1 PB B) as B1. pose proof (unit_bound p2 u2 PC C0) as B2. rewrite A, B.
  destruct C as [(T' & ->)|(T' & ->)].
  - rewrite C0. nra.
  - rewrite inner_times, C0.
    assert (TR : inner p0 u0 + inner p1 u1 + inner p2 u2 <= 1).
    { assert (U' : ortho3 (times (-1) u0) (times (-1) u1) (times (-1) u2)).
      { destruct U as (X1 & X2 & X3 & X4 & X5 & X6). unfold ortho3. rewrite !inner_times, !inner_times_r. repeat (split; [lra|]). lra. }
      assert (TT : triple (times (-1) u0) (times (-1) u1) (times (-1) u2) * triple p0 p1 p2 = 1).
      { rewrite PT. assert (E : triple (times (-1) u0) (times (-1) u1) (times (-1) u2) = - triple u0 u1 u2) by (clear; flatten; ring). rewrite E.
        destruct (ortho_triple _ _ _ U) as (S1 & _). destruct (ortho_triple _ _ _ V) as (S2 & _). nra. }
      pose proof (trace_systems _ _ _ _ _ _ U' P TT) as Q. rewrite !inner_times_r in Q. lra. }
    assert (N0 : s0 * inner p0 u0 = s2 * inner p0 u0 + (s0 - s2) * inner p0 u0) by ring. assert (N1 : s1 * inner p1 u1 = s2 * inner p1 u1 + (s1 - s2) * inner p1 u1) by ring.
    assert ((s0 - s2) * inner p0 u0 <= (s0 - s2) * 1) by (apply Rmult_le_compat_l; lra). assert ((s1 - s2) * inner p1 u1 <= (s1 - s2) * 1) by (apply Rmult_le_compat_l; lra).
    assert (s2 * (inner p0 u0 + inner p1 u1 + inner p2 u2) <= s2 * 1) by (apply Rmult_le_compat_l; lra). lra.
Qed.

Lemma svd_matrix_best svd a b : decomposes svd -> best (svd_matrix svd a b) a b.
Proof.
  intros D. specialize (D (covariance b a)). unfold svd_matrix. destruct (svd (covariance b a)) as [[u s] vh]. destruct D as (U & V & L1 & L2 & L3 & H).
  set (u0 := (V3 (u 0 0) (u 1 0) (u 2 0))%nat) in *. set (u1 := (V3 (u 0 1) (u 1 1) (u 2 1))%nat) in *. set (u2 := (V3 (u 0 2) (u 1 2) (u 2 2))%nat) in *.
  set (v0 := (V3 (vh 0 0) (vh 0 1) (vh 0 2))%nat) in *. set (v1 := (V3 (vh 1 0) (vh 1 1) (vh 1 2))%nat) in *. set (v2 := (V3 (vh 2 0) (vh 2 1) (vh 2 2))%nat) in *.
  assert (H' : forall i j, (i < 3)%nat -> (j < 3)%nat -> covariance b a i j = coord u0 i * s 0%nat * coord v0 j + coord u1 i * s 1%nat * coord v1 j + coord u2 i * s 2%nat * coord v2 j).
  { intros i j LI LJ. rewrite (H i j LI LJ). destruct i as [|[|[|i]]]; try lia; destruct j as [|[|[|j]]]; try lia; reflexivity. }
  assert (DT : det33 (dot33 u vh) = triple u0 u1 u2 * triple v0 v1 v2) by (unfold det33, dot33, u0, u1, u2, v0, v1, v2, triple, inner, vcross; cbn [vx vy vz]; ring).
  set (w := if Rlt_dec (det33 (dot33 u vh)) 0 then times (-1) u2 else u2).
  pose proof (svd_best a b u0 u1 u2 v0 v1 v2 (s 0%nat) (s 1%nat) (s 2%nat) w U V L1 L2 L3 H') as B.
  assert (C : (0 <= triple u0 u1 u2 * triple v0 v1 v2 /\ w = u2) \/ (triple u0 u1 u2 * triple v0 v1 v2 < 0 /\ w = times (-1) u2)).
  { unfold w. rewrite DT. destruct (Rlt_dec (triple u0 u1 u2 * triple v0 v1 v2) 0); [right|left]; split; auto; lra. }
  specialize (B C). unfold best.
  set (m := fun i j => if ((i <? 3)%nat && (j <? 3)%nat)%bool then _ else _).
  assert (E0 : col m 0 = carry u0 u1 w v0 v1 v2 (V3 1 0 0)).
  { unfold col, m, w, carry, u0, u1, u2, v0, v1, v2. cbn [Nat.ltb Nat.leb andb]. destruct (Rlt_dec _ 0); apply vec_eq; unfold vadd, times, inner, dot33; cbn [vx vy vz]; ring. }
  assert (E1 : col m 1 = carry u0 u1 w v0 v1 v2 (V3 0 1 0)).
  { unfold col, m, w, carry, u0, u1, u2, v0, v1, v2. cbn [Nat.ltb Nat.leb andb]. destruct (Rlt_dec _ 0); apply vec_eq; unfold vadd, times, inner, dot33; cbn [vx vy vz]; ring. }
  assert (E2 : col m 2 = carry u0 u1 w v0 v1 v2 (V3 0 0 1)).
  { unfold col, m, w, carry, u0, u1, u2, v0, v1, v2. cbn [Nat.ltb Nat.leb andb]. destruct (Rlt_dec _ 0); apply vec_eq; unfold vadd, times, inner, dot33; cbn [vx vy vz]; ring. }
  rewrite E0, E1, E2. exact B.
Qed.

(** ** By quaternions *)
Definition form (h : mat4) (x : nat -> R) : R :=
  let y i := h i 0%nat * x 0%nat + h i 1%nat * x 1%nat + h i 2%nat * x 2%nat + h i 3%nat * x 3%nat in
  x 0%nat * y 0%nat + x 1%nat * y 1%nat + x 2%nat * y 2%nat + x 3%nat * y 3%nat.
Definition dot4 (x y : nat -> R) : R := x 0%nat * y 0%nat + x 1%nat * y 1%nat + x 2%nat * y 2%nat + x 3%nat * y 3%nat.

Lemma largest h (l : nat -> R) (v : mat4) mu : (forall i j, (i < 4)%nat -> (j < 4)%nat -> h i j = h j i) ->
  (forall i k, (i < 4)%nat -> (k < 4)%nat -> h i 0%nat * v 0%nat k + h i 1%nat * v 1%nat k + h i 2%nat * v 2%nat k + h i 3%nat * v 3%nat k = l k * v i k) ->
  (forall k, (k < 4)%nat -> l k <= mu) ->
  forall x c : nat -> R, (forall i, (i < 4)%nat -> x i = c 0%nat * v i 0%nat + c 1%nat * v i 1%nat + c 2%nat * v i 2%nat + c 3%nat * v i 3%nat) ->
  form h x <= mu * dot4 x x.
Proof.
  intros S E M x c X.
  set (V := fun k i => v i k).
  assert (EV : forall k i, (k < 4)%nat -> (i < 4)%nat -> h i 0%nat * V k 0%nat + h i 1%nat * V k 1%nat + h i 2%nat * V k 2%nat + h i 3%nat * V k 3%nat = l k * V k i) by (intros k i K I; exact (E i k I K)).
  assert (G : forall k j, (k < 4)%nat -> (j < 4)%nat -> (l k - l j) * dot4 (V k) (V j) = 0).
  { intros k j K J.
    assert (A : l k * dot4 (V k) (V j) = dot4 (fun i => h i 0%nat * V k 0%nat + h i 1%nat * V k 1%nat + h i 2%nat * V k 2%nat + h i 3%nat * V k 3%nat) (V j)) by (unfold dot4; rewrite !EV by lia; ring).
    assert (B : l j * dot4 (V k) (V j) = dot4 (V k) (fun i => h i 0%nat * V j 0%nat + h i 1%nat * V j 1%nat + h i 2%nat * V j 2%nat + h i 3%nat * V j 3%nat)) by (unfold dot4; rewrite !EV by lia; ring).
    rewrite Rmult_minus_distr_r, A, B. unfold dot4. rewrite (S 1 0)%nat, (S 2 0)%nat, (S 3 0)%nat, (S 2 1)%nat, (S 3 1)%nat, (S 3 2)%nat by lia. ring. }
  set (r := fun k => sqrt (mu - l k)).
  assert (RR : forall k j, (k < 4)%nat -> (j < 4)%nat -> r k * r j * dot4 (V k) (V j) = (mu - l j) * dot4 (V k) (V j)).
  { intros k j K J. destruct (Req_dec (dot4 (V k) (V j)) 0) as [Z|Z]; [rewrite Z; ring|].
    assert (L : l k = l j) by (pose proof (G k j K J) as Q; apply Rmult_integral in Q; destruct Q; [lra|contradiction]).
    f_equal. unfold r. rewrite L. apply sqrt_sqrt. pose proof (M j J). lra. }
  set (y := fun i => c 0%nat * r 0%nat * V 0%nat i + c 1%nat * r 1%nat * V 1%nat i + c 2%nat * r 2%nat * V 2%nat i + c 3%nat * r 3%nat * V 3%nat i).
  assert (P : 0 <= dot4 y y) by (unfold dot4; pose proof (Rle_0_sqr (y 0%nat)); pose proof (Rle_0_sqr (y 1%nat)); pose proof (Rle_0_sqr (y 2%nat)); pose proof (Rle_0_sqr (y 3%nat)); unfold Rsqr in *; lra).
  set (w := fun k j => dot4 (V k) (V j)).
  assert (XX : dot4 x x = c 0%nat * (c 0%nat * w 0%nat 0%nat + c 1%nat * w 0%nat 1%nat + c 2%nat * w 0%nat 2%nat + c 3%nat * w 0%nat 3%nat ) + c 1%nat * (c 0%nat * w 1%nat 0%nat + c 1%nat * w 1%nat 1%nat + c 2%nat * w 1%nat 2%nat + c 3%nat * w 1%nat 3%nat )
     + c 2%nat * (c 0%nat * w 2%nat 0%nat + c 1%nat * w 2%nat 1%nat + c 2%nat * w 2%nat 2%nat + c 3%nat * w 2%nat 3%nat ) + c 3%nat * (c 0%nat * w 3%nat 0%nat + c 1%nat * w 3%nat 1%nat + c 2%nat * w 3%nat 2%nat + c 3%nat * w 3%nat 3%nat )).
  { unfold dot4 at 1. rewrite !X by lia. unfold w, dot4, V. ring. }
  assert (HX : forall i, (i < 4)%nat -> h i 0%nat * x 0%nat + h i 1%nat * x 1%nat + h i 2%nat * x 2%nat + h i 3%nat * x 3%nat = c 0%nat * l 0%nat * V 0%nat i + c 1%nat * l 1%nat * V 1%nat i + c 2%nat * l 2%nat * V 2%nat i + c 3%nat * l 3%nat * V 3%nat i).
  { intros i I. rewrite !X by lia. 
    transitivity (c 0%nat * (h i 0%nat * V 0%nat 0%nat + h i 1%nat * V 0%nat 1%nat + h i 2%nat * V 0%nat 2%nat + h i 3%nat * V 0%nat 3%nat ) + c 1%nat * (h i 0%nat * V 1%nat 0%nat + h i 1%nat * V 1%nat 1%nat + h i 2%nat * V 1%nat 2%nat + h i 3%nat * V 1%nat 3%nat )
      + c 2%nat * (h i 0%nat * V 2%nat 0%nat + h i 1%nat * V 2%nat 1%nat + h i 2%nat * V 2%nat 2%nat + h i 3%nat * V 2%nat 3%nat ) + c 3%nat * (h i 0%nat * V 3%nat 0%nat + h i 1%nat * V 3%nat 1%nat + h i 2%nat * V 3%nat 2%nat + h i 3%nat * V 3%nat 3%nat )); [unfold V; ring|].
    rewrite !EV by lia. ring. }
  assert (FX : form h x = c 0%nat * (c 0%nat * l 0%nat * w 0%nat 0%nat + c 1%nat * l 1%nat * w 0%nat 1%nat + c 2%nat * l 2%nat * w 0%nat 2%nat + c 3%nat * l 3%nat * w 0%nat 3%nat ) + c 1%nat * (c 0%nat * l 0%nat * w 1%nat 0%nat + c 1%nat * l 1%nat * w 1%nat 1%nat + c 2%nat * l 2%nat * w 1%nat 2%nat + c 3%nat * l 3%nat * w 1%nat 3%nat )
     + c 2%nat * (c 0%nat * l 0%nat * w 2%nat 0%nat + c 1%nat * l 1%nat * w 2%nat 1%nat + c 2%nat * l 2%nat * w 2%nat 2%nat + c 3%nat * l 3%nat * w 2%nat 3%nat ) + c 3%nat * (c 0%nat * l 0%nat * w 3%nat 0%nat + c 1%nat * l 1%nat * w 3%nat 1%nat + c 2%nat * l 2%nat * w 3%nat 2%nat + c 3%nat * l 3%nat * w 3%nat 3%nat )).
  { unfold form. cbv zeta. rewrite !HX by lia. rewrite !X by lia. unfold w, dot4, V. ring. }
  assert (YY : dot4 y y = c 0%nat * (c 0%nat * (r 0%nat * r 0%nat * w 0%nat 0%nat) + c 1%nat * (r 0%nat * r 1%nat * w 0%nat 1%nat) + c 2%nat * (r 0%nat * r 2%nat * w 0%nat 2%nat) + c 3%nat * (r 0%nat * r 3%nat * w 0%nat 3%nat) )
     + c 1%nat * (c 0%nat * (r 1%nat * r 0%nat * w 1%nat 0%nat) + c 1%nat * (r 1%nat * r 1%nat * w 1%nat 1%nat) + c 2%nat * (r 1%nat * r 2%nat * w 1%nat 2%nat) + c 3%nat * (r 1%nat * r 3%nat * w 1%nat 3%nat) )
     + c 2%nat * (c 0%nat * (r 2%nat * r 0%nat * w 2%nat 0%nat) + c 1%nat * (r 2%nat * r 1%nat * w 2%nat 1%nat) + c 2%nat * (r 2%nat * r 2%nat * w 2%nat 2%nat) + c 3%nat * (r 2%nat * r 3%nat * w 2%nat 3%nat) )
     + c 3%nat * (c 0%nat * (r 3%nat * r 0%nat * w 3%nat 0%nat) + c 1%nat * (r 3%nat * r 1%nat * w 3%nat 1%nat) + c 2%nat * (r 3%nat * r 2%nat * w 3%nat 2%nat) + c 3%nat * (r 3%nat * r 3%nat * w 3%nat 3%nat) )).
  { unfold y, w, dot4. ring. }
  unfold w in YY. rewrite !RR in YY by lia. fold w in YY.
  assert (Q : dot4 y y = mu * dot4 x x - form h x) by (rewrite YY, XX, FX; unfold w; ring). lra.
Qed.

Lemma argmax_ok l : (argmax4 l < 4)%nat /\ forall k, (k < 4)%nat -> l k <= l (argmax4 l).
Proof.
  unfold argmax4. cbn [fold_left].
  destruct (Rlt_dec (l 0%nat) (l 1%nat)); destruct (Rlt_dec _ (l 2%nat)); destruct (Rlt_dec _ (l 3%nat)); (split; [lia|]); intros k K; destruct k as [|[|[|[|k]]]]; try lia; lra.
Qed.

Definition qcoord (q : quat) (i : nat) : R := match i with 0%nat => qw q | 1%nat => qx q | 2%nat => qy q | _ => qz q end.
(** Horn's matrix measures how well a quaternion turns. *)
Lemma horn_form a b q : norm2 q = 1 -> let m := quaternion_matrix q in
  form (horn a b) (qcoord q) = agree (col m 0) (col m 1) (col m 2) a b.
Proof.
  intros N m. rewrite agree_covariance. cbv zeta. unfold col. cbn [vx vy vz]. unfold m. rewrite !(qmat_ext q N) by lia.
  unfold form, horn, covariance, qcoord. cbv zeta. 
  rewrite (cross_sum_swap (fun p => coord p 0) (fun p => coord p 0) b a), (cross_sum_swap (fun p => coord p 1) (fun p => coord p 0) b a), (cross_sum_swap (fun p => coord p 2) (fun p => coord p 0) b a),
    (cross_sum_swap (fun p => coord p 0) (fun p => coord p 1) b a), (cross_sum_swap (fun p => coord p 1) (fun p => coord p 1) b a), (cross_sum_swap (fun p => coord p 2) (fun p => coord p 1) b a),
    (cross_sum_swap (fun p => coord p 0) (fun p => coord p 2) b a), (cross_sum_swap (fun p => coord p 1) (fun p => coord p 2) b a), (cross_sum_swap (fun p => coord p 2) (fun p => coord p 2) b a).
  change (fun p => coord p 0) with vx. change (fun p => coord p 1) with vy. change (fun p => coord p 2) with vz.
  set (xx := cross_sum vx vx a b). set (xy := cross_sum vx vy a b). set (xz := cross_sum vx vz a b). set (yx := cross_sum vy vx a b). set (yy := cross_sum vy vy a b).
  set (yz := cross_sum vy vz a b). set (zx := cross_sum vz vx a b). set (zy := cross_sum vz vy a b). set (zz := cross_sum vz vz a b).
  clearbody xx xy xz yx yy yz zx zy zz. destruct q as [x y z w]. unfold norm2 in N. unfold qmat, rows4. cbn in N |- *.
  assert (N' : w * w = 1 - x * x - y * y - z * z) by lra.
  transitivity ((w * w + x * x - y * y - z * z) * xx + (w * w - x * x + y * y - z * z) * yy + (w * w - x * x - y * y + z * z) * zz + 2 * (w * x) * (yz - zy) + 2 * (w * y) * (zx - xz) + 2 * (w * z) * (xy - yx)
     + 2 * (x * y) * (xy + yx) + 2 * (x * z) * (zx + xz) + 2 * (y * z) * (yz + zy)); [ring|]. rewrite N'. field.
Qed.

Lemma rotation_frame m : rotation m -> frame3 (col m 0) (col m 1) (col m 2).
Proof.
  intros H. pose proof H as (O & D).
  assert (OO : ortho3 (col m 0) (col m 1) (col m 2)).
  { unfold ortho3, inner, col. cbn [vx vy vz]. pose proof (O 0 0)%nat as A. pose proof (O 1 1)%nat as B. pose proof (O 2 2)%nat as C. pose proof (O 0 1)%nat as E. pose proof (O 0 2)%nat as F. pose proof (O 1 2)%nat as G.
    unfold dot3, delta in *. cbn in *. rewrite A, B, C, E, F, G by lia. repeat (split; [reflexivity|]). reflexivity. }
  pose proof (ortho_frame _ _ _ OO) as F.
  assert (T : triple (col m 0) (col m 1) (col m 2) = 1) by (rewrite <- D; unfold triple, inner, vcross, col, det3, at4; cbn [vx vy vz]; ring).
  rewrite T in F. assert (I : forall x, times 1 x = x) by (intros; apply vec_eq; unfold times; cbn; ring). rewrite I in F. exact F.
Qed.
(** Every frame is that of a unit quaternion. *)
Lemma frame_quaternion e1 e2 e3 : frame3 e1 e2 e3 -> exists q, norm2 q = 1 /\ col (quaternion_matrix q) 0 = e1 /\ col (quaternion_matrix q) 1 = e2 /\ col (quaternion_matrix q) 2 = e3.
Proof.
  intros F. destruct (frame_ortho _ _ _ F) as ((A & B & C & D & E & G) & T).
  set (m := rows4 [[vx e1; vx e2; vx e3; 0]; [vy e1; vy e2; vy e3; 0]; [vz e1; vz e2; vz e3; 0]; [0; 0; 0; 1]]).
  assert (H : rotation m).
  { split.
    - assert (SY : forall u v, inner u v = inner v u) by (clear; intros; flatten; ring).
      intros i j I J. unfold dot3, delta, m, rows4.
      destruct i as [|[|[|i]]]; try lia; destruct j as [|[|[|j]]]; try lia; cbn;
        [exact A|exact D|exact E|rewrite <- D, (SY e1 e2); reflexivity|exact B|exact G|rewrite <- E, (SY e1 e3); reflexivity|rewrite <- G, (SY e2 e3); reflexivity|exact C].
    - rewrite <- T. unfold det3, at4, m, rows4, triple, inner, vcross. cbn. ring. }
  destruct (qm_from_matrix m H eq_refl) as (N & S). exists (quaternion_from_matrix m). split; [exact N|].
  unfold col. rewrite !S by lia. split; [|split]; apply vec_eq; reflexivity.
Qed.

Lemma eig_matrix_best eig a b : eigenvectors eig -> best (eig_matrix eig a b) a b.
Proof.
  intros G.
  assert (S : forall i j, (i < 4)%nat -> (j < 4)%nat -> horn a b i j = horn a b j i).
  { intros i j I J. unfold horn, rows4. destruct i as [|[|[|[|i]]]]; try lia; destruct j as [|[|[|[|j]]]]; try lia; reflexivity. }
  specialize (G (horn a b) S). unfold eig_matrix. destruct (eig (horn a b)) as [l v]. destruct G as (E & NZ & SP).
  destruct (argmax_ok l) as (K & M). set (k := argmax4 l) in *. clearbody k.
  set (n2 := v 0%nat k * v 0%nat k + v 1%nat k * v 1%nat k + v 2%nat k * v 2%nat k + v 3%nat k * v 3%nat k).
  assert (P : 0 < n2).
  { destruct (NZ k K) as (i & I & Z). unfold n2. pose proof (Rle_0_sqr (v 0%nat k)). pose proof (Rle_0_sqr (v 1%nat k)). pose proof (Rle_0_sqr (v 2%nat k)). pose proof (Rle_0_sqr (v 3%nat k)).
    assert (0 < Rsqr (v i k)) by (apply Rsqr_pos_lt; exact Z). unfold Rsqr in *. destruct i as [|[|[|[|i]]]]; try lia; lra. }
  set (n := sqrt n2). assert (NP : 0 < n) by (apply sqrt_lt_R0; exact P). assert (NN : n * n = n2) by (apply sqrt_sqrt; lra).
  set (q := Quat (v 1%nat k / n) (v 2%nat k / n) (v 3%nat k / n) (v 0%nat k / n)).
  assert (U : norm2 q = 1). { unfold norm2, q. cbn [qx qy qz qw]. transitivity (n2 / (n * n)); [unfold n2; field; lra|rewrite NN; field; lra]. }
  assert (VQ : form (horn a b) (qcoord q) = l k).
  { assert (Y : forall i, (i < 4)%nat -> horn a b i 0%nat * qcoord q 0 + horn a b i 1%nat * qcoord q 1 + horn a b i 2%nat * qcoord q 2 + horn a b i 3%nat * qcoord q 3 = l k * v i k / n).
    { intros i I. rewrite <- (E i k I K). unfold q, qcoord. cbn [qx qy qz qw]. field. lra. }
    unfold form. cbv zeta. rewrite !Y by lia. unfold q, qcoord. cbn [qx qy qz qw]. transitivity (l k * n2 / (n * n)); [unfold n2; field; lra|rewrite NN; field; lra]. }
  split.
  - apply rotation_frame. apply qm_rotation.
  - intros e1 e2 e3 F. destruct (frame_quaternion _ _ _ F) as (p & UP & <- & <- & <-). rewrite <- (horn_form a b p UP), <- (horn_form a b q U), VQ.
    destruct (SP (qcoord p)) as (c & X).
    pose proof (largest (horn a b) l v (l k) S E M (qcoord p) c X) as L.
    assert (D : dot4 (qcoord p) (qcoord p) = 1) by (rewrite <- UP; unfold dot4, qcoord, norm2; ring). rewrite D in L. lra.
Qed.
