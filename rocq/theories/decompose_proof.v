(** * Composed and decomposed matrices (C112). *)

From Coq Require Import List Reals Lra Lia Nsatz Arith Bool.
Import ListNotations.
From Verif Require Import Py transf_model transf_spec transf_euler affine_model affine_spec affine_proof affine2_proof decompose_model decompose_spec decompose_gs.
Local Open Scope R_scope.

(** ** Composition *)
(** A matrix whose last row is that of the identity is applied first. *)
Lemma row_mdot m a i p q : (i < 4)%nat -> a 3%nat 0%nat = 0 -> a 3%nat 1%nat = 0 -> a 3%nat 2%nat = 0 -> a 3%nat 3%nat = 1 ->
  vx q = row_at a 0 p -> vy q = row_at a 1 p -> vz q = row_at a 2 p -> row_at (mdot m a) i p = row_at m i q.
Proof.
  intros _ A B C D X Y Z. unfold row_at in *. rewrite X, Y, Z. unfold mdot. rewrite A, B, C, D. ring.
Qed.
Lemma rows_same m n : (forall i p, (i < 4)%nat -> row_at m i p = row_at n i p) -> same4 m n.
Proof.
  intros H i j HI HJ. pose proof (H i vzero HI) as Z. pose proof (H i (V3 1 0 0) HI) as X. pose proof (H i (V3 0 1 0) HI) as Y. pose proof (H i (V3 0 0 1) HI) as W.
  unfold row_at in *. cbn [vx vy vz vzero] in *. destruct j as [|[|[|[|j]]]]; try lia; lra.
Qed.

Definition unnormed (scale shear angles translate : option vec3) (perspective : option quad) : mat4 :=
  let m := identity4 in
  let m := match perspective with
           | None => m
           | Some q => mdot m (fun i j => if (i =? 3)%nat then quad_at q j else identity4 i j)
           end in
  let m := match translate with None => m | Some t => mdot m (set_column identity4 (coord t)) end in
  let m := match angles with None => m | Some a => mdot m (euler_matrix (vx a) (vy a) (vz a) sxyz) end in
  let m := match shear with
           | None => m
           | Some z => mdot m (set4 (set4 (set4 identity4 1 2 (vz z)) 0 2 (vy z)) 0 1 (vx z))
           end in
  match scale with
  | None => m
  | Some s => mdot m (set4 (set4 (set4 identity4 0 0 (vx s)) 1 1 (vy s)) 2 2 (vz s))
  end.
Lemma compose_unnormed s h a t q : compose_matrix s h a t q = normal_form (unnormed s h a t q).
Proof. reflexivity. Qed.

Definition weight_of (q : option quad) (p : vec3) : R := match q with Some q => weight q p | None => 1 end.
Lemma unnormed_rows s h a t q p : let x := moved_point s h a t p in let m := unnormed s h a t q in
  row_at m 0 p = vx x /\ row_at m 1 p = vy x /\ row_at m 2 p = vz x /\ row_at m 3 p = weight_of q x.
Proof.
  cbv zeta.
  set (base := match q with None => identity4 | Some q => mdot identity4 (fun i j => if (i =? 3)%nat then quad_at q j else identity4 i j) end).
  assert (B : forall x, row_at base 0 x = vx x /\ row_at base 1 x = vy x /\ row_at base 2 x = vz x /\ row_at base 3 x = weight_of q x).
  { intros x. unfold base, weight_of. destruct q as [[[[q0 q1] q2] q3]|]; unfold row_at, mdot, identity4, weight, quad_at; cbn; split; [ring|split; [ring|split; ring]|ring|split; [ring|split; ring]]. }
  assert (E : forall i, (i < 4)%nat -> row_at (unnormed s h a t q) i p = row_at base i (moved_point s h a t p)).
  { intros i L. unfold unnormed. fold base. clearbody base. unfold moved_point.
    assert (T : forall x, row_at (match t with None => base | Some t => mdot base (set_column identity4 (coord t)) end) i x = row_at base i (optionally (fun t q => vadd q t) t x)).
    { intros x. destruct t as [t|]; [|reflexivity]. cbn [optionally]. apply row_mdot; try exact L; try reflexivity; unfold row_at, set_column, identity4, coord, vadd; cbn; ring. }
    set (m1 := match t with None => base | Some t => _ end) in *. clearbody m1.
    assert (T2 : forall x, row_at (match a with None => m1 | Some a => mdot m1 (euler_matrix (vx a) (vy a) (vz a) sxyz) end) i x = row_at m1 i (optionally turned_xyz a x)).
    { intros x. destruct a as [a|]; [|reflexivity]. cbn [optionally].
      apply row_mdot; try exact L; try reflexivity; unfold row_at, euler_matrix, sxyz, set4, identity4, turned_xyz, turned_x, turned_y, turned_z; cbn; ring. }
    set (m2 := match a with None => m1 | Some a => _ end) in *. clearbody m2.
    assert (T3 : forall x, row_at (match h with None => m2 | Some z => mdot m2 (set4 (set4 (set4 identity4 1 2 (vz z)) 0 2 (vy z)) 0 1 (vx z)) end) i x = row_at m2 i (optionally sheared h x)).
    { intros x. destruct h as [h|]; [|reflexivity]. cbn [optionally]. apply row_mdot; try exact L; try reflexivity; unfold row_at, set4, identity4, sheared; cbn; ring. }
    set (m3 := match h with None => m2 | Some z => _ end) in *. clearbody m3.
    rewrite <- T, <- T2, <- T3. destruct s as [s|]; [|reflexivity]. cbn [optionally]. apply row_mdot; try exact L; try reflexivity; unfold row_at, set4, identity4, scaled; cbn; ring. }
  rewrite !E by lia. apply B.
Qed.

Lemma row_scaled m c i p : row_at (fun i j => m i j / c) i p = row_at m i p / c.
Proof. unfold row_at, Rdiv. ring. Qed.
Lemma last_weight s h a t q : unnormed s h a t q 3%nat 3%nat = weight_of q (moved_point s h a t vzero).
Proof.
  destruct (unnormed_rows s h a t q vzero) as (_ & _ & _ & H). rewrite <- H. unfold row_at. cbn. ring.
Qed.

Lemma compose_image s h a t q p p' : weight_of q (moved_point s h a t vzero) <> 0 ->
  let x := moved_point s h a t p in
  image (compose_matrix s h a t q) p p' <-> weight_of q x <> 0 /\ p' = times (/ weight_of q x) x.
Proof.
  intros W x. destruct (unnormed_rows s h a t q p) as (R0 & R1 & R2 & R3). fold x in R0, R1, R2, R3.
  rewrite image_value, compose_unnormed. unfold normal_form. rewrite !row_scaled, R0, R1, R2, R3, last_weight.
  set (c := weight_of q (moved_point s h a t vzero)) in *. set (w := weight_of q x). split.
  - intros (N & ->). assert (w <> 0) by (intros Z; apply N; rewrite Z; unfold Rdiv; ring).
    split; [assumption|]. apply vec_eq; unfold times; cbn; field; split; assumption.
  - intros (N & ->). split; [unfold Rdiv; intros Z; apply Rmult_integral in Z; destruct Z as [Z|Z]; [contradiction|revert Z; apply Rinv_neq_0_compat, W]|].
    apply vec_eq; unfold times; cbn; field; split; assumption.
Qed.

(** ** Decomposition *)
Notation cols m := (column3 (normal_form m)) (only parsing).
Definition triple_of (m : mat4) : R := triple (column3 (normal_form m) 0) (column3 (normal_form m) 1) (column3 (normal_form m) 2).
Lemma det_triple m : det4 (clear_column (fun i j => transposed m i j / m 3%nat 3%nat)) = triple_of m.
Proof. unfold det4, minor3, clear_column, transposed, triple_of, triple, inner, vcross, column3, normal_form. cbn. ring. Qed.

Definition last_row (m : mat4) : quad := (normal_form m 3%nat 0%nat, normal_form m 3%nat 1%nat, normal_form m 3%nat 2%nat, normal_form m 3%nat 3%nat).
(** The matrix without its perspective. *)
Definition affine_part (m : mat4) : mat4 := fun i j => if (i =? 3)%nat then (if (j =? 3)%nat then 1 else 0) else normal_form m i j.
Definition row_times (q : quad) (w : mat4) : quad :=
  let '(a, b, c, d) := q in let at_ j := a * w 0%nat j + b * w 1%nat j + c * w 2%nat j + d * w 3%nat j in (at_ 0%nat, at_ 1%nat, at_ 2%nat, at_ 3%nat).
Definition seen_dec (m : mat4) : bool :=
  let large i := if Rlt_dec EPS (Rabs (normal_form m 3%nat i)) then true else false in (large 0%nat || large 1%nat || large 2%nat)%bool.
Lemma seen_dec_iff m : seen_dec m = true <-> seen m.
Proof.
  unfold seen_dec, seen. split.
  - destruct (Rlt_dec EPS (Rabs (normal_form m 3%nat 0%nat))); [exists 0%nat; auto|]. destruct (Rlt_dec EPS (Rabs (normal_form m 3%nat 1%nat))); [exists 1%nat; auto|].
    destruct (Rlt_dec EPS (Rabs (normal_form m 3%nat 2%nat))); [exists 2%nat; auto|discriminate].
  - intros (i & L & H). destruct i as [|[|[|i]]]; [| | |lia]; destruct (Rlt_dec _ _) as [?|N] at 1; try reflexivity.
    + contradiction.
    + destruct (Rlt_dec EPS (Rabs (normal_form m 3%nat 1%nat))); [reflexivity|contradiction].
    + destruct (Rlt_dec EPS (Rabs (normal_form m 3%nat 1%nat))); [reflexivity|]. destruct (Rlt_dec EPS (Rabs (normal_form m 3%nat 2%nat))); [reflexivity|contradiction].
Qed.

Lemma decompose_value inv m : ~ Rabs (m 3%nat 3%nat) < EPS ->
  decompose_matrix inv m = if Req_EM_T (triple_of m) 0 then Err ValueError else
    let '(s, h, (r0, r1, r2)) := gram (column3 (normal_form m) 0) (column3 (normal_form m) 1) (column3 (normal_form m) 2) in
    Ok (Parts s h (angles_of r0 r1 r2) (column3 (normal_form m) 3) (if seen_dec m then row_times (last_row m) (inv (transposed (clear_column (fun i j => transposed m i j / m 3%nat 3%nat)))) else (0, 0, 0, 1))).
Proof.
  intros N. unfold decompose_matrix. change (transposed m 3%nat 3%nat) with (m 3%nat 3%nat).
  destruct (Rlt_dec (Rabs (m 3%nat 3%nat)) EPS); [contradiction|]. cbv zeta. rewrite det_triple. destruct (Req_EM_T (triple_of m) 0); [reflexivity|].
  unfold seen_dec. change (transposed m 0%nat 3%nat / m 3%nat 3%nat) with (normal_form m 3%nat 0%nat).
  change (transposed m 1%nat 3%nat / m 3%nat 3%nat) with (normal_form m 3%nat 1%nat). change (transposed m 2%nat 3%nat / m 3%nat 3%nat) with (normal_form m 3%nat 2%nat).
  change (transposed m 3%nat 3%nat / m 3%nat 3%nat) with (normal_form m 3%nat 3%nat).
  unfold gram. 
  destruct (_ || _ || _)%bool; cbv zeta beta iota; cbn [row3 clear_column Nat.eqb];
    repeat match goal with |- context [row3 ?a ?b] => change (row3 a b) with (column3 (normal_form m) b) end;
    destruct (Rlt_dec _ 0); reflexivity.
Qed.

Lemma affine_invertible m : triple_of m <> 0 -> exists b, same4 (mdot b (affine_part m)) identity4.
Proof.
  unfold triple_of. set (c0 := column3 (normal_form m) 0). set (c1 := column3 (normal_form m) 1). set (c2 := column3 (normal_form m) 2). set (t := column3 (normal_form m) 3).
  set (D := triple c0 c1 c2). intros N.
  set (b0 := times (/ D) (vcross c1 c2)). set (b1 := times (/ D) (vcross c2 c0)). set (b2 := times (/ D) (vcross c0 c1)).
  set (row := fun i => match i with 0%nat => b0 | 1%nat => b1 | _ => b2 end).
  exists (fun i j => if (i =? 3)%nat then (if (j =? 3)%nat then 1 else 0) else if (j =? 3)%nat then - inner (row i) t else coord (row i) j).
  assert (X : forall u c, inner (times (/ D) u) c = inner u c / D) by (intros; rewrite inner_times; unfold Rdiv; ring).
  assert (A00 : inner b0 c0 = 1) by (unfold b0; rewrite X; replace (inner (vcross c1 c2) c0) with D; [field; exact N|unfold D; clear; flatten; ring]).
  assert (A11 : inner b1 c1 = 1) by (unfold b1; rewrite X; replace (inner (vcross c2 c0) c1) with D; [field; exact N|unfold D; clear; flatten; ring]).
  assert (A22 : inner b2 c2 = 1) by (unfold b2; rewrite X; replace (inner (vcross c0 c1) c2) with D; [field; exact N|unfold D; clear; flatten; ring]).
  assert (A01 : inner b0 c1 = 0) by (unfold b0; rewrite X; replace (inner (vcross c1 c2) c1) with 0; [field; exact N|clear; flatten; ring]).
  assert (A02 : inner b0 c2 = 0) by (unfold b0; rewrite X; replace (inner (vcross c1 c2) c2) with 0; [field; exact N|clear; flatten; ring]).
  assert (A10 : inner b1 c0 = 0) by (unfold b1; rewrite X; replace (inner (vcross c2 c0) c0) with 0; [field; exact N|clear; flatten; ring]).
  assert (A12 : inner b1 c2 = 0) by (unfold b1; rewrite X; replace (inner (vcross c2 c0) c2) with 0; [field; exact N|clear; flatten; ring]).
  assert (A20 : inner b2 c0 = 0) by (unfold b2; rewrite X; replace (inner (vcross c0 c1) c0) with 0; [field; exact N|clear; flatten; ring]).
  assert (A21 : inner b2 c1 = 0) by (unfold b2; rewrite X; replace (inner (vcross c0 c1) c1) with 0; [field; exact N|clear; flatten; ring]).
  clearbody b0 b1 b2. clear X N D. unfold inner in *.
  entries; unfold mdot, affine_part, identity4, inner, coord, row, c0, c1, c2, t, column3 in *; cbn in *; lra.
Qed.

Lemma inverse_row q w a x : same4 (mdot w a) identity4 -> a 3%nat 0%nat = 0 -> a 3%nat 1%nat = 0 -> a 3%nat 2%nat = 0 -> a 3%nat 3%nat = 1 ->
  weight (row_times q w) (V3 (row_at a 0 x) (row_at a 1 x) (row_at a 2 x)) = weight q x.
Proof.
  intros H A B C D. destruct q as [[[q0 q1] q2] q3].
  assert (K : forall i, (i < 4)%nat -> w i 0%nat * row_at a 0 x + w i 1%nat * row_at a 1 x + w i 2%nat * row_at a 2 x + w i 3%nat = row_at identity4 i x).
  { intros i L. unfold row_at. rewrite <- !(H i) by lia. unfold mdot. rewrite A, B, C, D. ring. }
  pose proof (K 0%nat ltac:(lia)) as K0. pose proof (K 1%nat ltac:(lia)) as K1. pose proof (K 2%nat ltac:(lia)) as K2. pose proof (K 3%nat ltac:(lia)) as K3.
  unfold weight, row_times. cbn [vx vy vz]. unfold identity4 in *. set (r0 := row_at a 0 x) in *. set (r1 := row_at a 1 x) in *. set (r2 := row_at a 2 x) in *.
  unfold row_at in K0, K1, K2, K3. cbn in K0, K1, K2, K3.
  transitivity (q0 * (w 0%nat 0%nat * r0 + w 0%nat 1%nat * r1 + w 0%nat 2%nat * r2 + w 0%nat 3%nat) + q1 * (w 1%nat 0%nat * r0 + w 1%nat 1%nat * r1 + w 1%nat 2%nat * r2 + w 1%nat 3%nat)
     + q2 * (w 2%nat 0%nat * r0 + w 2%nat 1%nat * r1 + w 2%nat 2%nat * r2 + w 2%nat 3%nat) + q3 * (w 3%nat 0%nat * r0 + w 3%nat 1%nat * r1 + w 3%nat 2%nat * r2 + w 3%nat 3%nat)); [ring|].
  rewrite K0, K1, K2, K3. ring.
Qed.

Lemma eps_pos : 0 < EPS.
Proof. unfold EPS. apply Rdiv_lt_0_compat; [lra|apply pow_lt; lra]. Qed.
Lemma nonzero33 (m : mat4) : ~ Rabs (m 3%nat 3%nat) < EPS -> m 3%nat 3%nat <> 0.
Proof. intros N Z. apply N. rewrite Z, Rabs_R0. exact eps_pos. Qed.

(** What is returned. *)
Lemma decompose_ok inv m p : decompose_matrix inv m = Ok p ->
  ~ Rabs (m 3%nat 3%nat) < EPS /\ triple_of m <> 0 /\
  exists r0 r1 r2, frame3 r0 r1 r2 /\ made (p_scale p) (p_shear p) r0 r1 r2 (column3 (normal_form m) 0) (column3 (normal_form m) 1) (column3 (normal_form m) 2) /\
    one_sign (p_scale p) /\ (0 < vx (p_scale p) <-> 0 < triple_of m) /\ p_angles p = angles_of r0 r1 r2 /\ p_translate p = column3 (normal_form m) 3 /\
    p_perspective p = if seen_dec m then row_times (last_row m) (inv (affine_part m)) else (0, 0, 0, 1).
Proof.
  intros H. assert (N : ~ Rabs (m 3%nat 3%nat) < EPS).
  { intros L. unfold decompose_matrix in H. change (transposed m 3%nat 3%nat) with (m 3%nat 3%nat) in H. destruct (Rlt_dec (Rabs (m 3%nat 3%nat)) EPS); [discriminate|contradiction]. }
  split; [exact N|]. rewrite (decompose_value inv m N) in H. destruct (Req_EM_T (triple_of m) 0) as [|T]; [discriminate|]. split; [exact T|].
  pose proof (gram_made _ _ _ T) as G. destruct (gram _ _ _) as [[s h] [[r0 r1] r2]]. destruct G as (F & M & O & S).
  injection H as <-. exists r0, r1, r2. cbn [p_scale p_shear p_angles p_translate p_perspective]. do 5 (split; [assumption || reflexivity|]). split; reflexivity.
Qed.

Lemma moved_made s h a t r0 r1 r2 c0 c1 c2 x : col0 a = r0 -> col1 a = r1 -> col2 a = r2 -> made s h r0 r1 r2 c0 c1 c2 ->
  moved_point (Some s) (Some h) (Some a) (Some t) x = vadd (vadd (times (vx x) c0) (vadd (times (vy x) c1) (times (vz x) c2))) t.
Proof.
  intros A B C (-> & -> & ->). unfold moved_point, optionally. rewrite turned_cols, A, B, C. clear.
  unfold sheared, scaled. apply vec_eq; unfold vadd, times; cbn [vx vy vz]; ring.
Qed.

Lemma back_rows inv m p x : inverts inv -> decompose_matrix inv m = Ok p ->
  let n := unnormed (Some (p_scale p)) (Some (p_shear p)) (Some (p_angles p)) (Some (p_translate p)) (Some (p_perspective p)) in
  (forall i, (i < 3)%nat -> row_at n i x = row_at (normal_form m) i x) /\ row_at n 3 x = if seen_dec m then row_at (normal_form m) 3 x else 1.
Proof.
  intros I H. destruct (decompose_ok _ _ _ H) as (N & T & r0 & r1 & r2 & F & M & _ & _ & A & L & P). apply nonzero33 in N.
  destruct (angles_cols _ _ _ F) as (A0 & A1 & A2). rewrite <- A in A0, A1, A2.
  intros n. destruct (unnormed_rows (Some (p_scale p)) (Some (p_shear p)) (Some (p_angles p)) (Some (p_translate p)) (Some (p_perspective p)) x) as (R0 & R1 & R2 & R3).
  fold n in R0, R1, R2, R3. rewrite (moved_made _ _ _ _ _ _ _ _ _ _ x A0 A1 A2 M), L in *.
  assert (Y : vadd (vadd (times (vx x) (column3 (normal_form m) 0)) (vadd (times (vy x) (column3 (normal_form m) 1)) (times (vz x) (column3 (normal_form m) 2)))) (column3 (normal_form m) 3)
              = V3 (row_at (normal_form m) 0 x) (row_at (normal_form m) 1 x) (row_at (normal_form m) 2 x)).
  { apply vec_eq; unfold vadd, times, column3, row_at; cbn [vx vy vz]; ring. }
  rewrite Y in *. cbn [vx vy vz] in *. split.
  - intros i LI. destruct i as [|[|[|i]]]; [exact R0|exact R1|exact R2|lia].
  - rewrite R3, P. cbn [weight_of]. destruct (seen_dec m).
    + destruct (affine_invertible m T) as (b & B).
      change (V3 (row_at (normal_form m) 0 x) (row_at (normal_form m) 1 x) (row_at (normal_form m) 2 x)) with
        (V3 (row_at (affine_part m) 0 x) (row_at (affine_part m) 1 x) (row_at (affine_part m) 2 x)).
      rewrite inverse_row; [unfold last_row, weight, row_at; reflexivity|exact (I _ _ B)|reflexivity|reflexivity|reflexivity|reflexivity].
    + unfold weight. ring.
Qed.

Lemma normal33 m : m 3%nat 3%nat <> 0 -> normal_form m 3%nat 3%nat = 1.
Proof. intros N. unfold normal_form. field. exact N. Qed.

(** Everything but a perspective that is not seen comes back. *)
Lemma back_matrix inv m p : inverts inv -> decompose_matrix inv m = Ok p ->
  (forall i j, (i < 3)%nat -> (j < 4)%nat -> compose_parts p i j = normal_form m i j) /\
  (seen m \/ no_perspective m -> same4 (compose_parts p) (normal_form m)) /\
  (~ seen m -> forall j, (j < 4)%nat -> compose_parts p 3%nat j = identity4 3%nat j).
Proof.
  intros I H. destruct (decompose_ok _ _ _ H) as (N & _). apply nonzero33 in N. pose proof (normal33 m N) as N1.
  set (n := unnormed (Some (p_scale p)) (Some (p_shear p)) (Some (p_angles p)) (Some (p_translate p)) (Some (p_perspective p))).
  assert (B : forall x, (forall i, (i < 3)%nat -> row_at n i x = row_at (normal_form m) i x) /\ row_at n 3 x = if seen_dec m then row_at (normal_form m) 3 x else 1)
    by (intros x; exact (back_rows inv m p x I H)).
  assert (W : n 3%nat 3%nat = 1).
  { pose proof (proj2 (B vzero)) as Z. unfold row_at in Z. cbn [vx vy vz vzero] in Z. destruct (seen_dec m); lra. }
  assert (E : forall i j, compose_parts p i j = n i j) by (intros i j; unfold compose_parts; rewrite compose_unnormed; unfold normal_form; fold n; rewrite W; field).
  set (k := fun i j => if (i =? 3)%nat then (if seen_dec m then normal_form m 3%nat j else identity4 3%nat j) else normal_form m i j).
  assert (S : same4 n k).
  { apply rows_same. intros i x L. destruct (B x) as (B1 & B2). destruct (Nat.eq_dec i 3) as [-> |Q].
    - rewrite B2. unfold row_at, k, identity4. cbn. destruct (seen_dec m); [reflexivity|]. ring.
    - rewrite B1 by lia. unfold row_at, k. replace (i =? 3)%nat with false by (symmetry; apply Nat.eqb_neq; exact Q). reflexivity. }
  split; [|split].
  - intros i j LI LJ. rewrite E, S by lia. unfold k. replace (i =? 3)%nat with false by (symmetry; apply Nat.eqb_neq; lia). reflexivity.
  - intros C i j LI LJ. rewrite E, S by assumption. unfold k. destruct (Nat.eq_dec i 3) as [-> |Q].
    + cbn [Nat.eqb]. destruct (seen_dec m) eqn:SD; [reflexivity|]. destruct C as [C|C]; [apply seen_dec_iff in C; congruence|].
      unfold identity4. destruct j as [|[|[|[|j]]]]; try lia; cbn; [| | |symmetry; exact N1]; unfold normal_form; rewrite C by lia; unfold Rdiv; ring.
    + replace (i =? 3)%nat with false by (symmetry; apply Nat.eqb_neq; exact Q). reflexivity.
  - intros NS j LJ. rewrite E, S by lia. unfold k. cbn [Nat.eqb]. destruct (seen_dec m) eqn:SD; [apply seen_dec_iff in SD; contradiction|reflexivity].
Qed.

(** ** Which matrices are rejected *)
Lemma times_zero t u : t <> 0 -> times t u = vzero -> u = vzero.
Proof.
  intros T E. apply vec_eq; [apply (f_equal vx) in E|apply (f_equal vy) in E|apply (f_equal vz) in E]; unfold times in E; cbn in *;
    (apply Rmult_integral in E; destruct E; [contradiction|assumption]).
Qed.
Definition combo (u c0 c1 c2 : vec3) : vec3 := vadd (times (vx u) c0) (vadd (times (vy u) c1) (times (vz u) c2)).
Lemma dependent c0 c1 c2 : triple c0 c1 c2 = 0 <-> exists u, u <> vzero /\ combo u c0 c1 c2 = vzero.
Proof.
  split.
  - intros T. 
    assert (PROBE : forall u, u <> vzero -> combo u c0 c1 c2 = vzero -> exists u, u <> vzero /\ combo u c0 c1 c2 = vzero) by (intros u A B; exists u; auto).
    assert (ADJ : forall e, combo (V3 (inner e (vcross c1 c2)) (inner e (vcross c2 c0)) (inner e (vcross c0 c1))) c0 c1 c2 = times (triple c0 c1 c2) e)
      by (intros e; unfold combo; apply vec_eq; flatten; ring).
    destruct (zero_dec (V3 (inner (V3 1 0 0) (vcross c1 c2)) (inner (V3 1 0 0) (vcross c2 c0)) (inner (V3 1 0 0) (vcross c0 c1)))) as [X|X];
      [|apply (PROBE _ X); rewrite ADJ, T; apply vec_eq; unfold times, vzero; cbn; ring].
    destruct (zero_dec (V3 (inner (V3 0 1 0) (vcross c1 c2)) (inner (V3 0 1 0) (vcross c2 c0)) (inner (V3 0 1 0) (vcross c0 c1)))) as [Y|Y];
      [|apply (PROBE _ Y); rewrite ADJ, T; apply vec_eq; unfold times, vzero; cbn; ring].
    destruct (zero_dec (V3 (inner (V3 0 0 1) (vcross c1 c2)) (inner (V3 0 0 1) (vcross c2 c0)) (inner (V3 0 0 1) (vcross c0 c1)))) as [Z|Z];
      [|apply (PROBE _ Z); rewrite ADJ, T; apply vec_eq; unfold times, vzero; cbn; ring].
    apply (f_equal vz) in X. apply (f_equal vz) in Y. apply (f_equal vz) in Z. clear T ADJ.
    destruct (zero_dec c0) as [C|C].
    + apply (PROBE (V3 1 0 0)); [intros E; apply (f_equal vx) in E; cbn in E; lra|]. rewrite C. unfold combo. apply vec_eq; unfold vadd, times, vzero; cbn; ring.
    + apply (PROBE (V3 (inner c0 c1) (- inner c0 c0) 0)).
      * intros E. apply (f_equal vy) in E. cbn in E. pose proof (inner_pos _ C). lra.
      * clear C PROBE. unfold combo. apply vec_eq; flatten; nsatz.
  - intros (u & N & E). destruct (Req_dec (triple c0 c1 c2) 0) as [|T]; [assumption|]. exfalso. apply N. apply (times_zero (triple c0 c1 c2)); [exact T|].
    transitivity (V3 (inner (combo u c0 c1 c2) (vcross c1 c2)) (inner (combo u c0 c1 c2) (vcross c2 c0)) (inner (combo u c0 c1 c2) (vcross c0 c1))).
    + unfold combo. clear. apply vec_eq; flatten; ring.
    + rewrite E. clear. apply vec_eq; flatten; ring.
Qed.

Lemma flat_triple m : m 3%nat 3%nat <> 0 -> (triple_of m = 0 <-> flat m).
Proof.
  intros N. assert (K : forall j, column3 (normal_form m) j = times (/ m 3%nat 3%nat) (column3 m j)) by (intros; unfold column3, normal_form, times, Rdiv; cbn; f_equal; ring).
  unfold triple_of. rewrite dependent. unfold flat. split; intros (u & U & E); exists u; (split; [exact U|]).
  - apply (times_zero (/ m 3%nat 3%nat)); [apply Rinv_neq_0_compat, N|]. rewrite <- E. unfold combo. rewrite !K. clear. apply vec_eq; unfold vadd, times; cbn; ring.
  - unfold combo. rewrite !K. transitivity (times (/ m 3%nat 3%nat) (vadd (times (vx u) (column3 m 0)) (vadd (times (vy u) (column3 m 1)) (times (vz u) (column3 m 2))))).
    + clear. apply vec_eq; unfold vadd, times; cbn; ring.
    + rewrite E. apply vec_eq; unfold times, vzero; cbn; ring.
Qed.

Lemma decompose_rejects inv m : decompose_matrix inv m = Err ValueError <-> Rabs (m 3%nat 3%nat) < EPS \/ flat m.
Proof.
  destruct (Rlt_dec (Rabs (m 3%nat 3%nat)) EPS) as [L|N].
  - split; [left; exact L|]. intros _. unfold decompose_matrix. change (transposed m 3%nat 3%nat) with (m 3%nat 3%nat). destruct (Rlt_dec (Rabs (m 3%nat 3%nat)) EPS); [reflexivity|contradiction].
  - rewrite (decompose_value inv m N). rewrite <- (flat_triple m (nonzero33 m N)). destruct (Req_EM_T (triple_of m) 0) as [E|E].
    + split; auto.
    + destruct (gram _ _ _) as [[s h] [[r0 r1] r2]]. split; [discriminate|]. intros [|]; contradiction.
Qed.
Lemma decompose_total inv m : decompose_matrix inv m = Err ValueError \/ exists p, decompose_matrix inv m = Ok p.
Proof.
  destruct (Rlt_dec (Rabs (m 3%nat 3%nat)) EPS) as [L|N]; [left; apply decompose_rejects; left; exact L|].
  rewrite (decompose_value inv m N). destruct (Req_EM_T (triple_of m) 0); [left; reflexivity|]. destruct (gram _ _ _) as [[s h] [[r0 r1] r2]]. right. eexists. reflexivity.
Qed.

(** ** A decomposed composition *)
Lemma made_cols s h a t j : (j < 3)%nat ->
  column3 (compose_matrix (Some s) (Some h) (Some a) (Some t) None) j =
  match j with 0%nat => times (vx s) (col0 a) | 1%nat => times (vy s) (vadd (times (vx h) (col0 a)) (col1 a)) | _ => times (vz s) (vadd (times (vy h) (col0 a)) (vadd (times (vz h) (col1 a)) (col2 a))) end.
Proof.
  intros L. rewrite compose_unnormed. set (n := unnormed (Some s) (Some h) (Some a) (Some t) None).
  assert (W : n 3%nat 3%nat = 1) by (unfold n; rewrite last_weight; reflexivity).
  assert (R : forall x, row_at n 0 x = vx (moved_point (Some s) (Some h) (Some a) (Some t) x) /\ row_at n 1 x = vy (moved_point (Some s) (Some h) (Some a) (Some t) x) /\ row_at n 2 x = vz (moved_point (Some s) (Some h) (Some a) (Some t) x)).
  { intros x. destruct (unnormed_rows (Some s) (Some h) (Some a) (Some t) None x) as (A & B & C & _). auto. }
  assert (M : forall x, moved_point (Some s) (Some h) (Some a) (Some t) x = vadd (vadd (times (vx x) (times (vx s) (col0 a))) (vadd (times (vy x) (times (vy s) (vadd (times (vx h) (col0 a)) (col1 a))))
    (times (vz x) (times (vz s) (vadd (times (vy h) (col0 a)) (vadd (times (vz h) (col1 a)) (col2 a))))))) t).
  { intros x. apply (moved_made s h a t (col0 a) (col1 a) (col2 a)); try reflexivity. split; [reflexivity|split; reflexivity]. }
  destruct (R vzero) as (Z0 & Z1 & Z2). destruct (R (V3 1 0 0)) as (X0 & X1 & X2). destruct (R (V3 0 1 0)) as (Y0 & Y1 & Y2). destruct (R (V3 0 0 1)) as (V0 & V1 & V2).
  rewrite M in *. clear M R. unfold row_at in *. clearbody n. unfold column3, normal_form. rewrite W.
  set (u0 := times (vx s) (col0 a)) in *. set (u1 := times (vy s) (vadd (times (vx h) (col0 a)) (col1 a))) in *. set (u2 := times (vz s) (vadd (times (vy h) (col0 a)) (vadd (times (vz h) (col1 a)) (col2 a)))) in *.
  clearbody u0 u1 u2. unfold vadd, times, vzero in *. cbn [vx vy vz] in *.
  destruct j as [|[|[|j]]]; try lia; apply vec_eq; cbn [vx vy vz]; lra.
Qed.

Lemma compose_last s h a t : column3 (compose_matrix (Some s) (Some h) (Some a) (Some t) None) 3 = t /\ no_perspective (compose_matrix (Some s) (Some h) (Some a) (Some t) None) /\
  compose_matrix (Some s) (Some h) (Some a) (Some t) None 3%nat 3%nat = 1.
Proof.
  rewrite compose_unnormed. set (n := unnormed (Some s) (Some h) (Some a) (Some t) None).
  assert (W : n 3%nat 3%nat = 1) by (unfold n; rewrite last_weight; reflexivity).
  assert (R : forall x, row_at n 3 x = 1) by (intros x; destruct (unnormed_rows (Some s) (Some h) (Some a) (Some t) None x) as (_ & _ & _ & C); exact C).
  destruct (unnormed_rows (Some s) (Some h) (Some a) (Some t) None vzero) as (A & B & C & _). fold n in A, B, C.
  assert (Z : moved_point (Some s) (Some h) (Some a) (Some t) vzero = t).
  { unfold moved_point, optionally. rewrite turned_cols. apply vec_eq; unfold vadd, times, sheared, scaled, vzero; cbn [vx vy vz]; ring. }
  rewrite Z in *. clearbody n. split; [|split].
  - unfold column3, normal_form. rewrite W. unfold row_at in *. cbn [vx vy vz vzero] in *. apply vec_eq; cbn; lra.
  - pose proof (R vzero) as R0. pose proof (R (V3 1 0 0)) as RX. pose proof (R (V3 0 1 0)) as RY. pose proof (R (V3 0 0 1)) as RZ. unfold row_at in *. cbn [vx vy vz vzero] in *.
    intros i L. unfold normal_form. rewrite W. destruct i as [|[|[|i]]]; try lia; lra.
  - unfold normal_form. rewrite W. field.
Qed.

Lemma not_seen m : no_perspective m -> seen_dec m = false.
Proof.
  intros N. unfold seen_dec, normal_form. cbv zeta beta. rewrite (N 0%nat), (N 1%nat), (N 2%nat) by lia. unfold Rdiv. rewrite !Rmult_0_l, !Rabs_R0. pose proof eps_pos. destruct (Rlt_dec EPS 0); [lra|reflexivity].
Qed.

Lemma decompose_compose inv s h a t : one_sign s ->
  exists a', decompose_matrix inv (compose_matrix (Some s) (Some h) (Some a) (Some t) None) = Ok (Parts s h a' t (0, 0, 0, 1)) /\
    (forall x, turned_xyz a' x = turned_xyz a x) /\ (no_angle_lost a -> a' = a).
Proof.
  intros O. set (m := compose_matrix (Some s) (Some h) (Some a) (Some t) None).
  destruct (compose_last s h a t) as (L & NP & W). fold m in L, NP, W.
  assert (NF : forall i j, normal_form m i j = m i j) by (intros; unfold normal_form; rewrite W; field).
  assert (C : forall j, column3 (normal_form m) j = column3 m j) by (intros; unfold column3; rewrite !NF; reflexivity).
  assert (M : made s h (col0 a) (col1 a) (col2 a) (column3 (normal_form m) 0) (column3 (normal_form m) 1) (column3 (normal_form m) 2)).
  { rewrite !C. unfold m. rewrite !made_cols by lia. split; [reflexivity|split; reflexivity]. }
  pose proof (made_triple _ _ _ _ _ _ _ _ (cols_frame a) M) as T.
  assert (TN : triple_of m <> 0).
  { unfold triple_of. rewrite T. intros Z. apply Rmult_integral in Z. destruct Z as [Z|Z]; [apply Rmult_integral in Z|]; destruct O; intuition lra. }
  assert (N : ~ Rabs (m 3%nat 3%nat) < EPS).
  { rewrite W, Rabs_R1. assert (EPS < 1); [|lra]. unfold EPS. apply (Rmult_lt_reg_r (2 ^ 52)); [apply pow_lt; lra|]. unfold Rdiv. rewrite Rmult_assoc, Rinv_l by (apply pow_nonzero; lra). lra. }
  pose proof (gram_made _ _ _ TN) as G. pose proof (decompose_value inv m N) as D. destruct (Req_EM_T (triple_of m) 0); [contradiction|].
  destruct (gram _ _ _) as [[s' h'] [[r0 r1] r2]]. destruct G as (F & M' & O' & _).
  destruct (made_unique _ _ _ _ _ _ _ _ _ _ _ _ _ F (cols_frame a) M' M O' O) as (-> & -> & -> & -> & ->).
  rewrite (not_seen m NP), C, L in D. eexists. split; [exact D|]. split.
  - intros x. destruct (angles_cols _ _ _ F) as (A0 & A1 & A2). rewrite (turned_cols (angles_of _ _ _)), A0, A1, A2. symmetry. apply turned_cols.
  - apply angles_back.
Qed.

(** ** Any perspective *)
Lemma perspective_column s h a t q j : (j < 3)%nat ->
  column3 (compose_matrix (Some s) (Some h) (Some a) (Some t) (Some q)) j =
  times (/ weight q t) (column3 (compose_matrix (Some s) (Some h) (Some a) (Some t) None) j).
Proof.
  intros L. rewrite !compose_unnormed. unfold column3, normal_form. rewrite !last_weight. cbn [weight_of].
  assert (Z : moved_point (Some s) (Some h) (Some a) (Some t) vzero = t).
  { unfold moved_point, optionally. rewrite turned_cols. apply vec_eq; unfold vadd, times, sheared, scaled, vzero; cbn [vx vy vz]; ring. }
  rewrite Z.
  assert (E : forall i, (i < 3)%nat -> unnormed (Some s) (Some h) (Some a) (Some t) (Some q) i j = unnormed (Some s) (Some h) (Some a) (Some t) None i j).
  { intros i LI. set (n := unnormed (Some s) (Some h) (Some a) (Some t) (Some q)). set (n' := unnormed (Some s) (Some h) (Some a) (Some t) None).
    assert (R : forall x, row_at n i x = row_at n' i x).
    { intros x. destruct (unnormed_rows (Some s) (Some h) (Some a) (Some t) (Some q) x) as (A & B & C & _). destruct (unnormed_rows (Some s) (Some h) (Some a) (Some t) None x) as (A' & B' & C' & _).
      fold n in A, B, C. fold n' in A', B', C'. destruct i as [|[|[|i]]]; try lia; congruence. }
    pose proof (R vzero) as R0. pose proof (R (V3 1 0 0)) as RX. pose proof (R (V3 0 1 0)) as RY. pose proof (R (V3 0 0 1)) as RZ. clearbody n n'. unfold row_at in *. cbn [vx vy vz vzero] in *.
    destruct j as [|[|[|j]]]; try lia; lra. }
  rewrite !E by lia. unfold times, Rdiv. cbn [vx vy vz]. rewrite Rinv_1. f_equal; ring.
Qed.

Lemma compose_flat s h a t q : weight q t <> 0 ->
  let m := compose_matrix (Some s) (Some h) (Some a) (Some t) (Some q) in
  m 3%nat 3%nat = 1 /\ (flat m <-> vx s = 0 \/ vy s = 0 \/ vz s = 0).
Proof.
  intros W m.
  assert (Z : moved_point (Some s) (Some h) (Some a) (Some t) vzero = t).
  { unfold moved_point, optionally. rewrite turned_cols. apply vec_eq; unfold vadd, times, sheared, scaled, vzero; cbn [vx vy vz]; ring. }
  assert (N : m 3%nat 3%nat = 1). { unfold m. rewrite compose_unnormed. apply normal33. rewrite last_weight, Z. exact W. }
  split; [exact N|]. rewrite <- flat_triple by (rewrite N; lra).
  assert (C : forall j, (j < 3)%nat -> column3 (normal_form m) j = times (/ weight q t) (column3 (compose_matrix (Some s) (Some h) (Some a) (Some t) None) j)).
  { intros j L. rewrite <- (perspective_column s h a t q j L). fold m. unfold column3, normal_form. rewrite N. f_equal; field. }
  assert (T : triple_of m = / weight q t * / weight q t * / weight q t * (vx s * vy s * vz s)).
  { unfold triple_of. rewrite !C by lia. rewrite !made_cols by lia.
    rewrite <- (made_triple s h (col0 a) (col1 a) (col2 a) _ _ _ (cols_frame a) (conj eq_refl (conj eq_refl eq_refl))).
    set (c0 := times (vx s) (col0 a)). set (c1 := times (vy s) _). set (c2 := times (vz s) _). clearbody c0 c1 c2. clear. set (k := / weight q t). clearbody k. clear q. flatten. ring. }
  rewrite T. assert (K : / weight q t <> 0) by (apply Rinv_neq_0_compat, W). split.
  - intros E. apply Rmult_integral in E. destruct E as [E|E].
    + exfalso. apply Rmult_integral in E. destruct E as [E|E]; [apply Rmult_integral in E; destruct E|]; contradiction.
    + apply Rmult_integral in E. destruct E as [E|E]; [apply Rmult_integral in E; tauto|tauto].
  - intros [E|[E|E]]; rewrite E; ring.
Qed.

(** ** Ranges of the angles *)
Lemma atan2_range y x : - PI < atan2 y x <= PI.
Proof.
  pose proof PI_RGT_0 as P. unfold atan2. pose proof (atan_bound (y / x)) as B.
  destruct (Rlt_dec 0 x) as [X|X]; [lra|]. destruct (Rlt_dec x 0) as [N|N].
  - assert (K : / x < 0) by (apply Rinv_lt_0_compat; exact N). destruct (Rlt_dec y 0) as [Y|Y].
    + assert (0 < y / x) by (unfold Rdiv; nra). assert (0 < atan (y / x)) by (rewrite <- atan_0; apply atan_increasing; assumption). lra.
    + assert (Q : y / x <= 0) by (unfold Rdiv; nra). assert (atan (y / x) <= 0); [|lra]. destruct Q as [Q|Q]; [apply Rlt_le; rewrite <- atan_0; apply atan_increasing; assumption|rewrite Q, atan_0; lra].
  - destruct (Rlt_dec 0 y); [lra|]. destruct (Rlt_dec y 0); lra.
Qed.
Lemma angles_range r0 r1 r2 : let a := angles_of r0 r1 r2 in - PI < vx a <= PI /\ - (PI / 2) <= vy a <= PI / 2 /\ - PI < vz a <= PI.
Proof.
  pose proof PI_RGT_0 as P. unfold angles_of. destruct (Req_EM_T _ 0); cbn [vx vy vz]; (split; [apply atan2_range|split; [apply asin_bound|]]); [lra|apply atan2_range].
Qed.

Lemma parts_facts inv m p : decompose_matrix inv m = Ok p ->
  one_sign (p_scale p) /\ (0 < vx (p_scale p) <-> right_handed m) /\ p_translate p = column3 (normal_form m) 3 /\
  (- PI < vx (p_angles p) <= PI /\ - (PI / 2) <= vy (p_angles p) <= PI / 2 /\ - PI < vz (p_angles p) <= PI) /\ (~ seen m -> p_perspective p = (0, 0, 0, 1)).
Proof.
  intros H. destruct (decompose_ok _ _ _ H) as (_ & _ & r0 & r1 & r2 & F & M & O & S & A & L & P). do 3 (split; [assumption|]). split; [rewrite A; apply angles_range|].
  intros NS. rewrite P. destruct (seen_dec m) eqn:E; [apply seen_dec_iff in E; contradiction|reflexivity].
Qed.

Lemma recompose inv s h a t q : inverts inv -> weight q t <> 0 -> vx s <> 0 -> vy s <> 0 -> vz s <> 0 ->
  let m := compose_matrix (Some s) (Some h) (Some a) (Some t) (Some q) in
  exists p, decompose_matrix inv m = Ok p /\ (seen m \/ no_perspective m -> same4 (compose_parts p) m).
Proof.
  intros I W X Y Z m. destruct (compose_flat s h a t q W) as (N & F). fold m in N, F.
  destruct (decompose_total inv m) as [E|(p & E)].
  - exfalso. apply decompose_rejects in E. destruct E as [E|E]; [|apply F in E; tauto].
    rewrite N, Rabs_R1 in E. assert (EPS < 1); [|lra]. unfold EPS. apply (Rmult_lt_reg_r (2 ^ 52)); [apply pow_lt; lra|]. unfold Rdiv. rewrite Rmult_assoc, Rinv_l by (apply pow_nonzero; lra). lra.
  - exists p. split; [exact E|]. intros C i j LI LJ. destruct (back_matrix inv m p I E) as (_ & B & _). rewrite (B C i j LI LJ). unfold normal_form. rewrite N. field.
Qed.

(** ** Counterexamples *)
Definition tiny : mat4 := fun i j => if (i =? j)%nat then 1 else if ((i =? 3) && (j =? 0))%nat then EPS else 0.
Lemma tiny_lost inv : inverts inv -> exists p, decompose_matrix inv tiny = Ok p /\ ~ same4 (compose_parts p) (normal_form tiny).
Proof.
  intros I. pose proof eps_pos as P.
  assert (NS : ~ seen tiny).
  { intros (i & L & H). unfold normal_form, tiny in H. destruct i as [|[|[|i]]]; try lia; cbn in H.
    - replace (EPS / 1) with EPS in H by field. rewrite Rabs_pos_eq in H; lra.
    - replace (0 / 1) with 0 in H by field. rewrite Rabs_R0 in H. lra.
    - replace (0 / 1) with 0 in H by field. rewrite Rabs_R0 in H. lra. }
  destruct (decompose_total inv tiny) as [E|(p & E)].
  - exfalso. apply decompose_rejects in E. destruct E as [E|(u & U & E)].
    + cbn in E. rewrite Rabs_R1 in E. assert (EPS < 1); [|lra]. unfold EPS. apply (Rmult_lt_reg_r (2 ^ 52)); [apply pow_lt; lra|]. unfold Rdiv. rewrite Rmult_assoc, Rinv_l by (apply pow_nonzero; lra). lra.
    + apply U. rewrite <- E. apply vec_eq; unfold vadd, times, column3, tiny; cbn; ring.
  - exists p. split; [exact E|]. intros S. destruct (back_matrix inv tiny p I E) as (_ & _ & B). pose proof (B NS 0%nat ltac:(lia)) as B0. rewrite (S 3%nat 0%nat) in B0 by lia.
    unfold normal_form, tiny, identity4 in B0. cbn in B0. replace (EPS / 1) with EPS in B0 by field. lra.
Qed.

Lemma mixed_signs inv : let m := compose_matrix (Some (V3 (-1) 1 1)) (Some vzero) (Some vzero) (Some vzero) None in
  exists p, decompose_matrix inv m = Ok p /\ p_scale p = V3 (-1) (-1) (-1) .
Proof.
  intros m. destruct (compose_last (V3 (-1) 1 1) vzero vzero vzero) as (_ & NP & W). fold m in NP, W.
  assert (NF : forall i j, normal_form m i j = m i j) by (intros; unfold normal_form; rewrite W; field).
  assert (C : forall j, column3 (normal_form m) j = column3 m j) by (intros; unfold column3; rewrite !NF; reflexivity).
  assert (K0 : col0 vzero = V3 1 0 0) by (apply vec_eq; unfold col0, turned_xyz, turned_x, turned_y, turned_z, vzero; cbn; rewrite ?cos_0, ?sin_0; ring).
  assert (K1 : col1 vzero = V3 0 1 0) by (apply vec_eq; unfold col1, turned_xyz, turned_x, turned_y, turned_z, vzero; cbn; rewrite ?cos_0, ?sin_0; ring).
  assert (K2 : col2 vzero = V3 0 0 1) by (apply vec_eq; unfold col2, turned_xyz, turned_x, turned_y, turned_z, vzero; cbn; rewrite ?cos_0, ?sin_0; ring).
  assert (C0 : column3 (normal_form m) 0 = V3 (-1) 0 0) by (rewrite C; unfold m; rewrite made_cols by lia; rewrite K0; apply vec_eq; unfold times; cbn; ring).
  assert (C1 : column3 (normal_form m) 1 = V3 0 1 0) by (rewrite C; unfold m; rewrite made_cols by lia; rewrite K0, K1; apply vec_eq; unfold times, vadd, vzero; cbn; ring).
  assert (C2 : column3 (normal_form m) 2 = V3 0 0 1) by (rewrite C; unfold m; rewrite made_cols by lia; rewrite K0, K1, K2; apply vec_eq; unfold times, vadd, vzero; cbn; ring).
  assert (T : triple_of m = -1) by (unfold triple_of; rewrite C0, C1, C2; unfold triple, inner, vcross; cbn; ring).
  destruct (decompose_total inv m) as [E|(p & E)].
  - exfalso. apply decompose_rejects in E. destruct E as [E|E].
    + rewrite W, Rabs_R1 in E. assert (EPS < 1); [|lra]. unfold EPS. apply (Rmult_lt_reg_r (2 ^ 52)); [apply pow_lt; lra|]. unfold Rdiv. rewrite Rmult_assoc, Rinv_l by (apply pow_nonzero; lra). lra.
    + apply flat_triple in E; lra.
  - exists p. split; [exact E|]. destruct (decompose_ok _ _ _ E) as (_ & _ & r0 & r1 & r2 & F & M & O & _ & _ & _). rewrite C0, C1, C2 in M.
    assert (F' : frame3 (V3 1 0 0) (V3 0 (-1) 0) (V3 0 0 (-1))) by (unfold frame3, inner, vcross; cbn; split; [ring|split; [ring|split; [ring|f_equal; ring]]]).
    assert (M' : made (V3 (-1) (-1) (-1)) vzero (V3 1 0 0) (V3 0 (-1) 0) (V3 0 0 (-1)) (V3 (-1) 0 0) (V3 0 1 0) (V3 0 0 1))
      by (split; [|split]; apply vec_eq; unfold times, vadd, vzero; cbn; ring).
    assert (O' : one_sign (V3 (-1) (-1) (-1))) by (right; cbn; lra).
    exact (proj1 (made_unique _ _ _ _ _ _ _ _ _ _ _ _ _ F F' M M' O O')).
Qed.

(** ** There is an inverse to compute *)
Lemma det_mul a b : det4 (mdot a b) = det4 a * det4 b.
Proof. unfold det4, minor3, mdot. ring. Qed.
Definition skip (i k : nat) : nat := if (k <? i)%nat then k else S k.
Definition cofactor (a : mat4) (i j : nat) : R :=
  let m k l := a (skip i k) (skip j l) in
  (if Nat.even (i + j) then 1 else -1) *
  (m 0%nat 0%nat * (m 1%nat 1%nat * m 2%nat 2%nat - m 1%nat 2%nat * m 2%nat 1%nat) -
   m 0%nat 1%nat * (m 1%nat 0%nat * m 2%nat 2%nat - m 1%nat 2%nat * m 2%nat 0%nat) +
   m 0%nat 2%nat * (m 1%nat 0%nat * m 2%nat 1%nat - m 1%nat 1%nat * m 2%nat 0%nat)).
Definition cramer (a : mat4) : mat4 := fun i j => cofactor a j i / det4 a.
Lemma cramer_inverts : inverts cramer.
Proof.
  intros a b E. assert (D : det4 a <> 0).
  { intros Z. pose proof (det_mul b a) as M. rewrite Z, Rmult_0_r in M.
    assert (K : det4 (mdot b a) = det4 identity4) by (unfold det4, minor3; rewrite !E by lia; reflexivity).
    rewrite K in M. unfold det4, minor3, identity4 in M. cbn in M. lra. }
  clear b E.
  assert (A : forall i j, (i < 4)%nat -> (j < 4)%nat -> cofactor a 0 i * a 0%nat j + cofactor a 1 i * a 1%nat j + cofactor a 2 i * a 2%nat j + cofactor a 3 i * a 3%nat j = identity4 i j * det4 a).
  { entries; unfold cofactor, skip, identity4, det4, minor3; cbn; ring. }
  intros i j LI LJ. unfold mdot, cramer. transitivity ((cofactor a 0 i * a 0%nat j + cofactor a 1 i * a 1%nat j + cofactor a 2 i * a 2%nat j + cofactor a 3 i * a 3%nat j) / det4 a); [unfold Rdiv; ring|].
  rewrite (A i j LI LJ). field. exact D.
Qed.
