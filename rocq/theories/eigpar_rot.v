(** * Lemmas on the parameters of rotations. *)

From Coq Require Import List Reals Lia Lra Arith Bool.
Import ListNotations.
From Verif Require Import Py transf_model transf_euler decompose_proof affine_model affine2_model affine_spec affine2_spec affine_proof affine2_proof eigpar_model eigpar_spec eigpar_rank eigpar_proof.
Local Open Scope R_scope.

Lemma rotation_affine a d p : affine_rows (rotation_matrix a d p).
Proof. unfold affine_rows. destruct p; repeat split; reflexivity. Qed.
Lemma as3_re e : as3 (re_vector e) = real3 e.
Proof. reflexivity. Qed.
(** [turn s u c v] is [v] turned about [u]. *)
Definition turn (c s : R) (u v : vec3) : vec3 := vadd (vadd (times c v) (times ((1 - c) * inner u v) u)) (times s (vcross u v)).
Lemma product_as3 m v : V3 (product 3 m v 0%nat) (product 3 m v 1%nat) (product 3 m v 2%nat) =
  V3 (m 0%nat 0%nat * v 0%nat + m 0%nat 1%nat * v 1%nat + m 0%nat 2%nat * v 2%nat) (m 1%nat 0%nat * v 0%nat + m 1%nat 1%nat * v 1%nat + m 1%nat 2%nat * v 2%nat) (m 2%nat 0%nat * v 0%nat + m 2%nat 1%nat * v 1%nat + m 2%nat 2%nat * v 2%nat).
Proof. unfold product, total. f_equal; ring. Qed.
Lemma rotation_shape a d p v : let m := rotation_matrix a d p in
  as3 (product 3 (transposed m) v) = turn (cos a) (- sin a) (unit_vector d) (as3 v) /\ as3 (product 3 m v) = turn (cos a) (sin a) (unit_vector d) (as3 v).
Proof.
  cbv zeta. unfold as3 at 1 3. rewrite !product_as3. unfold transposed, rotation_matrix. generalize (unit_vector d) (cos a) (sin a). intros u c s.
  unfold turn, as3. destruct p; unfold set_column, add33, identity4, cross_matrix, vouter, rows4, vscale, vadd, times, inner, vcross; cbn; split; apply vec_eq; cbn; ring.
Qed.
Lemma inner_add_r u v w : inner u (vadd v w) = inner u v + inner u w.
Proof. unfold inner, vadd; cbn. ring. Qed.
Lemma inner_comm u v : inner u v = inner v u.
Proof. unfold inner. ring. Qed.
Lemma inner_cross_self u v : inner v (vcross u v) = 0 /\ inner u (vcross u v) = 0.
Proof. unfold inner, vcross; cbn. split; ring. Qed.
Lemma turn_axis c s u v : inner u u = 1 -> inner u (turn c s u v) = inner u v.
Proof. intros U. unfold turn. rewrite !inner_add_r, !inner_times_r, (proj2 (inner_cross_self u v)), U. ring. Qed.
Lemma turn_self c s u v : inner v (turn c s u v) = c * inner v v + (1 - c) * (inner u v * inner u v).
Proof. unfold turn. rewrite !inner_add_r, !inner_times_r, (proj1 (inner_cross_self u v)), (inner_comm v u). ring. Qed.
Lemma inner_nonneg v : 0 <= inner v v.
Proof. unfold inner. nra. Qed.
Lemma three_squares s t w : s * s + t * t + w * w = 0 -> s = 0 /\ t = 0 /\ w = 0.
Proof. intros H. repeat split; nra. Qed.
Lemma small_square x b : Rabs x <= b -> x * x <= b * b.
Proof. unfold Rabs. destruct (Rcase_abs x); intros; nra. Qed.
(** Equality in the inequality of Cauchy and Schwarz. *)
Lemma along u v : inner u u = 1 -> inner v v = inner u v * inner u v -> parallel v u.
Proof.
  intros U E. exists (inner u v). assert (Z : inner (vsub v (times (inner u v) u)) (vsub v (times (inner u v) u)) = 0).
  { rewrite inner_sub. rewrite (inner_comm v), (inner_comm (times _ _)), !inner_sub, !inner_times, inner_times_r, inner_times_r, (inner_comm v u), E, U. ring. }
  set (k := inner u v) in *. clearbody k. destruct u as [u0 u1 u2], v as [v0 v1 v2]. unfold inner, vsub, times in *; cbn in *.
  apply three_squares in Z. f_equal; lra.
Qed.

Lemma rotation_axis a d p e : d <> vzero -> cos a = 1 \/ 1 / 10 ^ 8 <= 1 - cos a -> Rabs (re_value e - 1) < 1 / 10 ^ 8 ->
  eigenvector 3 (transposed (rotation_matrix a d p)) e -> im_value e = 0 /\ (cos a <> 1 -> parallel (real3 e) (unit_vector d)).
Proof.
  intros NZ CA N E. assert (U := unit_one d NZ). pose proof (eigenvector_facts _ _ _ E) as (HR & HI & (k & LK & KZ) & RL). set (u := unit_vector d) in *.
  set (x := real3 e). set (y := as3 (im_vector e)). set (r := re_value e) in *. set (j := im_value e) in *.
  assert (X : turn (cos a) (- sin a) u x = vsub (times r x) (times j y)).
  { unfold x. rewrite <- as3_re. unfold u. rewrite <- (proj1 (rotation_shape a d p (re_vector e))). unfold as3 at 1. rewrite !HR by lia. reflexivity. }
  assert (Y : turn (cos a) (- sin a) u y = vadd (times j x) (times r y)).
  { unfold y, u. rewrite <- (proj1 (rotation_shape a d p (im_vector e))). unfold as3 at 1. rewrite !HI by lia. reflexivity. }
  assert (PX := f_equal (inner u) X). assert (PY := f_equal (inner u) Y). rewrite turn_axis in PX, PY by exact U.
  rewrite inner_add_r, !inner_times_r in PY. rewrite (inner_comm u (vsub _ _)), inner_sub, !inner_times, !(inner_comm _ u) in PX.
  assert (QX := f_equal (inner x) X). assert (QY := f_equal (inner y) Y). rewrite turn_self in QX, QY.
  rewrite inner_add_r, !inner_times_r in QY. rewrite (inner_comm x (vsub _ _)), inner_sub, !inner_times in QX.
  assert (POS : 0 < inner x x + inner y y).
  { assert (A := inner_nonneg x). assert (B := inner_nonneg y). destruct (Rle_lt_or_eq_dec 0 (inner x x + inner y y) ltac:(lra)) as [C|C]; [exact C|]. exfalso.
    assert (A0 : inner x x = 0) by lra. assert (B0 : inner y y = 0) by lra. unfold x, y, real3, as3, inner in A0, B0; cbn in A0, B0.
    apply three_squares in A0, B0. destruct k as [|[|[|k]]]; [tauto|tauto|tauto|lia]. }
  destruct CA as [C1|C1].
  - rewrite C1 in QX, QY.
    assert (S0 : sin a = 0) by (generalize (sin2_cos2 a); unfold Rsqr; rewrite C1; intros; nra).
    assert (J : j = 0); [|split; [exact J|intros H; contradiction]].
    assert (X' : turn 1 0 u x = x) by (unfold turn; destruct x, u; unfold vadd, times, vcross, inner; cbn; apply vec_eq; cbn; ring).
    assert (Y' : turn 1 0 u y = y) by (unfold turn; destruct y, u; unfold vadd, times, vcross, inner; cbn; apply vec_eq; cbn; ring).
    rewrite C1, S0, Ropp_0 in X, Y. rewrite X' in X. rewrite Y' in Y.
    apply (complex_zero (1 - r) j (re_vector e k) (im_vector e k)); [| |exact KZ].
    + destruct k as [|[|[|k]]]; [generalize (f_equal vx X)|generalize (f_equal vy X)|generalize (f_equal vz X)|lia]; unfold x, y, vsub, times, real3, as3; cbn; lra.
    + destruct k as [|[|[|k]]]; [generalize (f_equal vx Y)|generalize (f_equal vy Y)|generalize (f_equal vz Y)|lia]; unfold x, y, vadd, times, real3, as3; cbn; lra.
  - set (al := inner u x) in *. set (be := inner u y) in *.
    destruct (Req_EM_T al 0) as [A0|A0]; [destruct (Req_EM_T be 0) as [B0|B0]|].
    { exfalso. rewrite A0 in QX. rewrite B0 in QY. rewrite (inner_comm y x) in QX. assert (K : (cos a - r) * (inner x x + inner y y) = 0) by (rewrite (inner_comm y x) in QY; lra).
      apply Rmult_integral in K. destruct K as [K|K]; [|lra]. replace r with (cos a) in N by lra. rewrite Rabs_minus_sym in N. generalize (Rle_abs (1 - cos a)). lra. }
    all: assert (Z : 1 - r = 0 /\ j = 0) by (apply (complex_zero _ _ al be); [lra|lra|tauto]); destruct Z as (Z1 & Z2); split; [exact Z2|intros _]; apply along; [exact U|]; fold al;
      rewrite Z2 in QX; replace r with 1 in QX by lra; apply (Rmult_eq_reg_l (1 - cos a)); [|generalize (tol_pos 8); lra]; lra.
Qed.

Lemma unit_coord u : inner u u = 1 -> exists i, (i < 3)%nat /\ coord u i <> 0.
Proof.
  intros U. destruct (Req_EM_T (vx u) 0) as [X|X]; [|exists 0%nat; split; [lia|exact X]].
  destruct (Req_EM_T (vy u) 0) as [Y|Y]; [|exists 1%nat; split; [lia|exact Y]].
  exists 2%nat. split; [lia|]. intros Z. cbn in Z. unfold inner in U. rewrite X, Y, Z in U. lra.
Qed.
Lemma rotation_listed a d p l : d <> vzero -> eigenvectors_of 3 (transposed (rotation_matrix a d p)) l -> exists e, In e l /\ re_value e = 1 /\ im_value e = 0.
Proof.
  intros NZ E. assert (U := unit_one d NZ). set (u := unit_vector d) in *.
  assert (KZ := unit_coord u U).
  destruct KZ as (i & L & KZ). apply (listed 3 _ l 1 (coord u) i E); [|exact L|exact KZ].
  assert (H := proj1 (rotation_shape a d p (coord u))). fold u in H. replace (as3 (coord u)) with u in H by (destruct u; reflexivity).
  replace (turn (cos a) (- sin a) u u) with u in H.
  2: { unfold turn. rewrite U. destruct u; unfold vadd, times, vcross; cbn. apply vec_eq; cbn; ring. }
  intros j J. destruct j as [|[|[|j]]]; [generalize (f_equal vx H)|generalize (f_equal vy H)|generalize (f_equal vz H)|lia]; unfold as3; cbn [vx vy vz coord]; lra.
Qed.
Lemma rotation_fixed a d p : image (rotation_matrix a d (Some p)) p p.
Proof.
  pose proof (rotation_affine a d (Some p)) as (A & B & C & D). apply image_affine; [assumption..|]. rewrite rotation_value. destruct p; unfold vadd, vsub, spun, times, inner, vcross; cbn; apply vec_eq; cbn; ring.
Qed.
Lemma rotation_trace a d p : d <> vzero -> (trace3 (rotation_matrix a d p) - 1) / 2 = cos a.
Proof.
  intros NZ. assert (U := unit_one d NZ). unfold rotation_matrix. set (u := unit_vector d) in *. clearbody u. unfold inner in U.
  destruct p; unfold trace3, set_column, add33, identity4, vouter, cross_matrix, rows4; cbn;
    match goal with |- ?l = ?c => replace l with ((3 * c + (1 - c) * (vx u * vx u + vy u * vy u + vz u * vz u) - 1) / 2) by field end; rewrite U; field.
Qed.
Lemma same_turn a a' d d' p q : d <> vzero -> inner d' d' = 1 -> cos a' = cos a -> times (sin a') d' = times (sin a) (unit_vector d) ->
  (cos a = 1 \/ parallel d' (unit_vector d)) -> image (rotation_matrix a d (Some p)) q q -> same4 (rotation_matrix a' d' (Some q)) (rotation_matrix a d (Some p)).
Proof.
  intros NZ U' C S P F. pose proof (rotation_affine a d (Some p)) as (A0 & A1 & A2 & A3). apply image_affine in F; [|assumption..].
  assert (F0 := f_equal vx F). assert (F1 := f_equal vy F). assert (F2 := f_equal vz F). clear F. cbn [vx vy vz] in F0, F1, F2.
  assert (U := unit_one d NZ). assert (S0 := f_equal vx S). assert (S1 := f_equal vy S). assert (S2 := f_equal vz S). cbn [vx vy vz times] in S0, S1, S2.
  assert (O : forall i j, vouter d' d' i j * (1 - cos a) = vouter (unit_vector d) (unit_vector d) i j * (1 - cos a)).
  { intros i j. destruct P as [->|P]; [ring|]. destruct (unit_pm _ d' U U' P) as [->| ->]; [reflexivity|]. unfold vouter, times. destruct i as [|[|i]], j as [|[|j]]; cbn; ring. }
  assert (O00 := O 0%nat 0%nat). assert (O01 := O 0%nat 1%nat). assert (O02 := O 0%nat 2%nat). assert (O11 := O 1%nat 1%nat). assert (O12 := O 1%nat 2%nat). assert (O22 := O 2%nat 2%nat).
  assert (O10 := O 1%nat 0%nat). assert (O20 := O 2%nat 0%nat). assert (O21 := O 2%nat 1%nat). clear O.
  revert F0 F1 F2. unfold row_at, rotation_matrix. rewrite (unit_same d' U'), C. set (u := unit_vector d) in *. clearbody u. clear P A0 A1 A2 A3 S.
  unfold set_column, add33, identity4, cross_matrix, rows4, vscale, vouter in *; cbn. cbn in O00, O01, O02, O11, O12, O22, O10, O20, O21.
  intros F0 F1 F2. entries; try lia; cbn; try reflexivity; rewrite ?O00, ?O01, ?O02, ?O11, ?O12, ?O22, ?O10, ?O20, ?O21, ?S0, ?S1, ?S2; lra.
Qed.
Lemma rotation_back eig a d p : d <> vzero -> cos a = 1 \/ 1 / 10 ^ 8 <= 1 - cos a -> let m := rotation_matrix a d (Some p) in
  eigenvectors_of 3 (transposed m) (eig 3%nat (transposed m)) -> eigenvectors_of 4 m (eig 4%nat m) ->
  exists a' d' q, rotation_from_matrix eig m = Ok (a', d', q) /\ - PI < a' <= PI /\ unit_length d' /\ cos a' = cos a /\ (cos a <> 1 -> parallel d' d) /\
    forall q', q = Some q' -> image m q' q' /\ same4 (rotation_matrix a' d' (Some q')) m.
Proof.
  intros NZ CA m E3 E4. assert (U := unit_one d NZ).
  destruct (rotation_listed a d (Some p) _ NZ E3) as (e0 & I0 & V0 & _).
  destruct (choose_last 1 (1 / 10 ^ 8) _ e0 I0 V0 (tol_pos 8)) as (e & FI & I & N).
  destruct (fixed_point m _ p (rotation_affine a d (Some p)) E4 (rotation_fixed a d p)) as (e' & L & _ & Q).
  assert (EV := listed_ok _ _ _ _ E3 I). destruct (rotation_axis a d (Some p) e NZ CA N EV) as (J & P). assert (U' := real3_unit _ e EV J).
  unfold rotation_from_matrix. rewrite FI. cbn [bind]. rewrite L. cbn [bind]. cbv zeta. rewrite (rotation_trace a d (Some p) NZ : (trace3 m - 1) / 2 = cos a).
  match goal with |- context [atan2 ?s (cos a)] => set (sina := s) end.
  assert (S : times sina (real3 e) = times (sin a) (unit_vector d)).
  { assert (K : exists k, (k = 1 \/ k = -1 \/ sin a = 0) /\ (sin a * k = 0 \/ k * k = 1) /\ times (sin a * k) (real3 e) = times (sin a) (unit_vector d) /\ forall i j, (1 - cos a) * (coord (real3 e) i * coord (real3 e) j) = (1 - cos a) * (coord (unit_vector d) i * coord (unit_vector d) j)).
    { destruct (Req_EM_T (cos a) 1) as [C1|C1].
      - assert (S0 : sin a = 0) by (generalize (sin2_cos2 a); unfold Rsqr; rewrite C1; intros; nra). exists 0. split; [tauto|]. split; [left; rewrite S0; ring|]. rewrite S0, C1.
        split; [unfold times; f_equal; ring|intros; ring].
      - destruct (unit_pm _ _ U U' (P C1)) as [->| ->]; [exists 1|exists (-1)]; (split; [tauto|]); (split; [right; ring|]); (split; [unfold times; cbn; f_equal; ring|]); intros i j; unfold times; destruct i as [|[|i]], j as [|[|j]]; cbn; ring. }
    destruct K as (k & _ & _ & K & O). rewrite <- K. f_equal.
    assert (O01 := O 0%nat 1%nat). assert (O02 := O 0%nat 2%nat). assert (O12 := O 1%nat 2%nat). clear O. cbn [coord] in O01, O02, O12.
    assert (K0 := f_equal vx K). assert (K1 := f_equal vy K). assert (K2 := f_equal vz K). clear K. cbn [vx vy vz times] in K0, K1, K2.
    unfold sina, m, rotation_matrix. revert U'. set (x := real3 e) in *. clearbody x. set (u := unit_vector d) in *. clearbody u. clear -O01 O02 O12 K0 K1 K2. intros U'.
    unfold set_column, add33, identity4, vouter, cross_matrix, rows4, vscale; cbn. unfold inner in U'.
    assert (TP := tol_pos 8). cbn [pow] in TP. 
    destruct (Rlt_dec _ (Rabs (vz x))) as [Z|Z].
    { assert (NZ : vz x <> 0) by (intros G; rewrite G, Rabs_R0 in Z; lra). apply (Rmult_eq_reg_r (vz x)); [|exact NZ]. unfold Rdiv. rewrite Rmult_assoc, Rinv_l, Rmult_1_r by exact NZ. lra. }
    destruct (Rlt_dec _ (Rabs (vy x))) as [Y|Y].
    { assert (NZ : vy x <> 0) by (intros G; rewrite G, Rabs_R0 in Y; lra). apply (Rmult_eq_reg_r (vy x)); [|exact NZ]. unfold Rdiv. rewrite Rmult_assoc, Rinv_l, Rmult_1_r by exact NZ. lra. }
    assert (NZ : vx x <> 0).
    { intros G. rewrite G in U'. apply Rnot_lt_le in Z, Y. assert (B : 1 / (10 * (10 * (10 * (10 * (10 * (10 * (10 * (10 * 1)))))))) < 1 / 2) by lra.
      assert (Z2 : vz x * vz x <= 1 / 2 * (1 / 2)) by (apply small_square; lra).
      assert (Y2 : vy x * vy x <= 1 / 2 * (1 / 2)) by (apply small_square; lra). lra. }
    apply (Rmult_eq_reg_r (vx x)); [|exact NZ]. unfold Rdiv. rewrite Rmult_assoc, Rinv_l, Rmult_1_r by exact NZ. lra. }
  clearbody sina.
  assert (SS : sina * sina = sin a * sin a).
  { assert (H := f_equal (fun v => inner v v) S). cbv beta in H. rewrite !inner_times, !inner_times_r, U, U' in H. lra. }
  assert (ONE : cos a * cos a + sina * sina = 1) by (rewrite SS; generalize (sin2_cos2 a); unfold Rsqr; lra).
  destruct (atan2_polar sina (cos a) ltac:(lra)) as (CC & SC). rewrite ONE, sqrt_1 in CC, SC.
  replace (cos a / 1) with (cos a) in CC by field. replace (sina / 1) with sina in SC by field.
  exists (atan2 sina (cos a)), (real3 e), (real_point e'). split; [reflexivity|]. split; [apply atan2_range|]. split; [exact U'|]. split; [exact CC|].
  split; [intros C1; apply parallel_unit; [exact NZ|exact (P C1)]|]. intros q' H. split; [exact (Q q' H)|].
  apply same_turn; [exact NZ|exact U'|exact CC|rewrite SC; exact S| |exact (Q q' H)].
  destruct (Req_EM_T (cos a) 1) as [C1|C1]; [left; exact C1|right; exact (P C1)].
Qed.

Lemma fixed_axis a d p q : d <> vzero -> cos a <> 1 -> image (rotation_matrix a d (Some p)) q q -> on_axis p d q.
Proof.
  intros NZ C F. pose proof (rotation_affine a d (Some p)) as (A0 & A1 & A2 & A3). apply image_affine in F; [|assumption..]. rewrite rotation_value in F.
  assert (U := unit_one d NZ). apply parallel_unit; [exact NZ|]. set (u := unit_vector d) in *. set (w := vsub q p).
  assert (H : turn (cos a) (sin a) u w = w).
  { fold w in F. assert (K : w = spun a u w) by (rewrite <- (vec_eq (vsub (vadd p (spun a u w)) p) (spun a u w)); [rewrite <- F; reflexivity|cbn; ring..]).
    rewrite K at 2. unfold spun, turn. destruct u, w; unfold vadd, times, vcross, inner; cbn; apply vec_eq; cbn; ring. }
  apply along; [exact U|]. assert (K := f_equal (inner w) H). rewrite turn_self in K. apply (Rmult_eq_reg_l (1 - cos a)); [|lra]. lra.
Qed.
Lemma turn_values c s u x y r j : inner u u = 1 -> 0 < inner x x + inner y y -> turn c s u x = vsub (times r x) (times j y) -> turn c s u y = vadd (times j x) (times r y) ->
  r = 1 \/ r = c.
Proof.
  intros U POS X Y.
  assert (PX := f_equal (inner u) X). assert (PY := f_equal (inner u) Y). rewrite turn_axis in PX, PY by exact U.
  rewrite inner_add_r, !inner_times_r in PY. rewrite (inner_comm u (vsub _ _)), inner_sub, !inner_times, !(inner_comm _ u) in PX.
  assert (QX := f_equal (inner x) X). assert (QY := f_equal (inner y) Y). rewrite turn_self in QX, QY.
  rewrite inner_add_r, !inner_times_r in QY. rewrite (inner_comm x (vsub _ _)), inner_sub, !inner_times in QX.
  destruct (Req_EM_T (inner u x) 0) as [A0|A0]; [destruct (Req_EM_T (inner u y) 0) as [B0|B0]|].
  - right. rewrite A0 in QX. rewrite B0 in QY. rewrite (inner_comm y x) in QX, QY. assert (K : (c - r) * (inner x x + inner y y) = 0) by lra.
    apply Rmult_integral in K. destruct K as [K|K]; lra.
  - left. assert (Z : 1 - r = 0 /\ j = 0) by (apply (complex_zero _ _ (inner u x) (inner u y)); [lra|lra|tauto]). lra.
  - left. assert (Z : 1 - r = 0 /\ j = 0) by (apply (complex_zero _ _ (inner u x) (inner u y)); [lra|lra|tauto]). lra.
Qed.
Lemma rotation_values a d p e : d <> vzero -> eigenvector 3 (rotation_matrix a d p) e -> re_value e = 1 \/ re_value e = cos a.
Proof.
  intros NZ (HR & HI & ONE & _). assert (U := unit_one d NZ).
  apply (turn_values (cos a) (sin a) (unit_vector d) (as3 (re_vector e)) (as3 (im_vector e)) _ (im_value e) U).
  - unfold total in ONE. unfold inner, as3; cbn. lra.
  - rewrite <- (proj2 (rotation_shape a d p (re_vector e))). unfold as3 at 1. rewrite !HR by lia. reflexivity.
  - rewrite <- (proj2 (rotation_shape a d p (im_vector e))). unfold as3 at 1. rewrite !HI by lia. reflexivity.
Qed.
Lemma not_reflection eig a d p : d <> vzero -> 1 / 10 ^ 8 <= 1 + cos a -> let m := rotation_matrix a d p in
  eigenvectors_of 3 m (eig 3%nat m) -> reflection_from_matrix eig m = Err ValueError.
Proof.
  intros NZ C m E. unfold reflection_from_matrix. rewrite first_none; [reflexivity|]. intros e I. apply in_near in I. destruct I as (I & N).
  assert (T := tol_pos 8). assert (T2 : 1 / 10 ^ 8 < 1) by lra.
  destruct (rotation_values a d p e NZ (listed_ok _ _ _ _ E I)) as [V|V]; rewrite V in N; rewrite Rabs_right in N; lra.
Qed.

(** ** Small angles *)
Definition basis (k : nat) : nat -> R := fun i => if Nat.eqb i k then 1 else 0.
Definition zeros : nat -> R := fun _ => 0.
Definition half : R := sqrt (1 / 2).
Lemma half_sq : half * half = 1 / 2.
Proof. unfold half. apply sqrt_sqrt. lra. Qed.
Definition scaled (k : nat) (t : R) : nat -> R := fun i => if Nat.eqb i k then t else 0.
(** The answer of eig for a rotation about the first axis. *)
Definition turn_eig (a : R) : eig_fun := fun n m =>
  match n with
  | 3%nat => [Eigenpair 1 0 (basis 0) zeros; Eigenpair (cos a) (sin a) (scaled 1 half) (scaled 2 half); Eigenpair (cos a) (- sin a) (scaled 1 half) (scaled 2 (- half))]
  | _ => [Eigenpair 1 0 (basis 0) zeros; Eigenpair (cos a) (- sin a) (scaled 1 half) (scaled 2 half); Eigenpair (cos a) (sin a) (scaled 1 half) (scaled 2 (- half)); Eigenpair 1 0 (basis 3) zeros]
  end.
Definition turn_matrix (a : R) : mat4 := rotation_matrix a (V3 1 0 0) (Some vzero).
Lemma unit_x : unit_vector (V3 1 0 0) = V3 1 0 0.
Proof. apply unit_same. unfold inner; cbn. ring. Qed.
Lemma turn_entries a : same4 (turn_matrix a) (rows4 [[1; 0; 0; 0]; [0; cos a; - sin a; 0]; [0; sin a; cos a; 0]; [0; 0; 0; 1]]).
Proof. unfold turn_matrix, rotation_matrix. rewrite unit_x. entries; try lia; unfold set_column, add33, identity4, cross_matrix, vouter, rows4, vscale; cbn; ring. Qed.
Lemma product_ext n m m' v i : (n <= 4)%nat -> (i < n)%nat -> same4 m m' -> product n m v i = product n m' v i.
Proof. intros N I S. unfold product. apply total_ext. intros j J. rewrite S by lia. reflexivity. Qed.
Lemma eigenvectors_ext n m m' l : (n <= 4)%nat -> same4 m m' -> eigenvectors_of n m' l -> eigenvectors_of n m l.
Proof.
  intros N S (A & B & C). split; [exact A|]. split.
  - rewrite Forall_forall in *. intros e I. destruct (B e I) as (B1 & B2 & B3 & B4). split; [|split; [|split; [exact B3|exact B4]]]; intros i L; rewrite (product_ext n m m') by assumption; auto.
  - intros value v H. apply C. intros i L. rewrite <- (product_ext n m m') by assumption. apply H, L.
Qed.
Lemma combined_zero n value l v : (forall i, (i < n)%nat -> v i = 0) -> combined n value l v.
Proof. intros Z. induction l as [|e l IH]; [apply combined_nil, Z|apply combined_skip, IH]. Qed.
Lemma combined_one n value l e v t : In e l -> re_value e = value -> im_value e = 0 -> (forall i, (i < n)%nat -> v i = t * re_vector e i) -> combined n value l v.
Proof.
  intros I R J V. induction l as [|x l IH]; [destruct I|]. destruct I as [->|I]; [|apply combined_skip, IH, I].
  apply (combined_add n value e l zeros v t); [apply combined_zero; reflexivity|exact R|exact J|]. intros i L. rewrite (V i L). unfold zeros. ring.
Qed.
