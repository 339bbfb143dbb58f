(** * Euler angles. *)

From Coq Require Import List ZArith Arith Reals Bool String Lia Lra Psatz.
Import ListNotations.
From Verif Require Import Py Py_proof transf_model transf_spec transf_proof.
Local Open Scope R_scope.

(** ** atan2 *)
Lemma atan2_polar y x : 0 < x * x + y * y ->
  cos (atan2 y x) = x / sqrt (x * x + y * y) /\ sin (atan2 y x) = y / sqrt (x * x + y * y).
Proof.
  intros P.
  assert (S0 : 0 < sqrt (x * x + y * y)) by (apply sqrt_lt_R0; exact P).
  assert (Q : forall t, 0 < t -> t * t = x * x + y * y -> sqrt (x * x + y * y) = t).
  { intros t T E. rewrite <- E. apply sqrt_square. lra. }
  assert (K : x <> 0 -> cos (atan (y / x)) = Rabs x / sqrt (x * x + y * y) /\
                        sin (atan (y / x)) = y / x * (Rabs x / sqrt (x * x + y * y))).
  { intros NX. rewrite cos_atan, sin_atan.
    assert (A : 0 < Rabs x) by (apply Rabs_pos_lt; exact NX).
    assert (E : sqrt (x * x + y * y) = Rabs x * sqrt (1 + (y / x) ^ 2)).
    { rewrite <- sqrt_Rsqr_abs, <- sqrt_mult; [|apply Rle_0_sqr|pose proof (pow2_ge_0 (y / x)); lra].
      f_equal. unfold Rsqr. field. exact NX. }
    assert (T : 0 < sqrt (1 + (y / x) ^ 2)) by (apply sqrt_lt_R0; pose proof (pow2_ge_0 (y / x)); lra).
    rewrite E. replace (1 + (y / x)²) with (1 + (y / x) ^ 2) by (unfold Rsqr; ring).
    split; field; repeat split; lra. }
  unfold atan2. destruct (Rlt_dec 0 x) as [X|X].
  - destruct K as (C & S); [lra|]. rewrite C, S, Rabs_right by lra. split; [reflexivity|field; lra].
  - destruct (Rlt_dec x 0) as [X'|X'].
    + destruct K as (C & S); [lra|].
      assert (E : cos (if Rlt_dec y 0 then atan (y / x) - PI else atan (y / x) + PI) = - cos (atan (y / x)) /\
                  sin (if Rlt_dec y 0 then atan (y / x) - PI else atan (y / x) + PI) = - sin (atan (y / x))).
      { destruct (Rlt_dec y 0).
        - rewrite cos_minus, sin_minus, cos_PI, sin_PI. split; ring.
        - rewrite neg_cos, neg_sin. split; reflexivity. }
      destruct E as (E1 & E2). rewrite E1, E2, C, S, Rabs_left by lra. split; field; lra.
    + assert (x = 0) as -> by lra. destruct (Rlt_dec 0 y) as [Y|Y].
      * rewrite (Q y) by (lra || ring). rewrite cos_PI2, sin_PI2. split; field; lra.
      * destruct (Rlt_dec y 0) as [Y'|Y']; [|exfalso; nra].
        rewrite (Q (- y)) by (lra || ring). rewrite cos_neg, sin_neg, cos_PI2, sin_PI2. split; field; lra.
Qed.

(** ** Rotation matrices: cofactors and rows *)
Definition cof (m : mat4) : Prop :=
  (at4 m 0 0 = at4 m 1 1 * at4 m 2 2 - at4 m 1 2 * at4 m 2 1 /\
   at4 m 0 1 = at4 m 1 2 * at4 m 2 0 - at4 m 1 0 * at4 m 2 2 /\
   at4 m 0 2 = at4 m 1 0 * at4 m 2 1 - at4 m 1 1 * at4 m 2 0) /\
  (at4 m 1 0 = at4 m 0 2 * at4 m 2 1 - at4 m 0 1 * at4 m 2 2 /\
   at4 m 1 1 = at4 m 0 0 * at4 m 2 2 - at4 m 0 2 * at4 m 2 0 /\
   at4 m 1 2 = at4 m 0 1 * at4 m 2 0 - at4 m 0 0 * at4 m 2 1) /\
  (at4 m 2 0 = at4 m 0 1 * at4 m 1 2 - at4 m 0 2 * at4 m 1 1 /\
   at4 m 2 1 = at4 m 0 2 * at4 m 1 0 - at4 m 0 0 * at4 m 1 2 /\
   at4 m 2 2 = at4 m 0 0 * at4 m 1 1 - at4 m 0 1 * at4 m 1 0).

Lemma rotation_columns m : rotation m -> forall a b, (a < 3)%nat -> (b < 3)%nat ->
  at4 m 0 a * at4 m 0 b + at4 m 1 a * at4 m 1 b + at4 m 2 a * at4 m 2 b = delta a b.
Proof. intros (O & _) a b A B. exact (O a b A B). Qed.

Lemma rotation_cof m : rotation m -> cof m.
Proof.
  intros H. pose proof (rotation_columns m H) as G. destruct H as (_ & D). unfold det3, at4 in D.
  pose proof (G 0 0)%nat as G00. pose proof (G 0 1)%nat as G01. pose proof (G 0 2)%nat as G02.
  pose proof (G 1 1)%nat as G11. pose proof (G 1 2)%nat as G12. pose proof (G 2 2)%nat as G22.
  unfold delta in *. cbn [Nat.eqb] in *. clear G.
  specialize (G00 ltac:(lia) ltac:(lia)). specialize (G01 ltac:(lia) ltac:(lia)). specialize (G02 ltac:(lia) ltac:(lia)).
  specialize (G11 ltac:(lia) ltac:(lia)). specialize (G12 ltac:(lia) ltac:(lia)). specialize (G22 ltac:(lia) ltac:(lia)).
  unfold cof, at4 in *.
  set (a := m 0%nat 0%nat) in *. set (b := m 0%nat 1%nat) in *. set (c := m 0%nat 2%nat) in *.
  set (d := m 1%nat 0%nat) in *. set (e := m 1%nat 1%nat) in *. set (f := m 1%nat 2%nat) in *.
  set (g := m 2%nat 0%nat) in *. set (h := m 2%nat 1%nat) in *. set (i := m 2%nat 2%nat) in *.
  clearbody a b c d e f g h i.
  set (D' := a * (e * i - f * h) - b * (d * i - f * g) + c * (d * h - e * g)) in D.
  assert (E0 : forall x, x = x * D') by (intros; rewrite D; ring).
  set (g00 := a * a + d * d + g * g) in G00. set (g01 := a * b + d * e + g * h) in G01.
  set (g02 := a * c + d * f + g * i) in G02. set (g11 := b * b + e * e + h * h) in G11.
  set (g12 := b * c + e * f + h * i) in G12. set (g22 := c * c + f * f + i * i) in G22.
  assert (X0 : forall x y z, x * g00 + y * g01 + z * g02 = x) by (intros; rewrite G00, G01, G02; ring).
  assert (X1 : forall x y z, x * g01 + y * g11 + z * g12 = y) by (intros; rewrite G01, G11, G12; ring).
  assert (X2 : forall x y z, x * g02 + y * g12 + z * g22 = z) by (intros; rewrite G02, G12, G22; ring).
  repeat split.
  - rewrite (E0 a). rewrite <- (X0 (e * i - f * h) (f * g - d * i) (d * h - e * g)).
    unfold D', g00, g01, g02. ring.
  - rewrite (E0 b). rewrite <- (X1 (e * i - f * h) (f * g - d * i) (d * h - e * g)).
    unfold D', g11, g01, g12. ring.
  - rewrite (E0 c). rewrite <- (X2 (e * i - f * h) (f * g - d * i) (d * h - e * g)).
    unfold D', g22, g02, g12. ring.
  - rewrite (E0 d). rewrite <- (X0 (c * h - b * i) (a * i - c * g) (b * g - a * h)).
    unfold D', g00, g01, g02. ring.
  - rewrite (E0 e). rewrite <- (X1 (c * h - b * i) (a * i - c * g) (b * g - a * h)).
    unfold D', g11, g01, g12. ring.
  - rewrite (E0 f). rewrite <- (X2 (c * h - b * i) (a * i - c * g) (b * g - a * h)).
    unfold D', g22, g02, g12. ring.
  - rewrite (E0 g). rewrite <- (X0 (b * f - c * e) (c * d - a * f) (a * e - b * d)).
    unfold D', g00, g01, g02. ring.
  - rewrite (E0 h). rewrite <- (X1 (b * f - c * e) (c * d - a * f) (a * e - b * d)).
    unfold D', g11, g01, g12. ring.
  - rewrite (E0 i). rewrite <- (X2 (b * f - c * e) (c * d - a * f) (a * e - b * d)).
    unfold D', g22, g02, g12. ring.
Qed.

Lemma rotation_rows m : rotation m -> forall a, (a < 3)%nat ->
  m a 0%nat * m a 0%nat + m a 1%nat * m a 1%nat + m a 2%nat * m a 2%nat = 1.
Proof.
  intros H a A. destruct (rotation_cof m H) as ((C00 & C01 & C02) & (C10 & C11 & C12) & (C20 & C21 & C22)).
  destruct H as (_ & D). unfold det3, at4 in *. destruct a as [|[|[|a]]]; try lia; rewrite <- D.
  - rewrite C00 at 2. rewrite C01 at 2. rewrite C02 at 2. ring.
  - rewrite C10 at 2. rewrite C11 at 2. rewrite C12 at 2. ring.
  - rewrite C20 at 2. rewrite C21 at 2. rewrite C22 at 2. ring.
Qed.

(** Renaming the axes of a rotation. *)
Definition perm_of (i j k : nat) (n : nat) : nat := match n with 0 => i | 1 => j | _ => k end%nat.
Definition is_perm (i j k : nat) : Prop :=
  In (i, j, k) [(0, 1, 2); (1, 2, 0); (2, 0, 1); (0, 2, 1); (1, 0, 2); (2, 1, 0)]%nat.
Definition permuted (i j k : nat) (m : mat4) : mat4 := fun a b => m (perm_of i j k a) (perm_of i j k b).

Ltac perms P := repeat (destruct P as [P|P]; [injection P as <- <- <-|]); try destruct P.

Lemma permuted_rotation i j k m : is_perm i j k -> rotation m -> rotation (permuted i j k m).
Proof.
  intros P (O & D). split.
  - intros a b A B. unfold is_perm in P. cbn in P.
    assert (OO : forall u v, (u < 3)%nat -> (v < 3)%nat ->
      m 0%nat u * m 0%nat v + m 1%nat u * m 1%nat v + m 2%nat u * m 2%nat v = delta u v) by (exact O).
    unfold dot3, permuted.
    perms P; destruct a as [|[|[|a]]]; try lia; destruct b as [|[|[|b]]]; try lia; cbn [perm_of];
      match goal with |- m _ ?u * m _ ?v + _ + _ = _ => pose proof (OO u v ltac:(lia) ltac:(lia)) as E end;
      unfold delta in *; cbn [Nat.eqb] in *; lra.
  - rewrite <- D. unfold is_perm in P. cbn in P. unfold det3, at4, permuted.
    perms P; cbn [perm_of]; ring.
Qed.

Lemma known_perm a : known_axes a -> is_perm (axis_i a) (axis_j a) (axis_k a).
Proof.
  intros (name & H). unfold AXES2TUPLE in H. cbn [In] in H.
  repeat (destruct H as [H|H]; [injection H as _ <-; cbn; tauto|]). destruct H.
Qed.

Lemma unpermute i j k (P : nat -> nat -> Prop) : is_perm i j k ->
  (forall a b, (a < 3)%nat -> (b < 3)%nat -> P (perm_of i j k a) (perm_of i j k b)) ->
  forall a b, (a < 3)%nat -> (b < 3)%nat -> P a b.
Proof.
  intros PE H a b A B.
  assert (S : forall c, (c < 3)%nat -> exists d, (d < 3)%nat /\ perm_of i j k d = c).
  { intros c C. unfold is_perm in PE. cbn in PE.
    perms PE; destruct c as [|[|[|c]]]; try lia;
      ((exists 0%nat; split; [lia|reflexivity]) || (exists 1%nat; split; [lia|reflexivity]) ||
       (exists 2%nat; split; [lia|reflexivity])). }
  destruct (S a A) as (a' & A' & <-). destruct (S b B) as (b' & B' & <-). apply H; assumption.
Qed.

(** The matrix of three angles in the order of the axes. *)
Definition core (rep : bool) (ai aj ak : R) : mat4 :=
  let si := sin ai in let sj := sin aj in let sk := sin ak in
  let ci := cos ai in let cj := cos aj in let ck := cos ak in
  if rep then
    rows4 [[cj; sj * si; sj * ci]; [sj * sk; - cj * (si * sk) + ci * ck; - cj * (ci * sk) - si * ck];
           [- sj * ck; cj * (si * ck) + ci * sk; cj * (ci * ck) - si * sk]]
  else
    rows4 [[cj * ck; sj * (si * ck) - ci * sk; sj * (ci * ck) + si * sk];
           [cj * sk; sj * (si * sk) + ci * ck; sj * (ci * sk) - si * ck];
           [- sj; cj * si; cj * ci]].

Definition into (a : axes) (ai aj ak : R) : R * R * R :=
  let '(ai, ak) := if frame a then (ak, ai) else (ai, ak) in
  if parity a then (- ai, - aj, - ak) else (ai, aj, ak).

Lemma euler_matrix_core ax ai aj ak : is_perm (axis_i ax) (axis_j ax) (axis_k ax) ->
  forall a b, (a < 3)%nat -> (b < 3)%nat ->
  permuted (axis_i ax) (axis_j ax) (axis_k ax) (euler_matrix ai aj ak ax) a b =
  (let '(x, y, z) := into ax ai aj ak in core (repetition ax) x y z a b).
Proof.
  intros P a b A B. unfold permuted, euler_matrix, into.
  assert (E : forall u v w : R,
    (let i := axis_i ax in let j := axis_j ax in let k := axis_k ax in
     let si := sin u in let sj := sin v in let sk := sin w in
     let ci := cos u in let cj := cos v in let ck := cos w in
     let cc := ci * ck in let cs := ci * sk in
     let sc := si * ck in let ss := si * sk in
     let m := identity4 in
     if repetition ax then
       let m := set4 m i i cj in
       let m := set4 m i j (sj * si) in
       let m := set4 m i k (sj * ci) in
       let m := set4 m j i (sj * sk) in
       let m := set4 m j j (- cj * ss + cc) in
       let m := set4 m j k (- cj * cs - sc) in
       let m := set4 m k i (- sj * ck) in
       let m := set4 m k j (cj * sc + cs) in
       set4 m k k (cj * cc - ss)
     else
       let m := set4 m i i (cj * ck) in
       let m := set4 m i j (sj * sc - cs) in
       let m := set4 m i k (sj * cc + ss) in
       let m := set4 m j i (cj * sk) in
       let m := set4 m j j (sj * ss + cc) in
       let m := set4 m j k (sj * cs - sc) in
       let m := set4 m k i (- sj) in
       let m := set4 m k j (cj * si) in
       set4 m k k (cj * ci)) (perm_of (axis_i ax) (axis_j ax) (axis_k ax) a)
                             (perm_of (axis_i ax) (axis_j ax) (axis_k ax) b) = core (repetition ax) u v w a b).
  { intros u v w. unfold is_perm in P. cbn [In] in P.
    set (i := axis_i ax) in *. set (j := axis_j ax) in *. set (k := axis_k ax) in *. clearbody i j k.
    perms P; destruct a as [|[|[|a]]]; try lia; destruct b as [|[|[|b]]]; try lia;
      destruct (repetition ax); reflexivity. }
  destruct (frame ax), (parity ax); cbv beta iota; apply E.
Qed.

(** The angles of a matrix in the order of the axes. *)
Definition angles (rep : bool) (m : mat4) : R * R * R :=
  let m := at4 m in
  if rep then
    let sy := sqrt (at4 m 0 1 * at4 m 0 1 + at4 m 0 2 * at4 m 0 2) in
    if Rlt_dec EPS sy then
      (atan2 (at4 m 0 1) (at4 m 0 2), atan2 sy (at4 m 0 0), atan2 (at4 m 1 0) (- at4 m 2 0))
    else (atan2 (- at4 m 1 2) (at4 m 1 1), atan2 sy (at4 m 0 0), 0)
  else
    let cy := sqrt (at4 m 0 0 * at4 m 0 0 + at4 m 1 0 * at4 m 1 0) in
    if Rlt_dec EPS cy then
      (atan2 (at4 m 2 1) (at4 m 2 2), atan2 (- at4 m 2 0) cy, atan2 (at4 m 1 0) (at4 m 0 0))
    else (atan2 (- at4 m 1 2) (at4 m 1 1), atan2 (- at4 m 2 0) cy, 0).

Lemma into_euler_from m ax :
  (let '(x, y, z) := euler_from_matrix m ax in into ax x y z) =
  angles (repetition ax) (permuted (axis_i ax) (axis_j ax) (axis_k ax) m).
Proof.
  assert (E : euler_from_matrix m ax =
    let '(x, y, z) := angles (repetition ax) (permuted (axis_i ax) (axis_j ax) (axis_k ax) m) in
    let '(x, y, z) := if parity ax then (- x, - y, - z) else (x, y, z) in
    if frame ax then (z, y, x) else (x, y, z)) by reflexivity.
  rewrite E. clear E.
  destruct (angles _ _) as ((x & y) & z). unfold into.
  destruct (parity ax), (frame ax); rewrite ?Ropp_involutive; reflexivity.
Qed.

(** The size of the entries that vanish in gimbal lock. *)
Definition lock (rep : bool) (m : mat4) : R :=
  if rep then sqrt (at4 m 0 1 * at4 m 0 1 + at4 m 0 2 * at4 m 0 2)
  else sqrt (at4 m 0 0 * at4 m 0 0 + at4 m 1 0 * at4 m 1 0).

Ltac name_entries m :=
  set (a := m 0%nat 0%nat) in *; set (b := m 0%nat 1%nat) in *; set (c := m 0%nat 2%nat) in *;
  set (d := m 1%nat 0%nat) in *; set (e := m 1%nat 1%nat) in *; set (f := m 1%nat 2%nat) in *;
  set (g := m 2%nat 0%nat) in *; set (h := m 2%nat 1%nat) in *; set (i := m 2%nat 2%nat) in *;
  clearbody a b c d e f g h i.

Ltac poses m SQ :=
  pose proof (SQ (m 0%nat 0%nat)); pose proof (SQ (m 0%nat 1%nat)); pose proof (SQ (m 0%nat 2%nat));
  pose proof (SQ (m 1%nat 0%nat)); pose proof (SQ (m 1%nat 1%nat)); pose proof (SQ (m 1%nat 2%nat));
  pose proof (SQ (m 2%nat 0%nat)); pose proof (SQ (m 2%nat 1%nat)); pose proof (SQ (m 2%nat 2%nat)).
Lemma entries3 (m : mat4) p q : (p < 3)%nat -> (q < 3)%nat ->
  m p q = rows4 [[m 0%nat 0%nat; m 0%nat 1%nat; m 0%nat 2%nat]; [m 1%nat 0%nat; m 1%nat 1%nat; m 1%nat 2%nat];
                 [m 2%nat 0%nat; m 2%nat 1%nat; m 2%nat 2%nat]] p q.
Proof.
  intros P Q. destruct p as [|[|[|p]]]; try lia; destruct q as [|[|[|q]]]; try lia; reflexivity.
Qed.

Lemma sqrt_one_of x : x = 1 -> sqrt x = 1.
Proof. intros ->. apply sqrt_1. Qed.

Lemma core_angles_false m : rotation m -> EPS < lock false m ->
  same3 (let '(x, y, z) := angles false m in core false x y z) m.
Proof.
  intros H L. pose proof (rotation_cof m H) as C.
  pose proof (rotation_rows m H 2%nat ltac:(lia)) as R2. cbn [Nat.eqb] in R2.
  pose proof (rotation_columns m H 0%nat 0%nat ltac:(lia) ltac:(lia)) as G0.
  unfold lock, angles in *. unfold cof, at4, delta in *. cbn [Nat.eqb] in *.
  set (cy := sqrt _) in *. destruct (Rlt_dec EPS cy) as [_|X]; [|lra].
  pose proof EPS_pos as EP. assert (CY : 0 < cy) by lra.
  assert (CC : cy * cy = m 0%nat 0%nat * m 0%nat 0%nat + m 1%nat 0%nat * m 1%nat 0%nat).
  { unfold cy. rewrite sqrt_sqrt; [reflexivity|]. apply Rplus_le_le_0_compat; apply Rle_0_sqr. }
  assert (S1 : sqrt (m 2%nat 2%nat * m 2%nat 2%nat + m 2%nat 1%nat * m 2%nat 1%nat) = cy).
  { replace (m 2%nat 2%nat * m 2%nat 2%nat + m 2%nat 1%nat * m 2%nat 1%nat) with (cy * cy) by lra.
    apply sqrt_square. lra. }
  assert (S2 : sqrt (m 0%nat 0%nat * m 0%nat 0%nat + m 1%nat 0%nat * m 1%nat 0%nat) = cy) by reflexivity.
  clearbody cy.
  assert (CP : 0 < cy * cy) by nra.
  destruct (atan2_polar (m 2%nat 1%nat) (m 2%nat 2%nat)) as (ci & si); [lra|]. rewrite S1 in ci, si.
  destruct (atan2_polar (m 1%nat 0%nat) (m 0%nat 0%nat)) as (ck & sk); [lra|]. rewrite S2 in ck, sk.
  destruct (atan2_polar (- m 2%nat 0%nat) cy) as (cj & sj); [pose proof (Rle_0_sqr (m 0%nat 0%nat)); pose proof (Rle_0_sqr (m 2%nat 0%nat)); unfold Rsqr in *; lra|]. rewrite sqrt_one_of in cj, sj by lra.
  intros p q P Q. rewrite (entries3 m p q P Q). unfold core. rewrite ci, si, ck, sk, cj, sj.
  name_entries m. destruct C as ((C00 & C01 & C02) & (C10 & C11 & C12) & (C20 & C21 & C22)).
  assert (K : cy * cy = 1 - g * g) by lra.
  assert (Z : forall x y, x = y * (cy * cy) -> x / (cy * cy) = y) by (intros x y ->; field; lra).
  destruct p as [|[|[|p]]]; try lia; destruct q as [|[|[|q]]]; try lia; unfold rows4; cbn [List.nth]; try (field; lra).
  - replace (- g / 1 * (h / cy * (a / cy)) - i / cy * (d / cy)) with ((- g * h * a - i * d) / (cy * cy)) by (field; lra).
    apply Z. rewrite K. transitivity (b - g * g * b); [|ring]. rewrite C01 at 1.
    replace (f * g - d * i - g * g * b) with (g * (f - g * b) - d * i) by ring. rewrite C12 at 1. ring.
  - replace (- g / 1 * (i / cy * (a / cy)) + h / cy * (d / cy)) with ((- g * i * a + h * d) / (cy * cy)) by (field; lra).
    apply Z. rewrite K. transitivity (c - g * g * c); [|ring]. rewrite C02 at 1.
    replace (d * h - e * g - g * g * c) with (- g * (e + g * c) + d * h) by ring. rewrite C11 at 1. ring.
  - replace (- g / 1 * (h / cy * (d / cy)) + i / cy * (a / cy)) with ((- g * h * d + i * a) / (cy * cy)) by (field; lra).
    apply Z. rewrite K. transitivity (e - g * g * e); [|ring]. rewrite C11 at 1.
    replace (a * i - c * g - g * g * e) with (- g * (c + g * e) + a * i) by ring. rewrite C02 at 1. ring.
  - replace (- g / 1 * (i / cy * (d / cy)) - h / cy * (a / cy)) with ((- g * i * d - h * a) / (cy * cy)) by (field; lra).
    apply Z. rewrite K. transitivity (f - g * g * f); [|ring]. rewrite C12 at 1.
    replace (b * g - a * h - g * g * f) with (g * (b - g * f) - a * h) by ring. rewrite C01 at 1. ring.
Qed.

Lemma core_angles_true m : rotation m -> EPS < lock true m ->
  same3 (let '(x, y, z) := angles true m in core true x y z) m.
Proof.
  intros H L. pose proof (rotation_cof m H) as C.
  pose proof (rotation_rows m H 0%nat ltac:(lia)) as R0. cbn [Nat.eqb] in R0.
  pose proof (rotation_columns m H 0%nat 0%nat ltac:(lia) ltac:(lia)) as G0.
  unfold lock, angles in *. unfold cof, at4, delta in *. cbn [Nat.eqb] in *.
  set (sy := sqrt _) in *. destruct (Rlt_dec EPS sy) as [_|X]; [|lra].
  pose proof EPS_pos as EP. assert (CY : 0 < sy) by lra.
  assert (CC : sy * sy = m 0%nat 1%nat * m 0%nat 1%nat + m 0%nat 2%nat * m 0%nat 2%nat).
  { unfold sy. rewrite sqrt_sqrt; [reflexivity|]. apply Rplus_le_le_0_compat; apply Rle_0_sqr. }
  assert (S1 : sqrt (m 0%nat 2%nat * m 0%nat 2%nat + m 0%nat 1%nat * m 0%nat 1%nat) = sy).
  { replace (m 0%nat 2%nat * m 0%nat 2%nat + m 0%nat 1%nat * m 0%nat 1%nat) with (sy * sy) by lra.
    apply sqrt_square. lra. }
  assert (S2 : sqrt (- m 2%nat 0%nat * - m 2%nat 0%nat + m 1%nat 0%nat * m 1%nat 0%nat) = sy).
  { replace (- m 2%nat 0%nat * - m 2%nat 0%nat + m 1%nat 0%nat * m 1%nat 0%nat) with (sy * sy) by lra.
    apply sqrt_square. lra. }
  clearbody sy.
  assert (CP : 0 < sy * sy) by nra.
  destruct (atan2_polar (m 0%nat 1%nat) (m 0%nat 2%nat)) as (ci & si); [lra|]. rewrite S1 in ci, si.
  destruct (atan2_polar (m 1%nat 0%nat) (- m 2%nat 0%nat)) as (ck & sk); [lra|]. rewrite S2 in ck, sk.
  destruct (atan2_polar sy (m 0%nat 0%nat)) as (cj & sj); [pose proof (Rle_0_sqr (m 0%nat 0%nat)); pose proof (Rle_0_sqr (m 2%nat 0%nat)); unfold Rsqr in *; lra|]. rewrite sqrt_one_of in cj, sj by lra.
  intros p q P Q. rewrite (entries3 m p q P Q). unfold core. rewrite ci, si, ck, sk, cj, sj.
  name_entries m. destruct C as ((C00 & C01 & C02) & (C10 & C11 & C12) & (C20 & C21 & C22)).
  assert (K : sy * sy = 1 - a * a) by lra.
  assert (Z : forall x y, x = y * (sy * sy) -> x / (sy * sy) = y) by (intros x y ->; field; lra).
  destruct p as [|[|[|p]]]; try lia; destruct q as [|[|[|q]]]; try lia; unfold rows4; cbn [List.nth]; try (field; lra).
  - replace (- (a / 1) * (b / sy * (d / sy)) + c / sy * (- g / sy)) with ((- a * b * d - c * g) / (sy * sy)) by (field; lra).
    apply Z. rewrite K. transitivity (e - a * a * e); [|ring]. rewrite C11 at 1.
    replace (a * i - c * g - a * a * e) with (a * (i - a * e) - c * g) by ring. rewrite C22 at 1. ring.
  - replace (- (a / 1) * (c / sy * (d / sy)) - b / sy * (- g / sy)) with ((- a * c * d + b * g) / (sy * sy)) by (field; lra).
    apply Z. rewrite K. transitivity (f - a * a * f); [|ring]. rewrite C12 at 1.
    replace (b * g - a * h - a * a * f) with (- a * (h + a * f) + b * g) by ring. rewrite C21 at 1. ring.
  - replace (a / 1 * (b / sy * (- g / sy)) + c / sy * (d / sy)) with ((- a * b * g + c * d) / (sy * sy)) by (field; lra).
    apply Z. rewrite K. transitivity (h - a * a * h); [|ring]. rewrite C21 at 1.
    replace (c * d - a * f - a * a * h) with (- a * (f + a * h) + c * d) by ring. rewrite C12 at 1. ring.
  - replace (a / 1 * (c / sy * (- g / sy)) - b / sy * (d / sy)) with ((- a * c * g - b * d) / (sy * sy)) by (field; lra).
    apply Z. rewrite K. transitivity (i - a * a * i); [|ring]. rewrite C22 at 1.
    replace (a * e - b * d - a * a * i) with (a * (e - a * i) - b * d) by ring. rewrite C11 at 1. ring.
Qed.

(** In gimbal lock the result is off by at most twice [EPS]. *)
Lemma scaled_close x r : 0 < r -> r <= 1 -> Rabs x <= r -> Rabs (x / r - x) <= 1 - r.
Proof.
  intros P L A. replace (x / r - x) with (x * ((1 - r) / r)) by (field; lra).
  rewrite Rabs_mult. rewrite (Rabs_right ((1 - r) / r)).
  - apply (Rle_trans _ (r * ((1 - r) / r))); [|right; field; lra].
    apply Rmult_le_compat_r; [|exact A]. apply Rmult_le_pos; [lra|]. apply Rlt_le, Rinv_0_lt_compat, P.
  - apply Rle_ge, Rmult_le_pos; [lra|]. apply Rlt_le, Rinv_0_lt_compat, P.
Qed.
Lemma abs_le_of_sqr x r : 0 <= r -> x * x <= r * r -> Rabs x <= r.
Proof. intros P L. apply Rabs_le. split; nra. Qed.
Lemma abs_mul1 x y r : Rabs x <= 1 -> Rabs y <= r -> Rabs (x * y) <= r.
Proof.
  intros A B. rewrite Rabs_mult. pose proof (Rabs_pos x). pose proof (Rabs_pos y). nra.
Qed.
Lemma abs_diff x y r s : Rabs x <= r -> Rabs y <= s -> Rabs (x - y) <= r + s.
Proof. intros A B. unfold Rabs in *. repeat destruct Rcase_abs; lra. Qed.

Lemma one_minus_root r d s : 0 < r -> r <= 1 -> r * r = 1 - d * d -> d * d <= s * s -> 0 <= s -> s <= 1 -> 1 - r <= s.
Proof. intros. assert (1 - r <= 1 - r * r) by nra. assert (s * s <= s) by nra. lra. Qed.
Lemma root_le1 r d : 0 < r -> r * r = 1 - d * d -> r <= 1.
Proof. intros P E. destruct (Rle_dec r 1); [assumption|]. exfalso. assert (0 <= d * d) by nra. nra. Qed.
Lemma below1 s : 0 <= s -> s < 1 -> s * s < 1.
Proof. intros. nra. Qed.

Lemma core_angles_lock rep m : rotation m -> lock rep m <= EPS ->
  forall p q, (p < 3)%nat -> (q < 3)%nat ->
  Rabs ((let '(x, y, z) := angles rep m in core rep x y z) p q - m p q) <= 2 * lock rep m.
Proof.
  intros H L. pose proof (rotation_cof m H) as C.
  pose proof (rotation_rows m H 0%nat ltac:(lia)) as R0. cbn [Nat.eqb] in R0.
  pose proof (rotation_rows m H 1%nat ltac:(lia)) as R1. cbn [Nat.eqb] in R1.
  pose proof (rotation_rows m H 2%nat ltac:(lia)) as R2. cbn [Nat.eqb] in R2.
  pose proof (rotation_columns m H 0%nat 0%nat ltac:(lia) ltac:(lia)) as G0.
  pose proof (rotation_columns m H 1%nat 1%nat ltac:(lia) ltac:(lia)) as G1.
  pose proof (rotation_columns m H 2%nat 2%nat ltac:(lia) ltac:(lia)) as G2.
  pose proof EPS_pos as EP. pose proof EPS_lt1 as EL.
  assert (SQ : forall x : R, 0 <= x * x) by (intros x; apply Rle_0_sqr).
  assert (One : forall x y z, x * x + y * y + z * z = 1 -> Rabs x <= 1 /\ Rabs y <= 1 /\ Rabs z <= 1).
  { intros x y z E. pose proof (SQ x); pose proof (SQ y); pose proof (SQ z). repeat split; apply abs_le_of_sqr; lra. }
  unfold lock, angles in *. unfold cof, at4, delta in *. cbn [Nat.eqb] in *. destruct rep.
  - set (s := sqrt _) in *. destruct (Rlt_dec EPS s) as [X|_]; [lra|].
    assert (S0 : 0 <= s) by apply sqrt_pos.
    assert (SS : s * s = m 0%nat 1%nat * m 0%nat 1%nat + m 0%nat 2%nat * m 0%nat 2%nat).
    { unfold s. rewrite sqrt_sqrt; [reflexivity|]. apply Rplus_le_le_0_compat; apply SQ. }
    clearbody s. pose proof (below1 s S0 ltac:(lra)) as S1.
    assert (SL : s <= 1) by lra. poses m SQ. intros p q P Q. rewrite (entries3 m p q P Q). unfold core.
    destruct (atan2_polar (- m 1%nat 2%nat) (m 1%nat 1%nat)) as (ci & si); [lra|].
    destruct (atan2_polar s (m 0%nat 0%nat)) as (cj & sj); [lra|]. rewrite sqrt_one_of in cj, sj by lra.
    rewrite sin_0, cos_0, ci, si, cj, sj.
    name_entries m. destruct C as ((C00 & C01 & C02) & (C10 & C11 & C12) & (C20 & C21 & C22)).
    set (r := sqrt _) in *.
    assert (RR : r * r = 1 - d * d) by (unfold r; rewrite sqrt_sqrt; lra).
    assert (RP : 0 < r) by (apply sqrt_lt_R0; lra). clearbody r.
    pose proof (root_le1 r d RP RR) as R1'.
    pose proof (one_minus_root r d s RP R1' RR ltac:(lra) S0 SL) as RS.
    assert (Fr : Rabs f <= r) by (apply abs_le_of_sqr; lra).
    assert (Er : Rabs e <= r) by (apply abs_le_of_sqr; lra).
    assert (Bs : Rabs b <= s) by (apply abs_le_of_sqr; lra).
    assert (Cs : Rabs c <= s) by (apply abs_le_of_sqr; lra).
    assert (Ds : Rabs d <= s) by (apply abs_le_of_sqr; lra).
    assert (Gs : Rabs g <= s) by (apply abs_le_of_sqr; lra).
    pose proof (scaled_close f r RP R1' Fr) as CF. pose proof (scaled_close e r RP R1' Er) as CE.
    destruct (One a b c ltac:(lra)) as (A1 & B1 & C1).
    destruct (One d e f ltac:(lra)) as (D1 & E1 & F1).
    assert (Fr1 : Rabs (- f / r) <= 1).
    { unfold Rdiv. rewrite Rabs_mult, Rabs_Ropp, (Rabs_right (/ r)) by (apply Rle_ge, Rlt_le, Rinv_0_lt_compat, RP).
      apply (Rmult_le_reg_r r); [exact RP|]. rewrite Rmult_assoc, Rinv_l by lra. lra. }
    assert (Er1 : Rabs (e / r) <= 1).
    { unfold Rdiv. rewrite Rabs_mult, (Rabs_right (/ r)) by (apply Rle_ge, Rlt_le, Rinv_0_lt_compat, RP).
      apply (Rmult_le_reg_r r); [exact RP|]. rewrite Rmult_assoc, Rinv_l by lra. lra. }
    destruct p as [|[|[|p]]]; try lia; destruct q as [|[|[|q]]]; try lia; unfold rows4; cbn [List.nth].
    + replace (a / 1 - a) with 0 by lra. rewrite Rabs_R0. lra.
    + replace (2 * s) with (s + s) by ring. apply abs_diff; [|exact Bs].
      replace (s / 1 * (- f / r)) with (- f / r * s) by (field; lra).
      apply abs_mul1; [exact Fr1|]. rewrite Rabs_right; lra.
    + replace (2 * s) with (s + s) by ring. apply abs_diff; [|exact Cs].
      replace (s / 1 * (e / r)) with (e / r * s) by (field; lra).
      apply abs_mul1; [exact Er1|]. rewrite Rabs_right; lra.
    + replace (s / 1 * 0 - d) with (- d) by lra. rewrite Rabs_Ropp. lra.
    + replace (- (a / 1) * (- f / r * 0) + e / r * 1 - e) with (e / r - e) by (field; lra). lra.
    + replace (- (a / 1) * (e / r * 0) - - f / r * 1 - f) with (f / r - f) by (field; lra). lra.
    + replace (- (s / 1) * 1 - g) with (- s - g) by lra. replace (2 * s) with (s + s) by ring.
      apply abs_diff; [|exact Gs]. rewrite Rabs_Ropp, Rabs_right; lra.
    + replace (a / 1 * (- f / r * 1) + e / r * 0 - h) with (- (a * (f / r - f)) - c * d) by (rewrite C21; field; lra).
      replace (2 * s) with (s + s) by ring. apply abs_diff.
      * rewrite Rabs_Ropp. apply abs_mul1; [exact A1|lra].
      * apply abs_mul1; assumption.
    + replace (a / 1 * (e / r * 1) - - f / r * 0 - i) with (a * (e / r - e) - - (b * d)) by (rewrite C22; field; lra).
      replace (2 * s) with (s + s) by ring. apply abs_diff.
      * apply abs_mul1; [exact A1|lra].
      * rewrite Rabs_Ropp. apply abs_mul1; assumption.
  - set (s := sqrt _) in *. destruct (Rlt_dec EPS s) as [X|_]; [lra|].
    assert (S0 : 0 <= s) by apply sqrt_pos.
    assert (SS : s * s = m 0%nat 0%nat * m 0%nat 0%nat + m 1%nat 0%nat * m 1%nat 0%nat).
    { unfold s. rewrite sqrt_sqrt; [reflexivity|]. apply Rplus_le_le_0_compat; apply SQ. }
    clearbody s. pose proof (below1 s S0 ltac:(lra)) as S1.
    assert (SL : s <= 1) by lra. poses m SQ. intros p q P Q. rewrite (entries3 m p q P Q). unfold core.
    destruct (atan2_polar (- m 1%nat 2%nat) (m 1%nat 1%nat)) as (ci & si); [lra|].
    destruct (atan2_polar (- m 2%nat 0%nat) s) as (cj & sj); [lra|]. rewrite sqrt_one_of in cj, sj by lra.
    rewrite sin_0, cos_0, ci, si, cj, sj.
    name_entries m. destruct C as ((C00 & C01 & C02) & (C10 & C11 & C12) & (C20 & C21 & C22)).
    set (r := sqrt _) in *.
    assert (RR : r * r = 1 - d * d) by (unfold r; rewrite sqrt_sqrt; lra).
    assert (RP : 0 < r) by (apply sqrt_lt_R0; lra). clearbody r.
    pose proof (root_le1 r d RP RR) as R1'.
    pose proof (one_minus_root r d s RP R1' RR ltac:(lra) S0 SL) as RS.
    assert (Fr : Rabs f <= r) by (apply abs_le_of_sqr; lra).
    assert (Er : Rabs e <= r) by (apply abs_le_of_sqr; lra).
    assert (As : Rabs a <= s) by (apply abs_le_of_sqr; lra).
    assert (Ds : Rabs d <= s) by (apply abs_le_of_sqr; lra).
    assert (Hs : Rabs h <= s) by (apply abs_le_of_sqr; lra).
    assert (Is : Rabs i <= s) by (apply abs_le_of_sqr; lra).
    pose proof (scaled_close f r RP R1' Fr) as CF. pose proof (scaled_close e r RP R1' Er) as CE.
    destruct (One g h i ltac:(lra)) as (G1' & HH1 & II1).
    assert (Fr1 : Rabs (- f / r) <= 1).
    { unfold Rdiv. rewrite Rabs_mult, Rabs_Ropp, (Rabs_right (/ r)) by (apply Rle_ge, Rlt_le, Rinv_0_lt_compat, RP).
      apply (Rmult_le_reg_r r); [exact RP|]. rewrite Rmult_assoc, Rinv_l by lra. lra. }
    assert (Er1 : Rabs (e / r) <= 1).
    { unfold Rdiv. rewrite Rabs_mult, (Rabs_right (/ r)) by (apply Rle_ge, Rlt_le, Rinv_0_lt_compat, RP).
      apply (Rmult_le_reg_r r); [exact RP|]. rewrite Rmult_assoc, Rinv_l by lra. lra. }
    replace (2 * s) with (s + s) by ring.
    destruct p as [|[|[|p]]]; try lia; destruct q as [|[|[|q]]]; try lia; unfold rows4; cbn [List.nth].
    + apply abs_diff; [|exact As]. replace (s / 1 * 1) with s by lra. rewrite Rabs_right; lra.
    + replace (- g / 1 * (- f / r * 1) - e / r * 0 - b) with (g * (f / r - f) - - (i * d)) by (rewrite C01; field; lra).
      apply abs_diff; [apply abs_mul1; [exact G1'|lra]|rewrite Rabs_Ropp; apply abs_mul1; assumption].
    + replace (- g / 1 * (e / r * 1) + - f / r * 0 - c) with (- (g * (e / r - e)) - h * d) by (rewrite C02; field; lra).
      apply abs_diff; [rewrite Rabs_Ropp; apply abs_mul1; [exact G1'|lra]|apply abs_mul1; assumption].
    + replace (s / 1 * 0 - d) with (- d) by lra. rewrite Rabs_Ropp. lra.
    + replace (- g / 1 * (- f / r * 0) + e / r * 1 - e) with (e / r - e) by (field; lra). lra.
    + replace (- g / 1 * (e / r * 0) - - f / r * 1 - f) with (f / r - f) by (field; lra). lra.
    + replace (- (- g / 1) - g) with 0 by lra. rewrite Rabs_R0. lra.
    + apply abs_diff; [|exact Hs]. replace (s / 1 * (- f / r)) with (- f / r * s) by (field; lra).
      apply abs_mul1; [exact Fr1|]. rewrite Rabs_right; lra.
    + apply abs_diff; [|exact Is]. replace (s / 1 * (e / r)) with (e / r * s) by (field; lra).
      apply abs_mul1; [exact Er1|]. rewrite Rabs_right; lra.
Qed.

(** ** The whole round trip *)
Lemma round_trip m ax : known_axes ax -> rotation m ->
  EPS < lock (repetition ax) (permuted (axis_i ax) (axis_j ax) (axis_k ax) m) ->
  same3 (let '(x, y, z) := euler_from_matrix m ax in euler_matrix x y z ax) m.
Proof.
  intros K H L. pose proof (known_perm ax K) as P.
  pose proof (permuted_rotation _ _ _ m P H) as H'.
  pose proof (into_euler_from m ax) as I. destruct (euler_from_matrix m ax) as ((x & y) & z).
  unfold same3. apply (unpermute _ _ _ _ P). intros a b A B.
  change (permuted (axis_i ax) (axis_j ax) (axis_k ax) (euler_matrix x y z ax) a b =
          permuted (axis_i ax) (axis_j ax) (axis_k ax) m a b).
  rewrite (euler_matrix_core ax x y z P a b A B), I.
  destruct (repetition ax).
  - pose proof (core_angles_true _ H' L a b A B) as E.
    destruct (angles true _) as ((u & v) & w). exact E.
  - pose proof (core_angles_false _ H' L a b A B) as E.
    destruct (angles false _) as ((u & v) & w). exact E.
Qed.

Lemma round_trip_lock m ax : known_axes ax -> rotation m ->
  lock (repetition ax) (permuted (axis_i ax) (axis_j ax) (axis_k ax) m) <= EPS ->
  forall p q, (p < 3)%nat -> (q < 3)%nat ->
  Rabs ((let '(x, y, z) := euler_from_matrix m ax in euler_matrix x y z ax) p q - m p q) <=
  2 * lock (repetition ax) (permuted (axis_i ax) (axis_j ax) (axis_k ax) m).
Proof.
  intros K H L. pose proof (known_perm ax K) as P.
  pose proof (permuted_rotation _ _ _ m P H) as H'.
  pose proof (into_euler_from m ax) as I. destruct (euler_from_matrix m ax) as ((x & y) & z).
  apply (unpermute _ _ _ (fun p q => Rabs (euler_matrix x y z ax p q - m p q) <= _) P). intros a b A B.
  change (Rabs (permuted (axis_i ax) (axis_j ax) (axis_k ax) (euler_matrix x y z ax) a b -
          permuted (axis_i ax) (axis_j ax) (axis_k ax) m a b) <= 2 * lock (repetition ax) (permuted (axis_i ax) (axis_j ax) (axis_k ax) m)).
  rewrite (euler_matrix_core ax x y z P a b A B), I.
  pose proof (core_angles_lock _ _ H' L a b A B) as E.
  destruct (angles _ _) as ((u & v) & w). exact E.
Qed.

(** Every triple of angles gives a rotation. *)
Lemma core_rotation rep x y z : rotation (core rep x y z).
Proof.
  pose proof (sin2_cos2 x) as X. pose proof (sin2_cos2 y) as Y. pose proof (sin2_cos2 z) as Z.
  unfold Rsqr in *. unfold core.
  set (si := sin x) in *. set (sj := sin y) in *. set (sk := sin z) in *.
  set (ci := cos x) in *. set (cj := cos y) in *. set (ck := cos z) in *. clearbody si sj sk ci cj ck.
  assert (X' : si ^ 2 = 1 - ci ^ 2) by (cbn; lra). assert (Y' : sj ^ 2 = 1 - cj ^ 2) by (cbn; lra).
  assert (Z' : sk ^ 2 = 1 - ck ^ 2) by (cbn; lra).
  split.
  - intros a b A B. destruct rep; destruct a as [|[|[|a]]]; try lia; destruct b as [|[|[|b]]]; try lia;
      unfold dot3, rows4, delta; cbn [List.nth Nat.eqb]; ring [X' Y' Z'].
  - destruct rep; unfold det3, at4, rows4; cbn [List.nth]; ring [X' Y' Z'].
Qed.

Lemma rotation_unpermute i j k m : is_perm i j k -> rotation (permuted i j k m) -> rotation m.
Proof.
  intros P (O & D). split.
  - refine (unpermute i j k _ P _). intros a b A B. pose proof (O a b A B) as E.
    unfold is_perm in P. cbn [In] in P. unfold dot3, permuted in *.
    perms P; destruct a as [|[|[|a]]]; try lia; destruct b as [|[|[|b]]]; try lia; cbn [perm_of] in *;
      unfold delta in *; cbn [Nat.eqb] in *; lra.
  - rewrite <- D. unfold is_perm in P. cbn in P. unfold det3, at4, permuted.
    perms P; cbn [perm_of]; ring.
Qed.

Lemma euler_rotation ax x y z : known_axes ax ->
  rotation (euler_matrix x y z ax) /\ no_translation (euler_matrix x y z ax).
Proof.
  intros K. pose proof (known_perm ax K) as P. split.
  - apply (rotation_unpermute _ _ _ _ P).
    destruct (into ax x y z) as ((u & v) & w) eqn:I.
    apply (rotation_ext _ (core (repetition ax) u v w)); [|apply core_rotation].
    intros a b A B. rewrite (euler_matrix_core ax x y z P a b A B), I. reflexivity.
  - intros a A. unfold is_perm in P. cbn [In] in P. unfold euler_matrix.
    set (i := axis_i ax) in *. set (j := axis_j ax) in *. set (k := axis_k ax) in *. clearbody i j k.
    destruct (frame ax), (parity ax), (repetition ax); perms P;
      destruct a as [|[|[|[|a]]]]; try lia; split; reflexivity.
Qed.
