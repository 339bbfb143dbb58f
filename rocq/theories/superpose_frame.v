(** * Frames, traces and sums (C113). *)

From Coq Require Import List Reals Lra Lia Nsatz Arith Bool.
Import ListNotations.
From Verif Require Import Py transf_model affine_model affine_spec affine_proof affine2_proof decompose_model decompose_spec decompose_gs superpose_model superpose_spec.
Local Open Scope R_scope.

Definition lin (e1 e2 e3 p : vec3) : vec3 := vadd (times (vx p) e1) (vadd (times (vy p) e2) (times (vz p) e3)).

Lemma ortho_triple a b c : ortho3 a b c -> triple a b c * triple a b c = 1 /\ vcross a b = times (triple a b c) c.
Proof. intros (A & B & C & D & E & F). apply orthonormal; assumption. Qed.
Lemma ortho_frame a b c : ortho3 a b c -> frame3 a b (times (triple a b c) c).
Proof. intros O. destruct (ortho_triple _ _ _ O) as (_ & X). destruct O as (A & B & _ & D & _). split; [exact A|split; [exact B|split; [exact D|exact X]]]. Qed.
Lemma frame_ortho a b c : frame3 a b c -> ortho3 a b c /\ triple a b c = 1.
Proof.
  intros F. destruct (frame_facts _ _ _ F) as (A & B & C & _ & X). split; [destruct F as (P & Q & R & _); repeat (split; [assumption|]); assumption|].
  unfold triple. rewrite X. destruct F as (P & _). exact P.
Qed.
(** Every vector by its coordinates. *)
Lemma complete a b c p : ortho3 a b c -> p = vadd (times (inner a p) a) (vadd (times (inner b p) b) (times (inner c p) c)).
Proof.
  intros O. destruct (ortho_triple _ _ _ O) as (T & _). pose proof (ortho_frame _ _ _ O) as F. set (t := triple a b c) in *. clearbody t.
  destruct O as (A & B & C & D & E & G). symmetry.
  assert (K : forall w, inner (vadd (times (inner a p) a) (vadd (times (inner b p) b) (times (inner c p) c))) w = inner a p * inner a w + inner b p * inner b w + inner c p * inner c w) by (clear; intros; flatten; ring).
  assert (SY : forall u v, inner u v = inner v u) by (clear; intros; flatten; ring).
  apply (frame_inj _ _ _ _ _ F).
  - rewrite K, A, (SY b a), D, (SY c a), E, (SY p a). ring.
  - rewrite K, D, B, (SY c b), G, (SY p b). ring.
  - rewrite !inner_times_r, K, E, G, C, (SY p c). ring.
Qed.
Lemma parseval a b c p q : ortho3 a b c -> inner p q = inner a p * inner a q + inner b p * inner b q + inner c p * inner c q.
Proof. intros O. rewrite (complete a b c p O) at 1. clear. flatten; ring. Qed.

Lemma lin_inner e1 e2 e3 p q : ortho3 e1 e2 e3 -> inner (lin e1 e2 e3 p) (lin e1 e2 e3 q) = inner p q.
Proof.
  intros (A & B & C & D & E & F). unfold lin.
  transitivity (vx p * vx q * inner e1 e1 + vy p * vy q * inner e2 e2 + vz p * vz q * inner e3 e3 + (vx p * vy q + vy p * vx q) * inner e1 e2 + (vx p * vz q + vz p * vx q) * inner e1 e3 + (vy p * vz q + vz p * vy q) * inner e2 e3).
  - clear. flatten; ring.
  - rewrite A, B, C, D, E, F. clear. flatten; ring.
Qed.
Lemma lin_ortho e1 e2 e3 a b c : ortho3 e1 e2 e3 -> ortho3 a b c -> ortho3 (lin e1 e2 e3 a) (lin e1 e2 e3 b) (lin e1 e2 e3 c).
Proof. intros O (A & B & C & D & E & F). unfold ortho3. rewrite !(lin_inner e1 e2 e3) by exact O. repeat (split; [assumption|]). assumption. Qed.
Lemma lin_triple e1 e2 e3 a b c : triple (lin e1 e2 e3 a) (lin e1 e2 e3 b) (lin e1 e2 e3 c) = triple e1 e2 e3 * triple a b c.
Proof. unfold lin. flatten. ring. Qed.

(** The trace of a rotation. *)
Lemma trace_frame p0 p1 p2 : frame3 p0 p1 p2 -> -1 <= vx p0 + vy p1 + vz p2.
Proof.
  intros F. destruct (frame_facts _ _ _ F) as (F2 & F02 & F12 & X1 & X0). destruct F as (U0 & U1 & O01 & X2).
  destruct p0 as [a d g], p1 as [b e h], p2 as [c f i].
  unfold inner in U0, U1, O01, F2, F02, F12. unfold vcross in X0, X1, X2. cbn [vx vy vz] in *.
  injection X0 as X0a X0b X0c. injection X1 as X1a X1b X1c. injection X2 as X2a X2b X2c.
  assert (E : (1 + a + e + i) * (1 + a + e + i) + (h - f) * (h - f) + (c - g) * (c - g) + (d - b) * (d - b) = 4 * (1 + a + e + i)).
  { assert (H : a * a + d * d + g * g + (b * b + e * e + h * h) + (c * c + f * f + i * i) = 3) by lra. clear - H X0a X1b X2c X0b X0c X1a X1c X2a X2b. nsatz. }
  pose proof (Rle_0_sqr (1 + a + e + i)). pose proof (Rle_0_sqr (h - f)). pose proof (Rle_0_sqr (c - g)). pose proof (Rle_0_sqr (d - b)). unfold Rsqr in *. lra.
Qed.

(** Two orthonormal systems of the same handedness. *)
Lemma trace_systems u0 u1 u2 w0 w1 w2 : ortho3 u0 u1 u2 -> ortho3 w0 w1 w2 -> triple u0 u1 u2 * triple w0 w1 w2 = 1 ->
  -1 <= inner w0 u0 + inner w1 u1 + inner w2 u2.
Proof.
  intros U W T.
  set (K := fun p => V3 (inner u0 p) (inner u1 p) (inner u2 p)).
  assert (KI : forall p q, inner (K p) (K q) = inner p q) by (intros p q; rewrite (parseval u0 u1 u2 p q U); reflexivity).
  assert (KO : ortho3 (K w0) (K w1) (K w2)) by (unfold ortho3; rewrite !KI; exact W).
  assert (KT : triple (K w0) (K w1) (K w2) = 1).
  { rewrite <- T. unfold K, triple. clear. flatten. ring. }
  pose proof (ortho_frame _ _ _ KO) as F. rewrite KT in F.
  assert (E : times 1 (K w2) = K w2) by (apply vec_eq; unfold times; cbn; ring). rewrite E in F.
  pose proof (trace_frame _ _ _ F) as L. unfold K in L. cbn [vx vy vz] in L.
  assert (SY : forall u v, inner u v = inner v u) by (clear; intros; flatten; ring). rewrite (SY w0), (SY w1), (SY w2). exact L.
Qed.
Lemma inner_nonneg u : 0 <= inner u u.
Proof. unfold inner. pose proof (Rle_0_sqr (vx u)). pose proof (Rle_0_sqr (vy u)). pose proof (Rle_0_sqr (vz u)). unfold Rsqr in *. lra. Qed.
Lemma unit_bound u w : inner u u = 1 -> inner w w = 1 -> inner u w <= 1.
Proof.
  intros U W. pose proof (inner_nonneg (vsub u w)) as H.
  assert (E : inner (vsub u w) (vsub u w) = inner u u + inner w w - 2 * inner u w) by (clear; flatten; ring). lra.
Qed.
Lemma unit_equal u w : inner u u = 1 -> inner w w = 1 -> inner u w = 1 -> u = w.
Proof.
  intros U W V. destruct (zero_dec (vsub u w)) as [Z|Z].
  - apply vec_eq; [apply (f_equal vx) in Z|apply (f_equal vy) in Z|apply (f_equal vz) in Z]; unfold vsub in Z; cbn in Z; lra.
  - apply inner_pos in Z. assert (E : inner (vsub u w) (vsub u w) = inner u u + inner w w - 2 * inner u w) by (clear; flatten; ring). lra.
Qed.

(** ** Sums over points *)
Lemma rsum_plus {A} (f g : A -> R) l : rsum (map (fun x => f x + g x) l) = rsum (map f l) + rsum (map g l).
Proof. unfold rsum. induction l as [|x l IH]; cbn [map fold_right]; [ring|]. rewrite IH. ring. Qed.
Lemma rsum_scal {A} c (f : A -> R) l : rsum (map (fun x => c * f x) l) = c * rsum (map f l).
Proof. unfold rsum. induction l as [|x l IH]; cbn [map fold_right]; [ring|]. rewrite IH. ring. Qed.
Lemma rsum_ext {A} (f g : A -> R) l : (forall x, f x = g x) -> rsum (map f l) = rsum (map g l).
Proof. intros E. unfold rsum. induction l as [|x l IH]; cbn [map fold_right]; [reflexivity|]. rewrite IH, E. reflexivity. Qed.
Lemma cross_sum_swap f g v w : cross_sum f g v w = cross_sum g f w v.
Proof. unfold cross_sum, rsum. revert w. induction v as [|p v IH]; intros [|q w]; cbn [map combine fold_right]; [reflexivity..|]. rewrite IH. cbn [fst snd]. ring. Qed.

(** How well the turned points point to the others. *)
Definition agree (e1 e2 e3 : vec3) (a b : list vec3) : R := rsum (map (fun p => inner (lin e1 e2 e3 (snd p)) (fst p)) (combine b a)).
Lemma agree_covariance e1 e2 e3 a b : let h := covariance b a in
  agree e1 e2 e3 a b =
  vx e1 * h 0%nat 0%nat + vy e1 * h 1%nat 0%nat + vz e1 * h 2%nat 0%nat + (vx e2 * h 0%nat 1%nat + vy e2 * h 1%nat 1%nat + vz e2 * h 2%nat 1%nat) +
  (vx e3 * h 0%nat 2%nat + vy e3 * h 1%nat 2%nat + vz e3 * h 2%nat 2%nat).
Proof.
  cbv zeta. unfold agree, covariance, cross_sum, coord. set (l := combine b a). clearbody l.
  rewrite <- !rsum_scal, <- !rsum_plus. apply rsum_ext. intros [q p]. cbn [fst snd]. unfold lin. flatten. ring.
Qed.

Definition squares (v : list vec3) : R := rsum (map (fun p => vx p * vx p + vy p * vy p + vz p * vz p) v).
Lemma squares_pos v : 0 <= squares v.
Proof. unfold squares, rsum. induction v as [|p v IH]; cbn [map fold_right]; [lra|]. pose proof (inner_nonneg p) as H. unfold inner in H. lra. Qed.

Lemma deviation_sum c e1 e2 e3 t t0 t1 v0 v1 : ortho3 e1 e2 e3 -> length v0 = length v1 ->
  let a := centred v0 t0 in let b := centred v1 t1 in let d := vsub (vadd (times c (lin e1 e2 e3 t0)) t) t1 in
  deviation (similar c e1 e2 e3 t) v0 v1 =
  c * c * squares a + squares b - 2 * c * agree e1 e2 e3 a b + INR (length v0) * inner d d + 2 * inner d (vsub (times c (lin e1 e2 e3 (total a))) (total b)).
Proof.
  intros O L a b d. unfold a, b, squares, agree. clear a b. revert v1 L. induction v0 as [|p v0 IH]; intros [|q v1] L; try discriminate L.
  - cbn. clear. clearbody d. unfold lin. flatten. ring.
  - injection L as L. cbn [deviation length centred map combine total rsum fold_right]. rewrite (IH v1 L). rewrite S_INR. clear IH.
    set (a := V3 (vx p - vx t0) (vy p - vy t0) (vz p - vz t0)). set (b := V3 (vx q - vx t1) (vy q - vy t1) (vz q - vz t1)). cbn [fst snd].
    assert (E : vsub (similar c e1 e2 e3 t p) q = vadd (vsub (times c (lin e1 e2 e3 a)) b) d).
    { unfold a, b, d, similar, lin. clear. apply vec_eq; flatten; ring. }
    rewrite E.
    assert (Q : inner (vadd (vsub (times c (lin e1 e2 e3 a)) b) d) (vadd (vsub (times c (lin e1 e2 e3 a)) b) d) =
      c * c * inner (lin e1 e2 e3 a) (lin e1 e2 e3 a) + inner b b - 2 * c * inner (lin e1 e2 e3 a) b + inner d d + 2 * inner d (vsub (times c (lin e1 e2 e3 a)) b)).
    { generalize (lin e1 e2 e3 a). intros x. clearbody b d. clear. flatten. ring. }
    rewrite Q, (lin_inner e1 e2 e3 a a O).
    fold (squares (centred v0 t0)). 
    assert (T : lin e1 e2 e3 (vadd a (total (centred v0 t0))) = vadd (lin e1 e2 e3 a) (lin e1 e2 e3 (total (centred v0 t0)))).
    { generalize (total (centred v0 t0)). intros x. unfold lin. clearbody a. clear. apply vec_eq; flatten; ring. }
    unfold centred in T. rewrite T. fold (rsum (map (fun p0 => inner (lin e1 e2 e3 (snd p0)) (fst p0)) (combine (map (fun p0 => V3 (vx p0 - vx t1) (vy p0 - vy t1) (vz p0 - vz t1)) v1) (map (fun p0 => V3 (vx p0 - vx t0) (vy p0 - vy t0) (vz p0 - vz t0)) v0)))).
    unfold squares, centred.
    generalize (rsum (map (fun p0 => inner (lin e1 e2 e3 (snd p0)) (fst p0)) (combine (map (fun p0 => V3 (vx p0 - vx t1) (vy p0 - vy t1) (vz p0 - vz t1)) v1) (map (fun p0 => V3 (vx p0 - vx t0) (vy p0 - vy t0) (vz p0 - vz t0)) v0)))).
    generalize (total (map (fun p0 => V3 (vx p0 - vx t1) (vy p0 - vy t1) (vz p0 - vz t1)) v1)).
    generalize (lin e1 e2 e3 (total (map (fun p0 => V3 (vx p0 - vx t0) (vy p0 - vy t0) (vz p0 - vz t0)) v0))).
    generalize (INR (length v0)). generalize (lin e1 e2 e3 a). intros x n y z s. unfold rsum.
    assert (IA : inner a a = vx a * vx a + vy a * vy a + vz a * vz a) by reflexivity. assert (IB : inner b b = vx b * vx b + vy b * vy b + vz b * vz b) by reflexivity.
    rewrite IA, IB. clear IA IB Q E T L O. clearbody a b d. 
    match goal with |- context [fold_right Rplus 0 ?l] => generalize (fold_right Rplus 0 l); intros r1 end.
    match goal with |- context [fold_right Rplus 0 ?l] => generalize (fold_right Rplus 0 l); intros r2 end.
    clear. unfold inner, vsub, vadd, times. cbn [vx vy vz]. ring.
Qed.

Lemma total_centred v t : total (centred v t) = vsub (total v) (times (INR (length v)) t).
Proof.
  induction v as [|p v IH]; cbn [total centred map length]; [apply vec_eq; unfold vsub, times, vzero; cbn; ring|].
  unfold centred in IH. rewrite IH, S_INR. clear. apply vec_eq; unfold vsub, vadd, times; cbn; ring.
Qed.
Lemma total_parts v : total v = V3 (rsum (map vx v)) (rsum (map vy v)) (rsum (map vz v)).
Proof. induction v as [|p v IH]; [reflexivity|]. cbn [total map]. rewrite IH. reflexivity. Qed.
Lemma mean_centre v : v <> [] -> centre v (mean3 v).
Proof.
  intros N. unfold centre. rewrite total_parts. unfold mean3. assert (INR (length v) <> 0) by (apply not_0_INR; destruct v; [congruence|discriminate]).
  apply vec_eq; unfold times; cbn [vx vy vz]; field; assumption.
Qed.
Lemma centred_zero v c : centre v c -> total (centred v c) = vzero.
Proof. intros C. rewrite total_centred, C. apply vec_eq; unfold vsub, vzero; cbn; ring. Qed.
Lemma centre_unique v c : v <> [] -> centre v c -> c = mean3 v.
Proof.
  intros N C. pose proof (mean_centre v N) as M. unfold centre in *. rewrite C in M.
  assert (K : INR (length v) <> 0) by (apply not_0_INR; destruct v; [congruence|discriminate]).
  apply vec_eq; [apply (f_equal vx) in M|apply (f_equal vy) in M|apply (f_equal vz) in M]; unfold times in M; cbn [vx vy vz] in M; eapply Rmult_eq_reg_l; eassumption.
Qed.

(** The deviation of a similarity, from the sums of the centred points. *)
Lemma deviation_centred c e1 e2 e3 t v0 v1 : ortho3 e1 e2 e3 -> length v0 = length v1 -> v0 <> [] ->
  let t0 := mean3 v0 in let t1 := mean3 v1 in let a := centred v0 t0 in let b := centred v1 t1 in let d := vsub (vadd (times c (lin e1 e2 e3 t0)) t) t1 in
  deviation (similar c e1 e2 e3 t) v0 v1 = c * c * squares a + squares b - 2 * c * agree e1 e2 e3 a b + INR (length v0) * inner d d.
Proof.
  intros O L N t0 t1 a b d. rewrite (deviation_sum c e1 e2 e3 t t0 t1 v0 v1 O L). fold a b d.
  assert (N1 : v1 <> []) by (intros ->; destruct v0; [congruence|discriminate]).
  unfold a, b. rewrite (centred_zero v0 t0 (mean_centre v0 N)), (centred_zero v1 t1 (mean_centre v1 N1)).
  assert (Z : inner d (vsub (times c (lin e1 e2 e3 vzero)) vzero) = 0) by (clearbody d; clear; unfold lin; flatten; ring). rewrite Z. ring.
Qed.
