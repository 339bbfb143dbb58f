(** * Lemmas on programs that use a trackball. *)

From Coq Require Import List ZArith Reals Bool Lra Lia Nsatz.
Import ListNotations.
From Verif Require Import Py transf_model transf_spec transf_proof transf_back affine_model affine_spec affine_proof affine_quat arcball_model arcball_spec arcball_slerp arcball_proof.
Local Open Scope R_scope.

(** ** Angles that are large enough *)
Lemma cos_below a : 0 <= a -> 1 - cos a <= a * a / 2.
Proof.
  intros A. destruct A as [A| <-]; [|rewrite cos_0; lra]. replace a with (2 * (a / 2)) at 1 by field. rewrite cos_2a_sin.
  pose proof (SIN_bound (a / 2)) as SB. destruct (Rle_dec 2 a) as [G|G].
  - pose proof (sin2_cos2 (a / 2)) as SC. unfold Rsqr in SC. nra.
  - assert (S : 0 < sin (a / 2)) by (apply sin_gt_0; pose proof PI2_1; lra). assert (T : sin (a / 2) < a / 2) by (apply sin_lt_x; lra). nra.
Qed.
Lemma acos_big d : -1 <= d -> EPS <= 1 - d -> EPS <= acos d.
Proof.
  intros D E. pose proof EPS_pos as EP. pose proof EPS_small as ES. destruct (acos_bound d) as (A & B). pose proof (cos_below _ A) as C. rewrite cos_acos in C by lra.
  destruct (Rle_dec EPS (acos d)) as [|G]; [assumption|]. exfalso. nra.
Qed.
Lemma angle_big d k : -1 <= d -> EPS <= 1 - d -> EPS <= Rabs (acos d + IZR (2 * k) * PI).
Proof.
  intros D E. pose proof (acos_big d D E) as A. destruct (acos_bound d) as (_ & B). pose proof PI2_1 as P2. pose proof EPS_small as ES. pose proof EPS_pos as EP. rewrite mult_IZR.
  destruct (Ztrichotomy k 0) as [K|[K|K]].
  - assert (X : IZR k <= -1) by (apply (IZR_le k (-1)); lia). assert (Y : IZR 2 * IZR k * PI <= - 2 * PI) by (change (IZR 2) with 2; nra). rewrite Rabs_left; lra.
  - subst k. rewrite Rmult_0_r, Rmult_0_l, Rplus_0_r. rewrite Rabs_pos_eq; lra.
  - assert (X : 1 <= IZR k) by (apply (IZR_le 1 k); lia). assert (Y : 0 <= IZR 2 * IZR k * PI) by (change (IZR 2) with 2; nra). rewrite Rabs_pos_eq; lra.
Qed.
Lemma facing_inner short p q : qinner p p = 1 -> qinner q q = 1 -> EPS <= 1 - Rabs (qinner p q) ->
  -1 <= qinner p (facing short p q) /\ EPS <= 1 - qinner p (facing short p q).
Proof.
  intros P Q E. pose proof EPS_pos. pose proof (cauchy p q P Q) as CS. unfold facing. destruct (short && _)%bool.
  - replace (qinner p (qmul (-1) q)) with (- qinner p q) by (unfold qinner, qmul; cbn; ring). unfold Rabs in E. destruct (Rcase_abs _); lra.
  - unfold Rabs in E. destruct (Rcase_abs _); lra.
Qed.
Lemma slerp_arc quat0 quat1 p q f k short : direction_of quat0 p -> direction_of quat1 q -> f <> 0 -> f <> 1 -> EPS <= 1 - Rabs (qinner p q) ->
  exists e, on_arc p e (acos (qinner p (facing short p q))) (facing short p q) /\
    on_arc p e (f * (acos (qinner p (facing short p q)) + IZR (2 * k) * PI)) (quaternion_slerp quat0 quat1 f (2 * k) short).
Proof.
  intros DP DQ F0 F1 E. destruct (facing_inner short p q (proj1 DP) (proj1 DQ) E) as (A & B).
  apply (slerp_between quat0 quat1 p q f k short DP DQ F0 F1 E). apply angle_big; assumption.
Qed.

(** ** The circle's point is unique *)
Lemma drawn_unique a p c c' : far_from a p -> drawn_to a p c -> drawn_to a p c' -> c = c'.
Proof.
  intros F ((C1 & C2) & s & PE & SC) ((C1' & C2') & s' & PE' & SC'). pose proof EPS_pos as EP.
  assert (V : forall k x, p = vadd (times (inner a p) a) (times k x) -> vsub p (times (inner a p) a) = times k x).
  { intros k x H. set (i := inner a p) in *. clearbody i. rewrite H. destruct a, x. unfold vsub, vadd, times. cbn. apply vec_eq; cbn; ring. }
  unfold far_from in F. assert (Eq : times s c = times s' c') by (rewrite <- (V s c PE); apply (V s' c' PE')). rewrite (V s c PE) in F.
  assert (I1 : inner (times s c) (times s c) = s * s) by (transitivity (s * s * inner c c); [unfold inner, times; cbn; ring|rewrite C1; ring]).
  assert (I2 : inner (times s c) (times s c) = s' * s') by (rewrite Eq; transitivity (s' * s' * inner c' c'); [unfold inner, times; cbn; ring|rewrite C1'; ring]).
  unfold vlength in F. rewrite I1 in F. assert (S0 : s <> 0) by (intros ->; rewrite Rmult_0_l, sqrt_0 in F; lra).
  assert (SS : s = s' \/ s = - s') by (assert (X : (s - s') * (s + s') = 0) by nra; destruct (Rmult_integral _ _ X); [left|right]; lra).
  destruct c as [x y z], c' as [x' y' z']. unfold times in Eq. cbn in *. injection Eq as A B C.
  destruct SS as [-> | ->].
  - f_equal; apply (Rmult_eq_reg_l s'); assumption.
  - exfalso. assert (z = - z') by (apply (Rmult_eq_reg_l (- s')); lra). destruct SC as [SC|(SC & SC2)], SC' as [SC'|(SC' & SC2')]; lra.
Qed.
Lemma constrain_spec p a : unit_axis a -> exists c, arcball_constrain_to_axis p a = Some c /\ on_circle a c /\ (far_from a p -> drawn_to a p c).
Proof.
  intros (U & N). destruct (constrain_some p a U N) as (c & E & O). exists c. split; [exact E|]. split; [exact O|]. intros F. apply constrain_off; assumption.
Qed.
Lemma nearest_spec p axes : inner p p = 1 -> 0 <= vz p -> axes <> [] -> Forall unit_axis axes ->
  exists a c l1 l2, arcball_nearest_axis p axes = Some a /\ axes = l1 ++ a :: l2 /\ arcball_constrain_to_axis p a = Some c /\ on_circle a c /\ (far_from a p -> drawn_to a p c) /\
    forall a' c', far_from a' p -> drawn_to a' p c' -> (In a' l1 -> inner c' p < inner c p) /\ (In a' l2 -> inner c' p <= inner c p).
Proof.
  intros P Z N F. destruct (nearest_ok p axes P Z N F) as (a & t & l1 & l2 & E & EL & (c & EC & ->) & B1 & B2). exists a, c, l1, l2.
  assert (UA : Forall unit_axis (l1 ++ a :: l2)) by (rewrite <- EL; exact F).
  destruct (constrain_spec p a) as (c0 & E0 & O & D). { apply (proj1 (Forall_forall _ _) UA). apply in_or_app. right. left. reflexivity. }
  rewrite EC in E0. injection E0 as <-. do 5 (split; [assumption|]). intros a' c' FA DA. split; intros I.
  - assert (U : unit_axis a') by (apply (proj1 (Forall_forall _ _) UA); apply in_or_app; left; exact I).
    destruct (constrain_spec p a' U) as (c1 & E1 & _ & D1). rewrite (drawn_unique a' p c' c1 FA DA (D1 FA)). apply (B1 a' _ I). exists c1. auto.
  - assert (U : unit_axis a') by (apply (proj1 (Forall_forall _ _) UA); apply in_or_app; right; right; exact I).
    destruct (constrain_spec p a' U) as (c1 & E1 & _ & D1). rewrite (drawn_unique a' p c' c1 FA DA (D1 FA)). apply (B2 a' _ I). exists c1. auto.
Qed.

(** ** The start *)
Lemma init_steady i : good_initial i -> exists b, arcball_init i = Ok b /\ steady b /\ b_axis b = None /\ b_axes b = None.
Proof.
  intros G. assert (S : forall q, qinner q q = 1 -> steady (Ball None None 1 (0, 0) (V3 0 0 1) false q q q)).
  { intros q Q. unfold steady. cbn. repeat split; try assumption; try (intros; discriminate); [unfold inner; cbn; ring|lra]. }
  destruct i as [|q|m|]; cbn in G |- *; try contradiction; eexists; (split; [reflexivity|split; [apply S|split; reflexivity]]).
  - unfold qinner. cbn. ring.
  - apply unit_direction. exact G.
  - destruct G as (R & T). pose proof (proj1 (qm_from_matrix m R (proj1 (T 3%nat (le_n 4))))) as N. unfold norm2 in N. unfold qinner. lra.
Qed.
Lemma init_other : arcball_init IOther = Err ValueError.
Proof. reflexivity. Qed.

(** ** Steps *)
Lemma good_unit a : good_axis a -> unit_axis (unit_vector a).
Proof.
  intros (N & D). destruct (unit_ok a N) as (t & T & E & U & _). split; [exact U|]. intros X. apply (D t T). rewrite E at 1. rewrite X. reflexivity.
Qed.
Lemma half_turns vd vn p : inner vd vd = 1 -> inner vn vn = 1 ->
  qrot (Quat (vx (cross vd vn)) (vy (cross vd vn)) (vz (cross vd vn)) (vdot vd vn)) p = half_turn vn (half_turn vd p).
Proof.
  intros D N. destruct vd as [a b c], vn as [d e f], p as [x y z]. unfold inner in *. cbn in D, N. unfold qrot, half_turn, cross, vdot, vsub, times, inner. cbn.
  apply vec_eq; cbn; nsatz.
Qed.
Lemma drag_norm vd vn : inner vd vd = 1 -> inner vn vn = 1 ->
  qinner (Quat (vx (cross vd vn)) (vy (cross vd vn)) (vz (cross vd vn)) (vdot vd vn)) (Quat (vx (cross vd vn)) (vy (cross vd vn)) (vz (cross vd vn)) (vdot vd vn)) = 1.
Proof. intros D N. destruct vd as [a b c], vn as [d e f]. unfold inner in *. cbn in D, N. unfold qinner, cross, vdot. cbn. nsatz. Qed.
Lemma drag_point b point : steady b -> exists p v, arcball_map_to_sphere point (b_center b) (b_radius b) = Ok p /\ inner p p = 1 /\
  match b_axis b with None => Some p | Some a => arcball_constrain_to_axis p a end = Some v /\ inner v v = 1 /\
  match b_axis b with None => v = p | Some a => on_circle a v /\ (far_from a p -> drawn_to a p v) end.
Proof.
  intros (_ & _ & _ & _ & R & A & _). destruct (map_unit point (b_center b) _ R) as (p & E & U & _). exists p. destruct (b_axis b) as [a|].
  - destruct (A a eq_refl) as (UA & _). destruct (constrain_spec p a UA) as (c & EC & O & D). exists c. do 3 (split; [assumption|]). split; [apply O|]. split; assumption.
  - exists p. repeat split; assumption.
Qed.
Definition drag_quat (b : ball) (v : vec3) : quat :=
  let t := cross (b_vdown b) v in
  if Rlt_dec (vdot t t) EPS then b_qdown b else quaternion_multiply (Quat (vx t) (vy t) (vz t) (vdot (b_vdown b) v)) (b_qdown b).
Lemma drag_value b point p v : arcball_map_to_sphere point (b_center b) (b_radius b) = Ok p ->
  match b_axis b with None => Some p | Some a => arcball_constrain_to_axis p a end = Some v ->
  drag point b = (Ball (b_axis b) (b_axes b) (b_radius b) (b_center b) (b_vdown b) (b_constrain b) (b_qdown b) (drag_quat b v) (b_qnow b), Ok tt).
Proof. intros E V. unfold drag. rewrite E, V. reflexivity. Qed.
Lemma drag_quat_unit b v : steady b -> inner v v = 1 -> qinner (drag_quat b v) (drag_quat b v) = 1.
Proof.
  intros (QD & _ & _ & VD & _) V. unfold drag_quat. cbv zeta. destruct (Rlt_dec _ EPS); [exact QD|]. rewrite inner_mul, drag_norm by assumption. rewrite QD. ring.
Qed.
Lemma step_steady b o : steady b -> good_op o -> steady (fst (step b o)) /\
  (snd (step b o) = Ok tt \/ (exists p, o = Down p /\ b_constrain b = true /\ b_axes b = Some [] /\ snd (step b o) = Err IndexError)).
Proof.
  intros ST G. pose proof ST as (QD & QN & QP & VD & R & A & AX). destruct o as [c r|axes|c|p|p|x]; cbn [step fst snd] in *.
  - split; [|left; reflexivity]. repeat split; cbn; try assumption; apply A || apply AX; assumption.
  - split; [|left; reflexivity]. unfold steady. cbn. do 5 (split; [assumption|]). split; [exact A|]. intros l E. injection E as <-. apply Forall_forall. intros a I. apply in_map_iff in I. destruct I as (a0 & <- & I).
    apply good_unit. apply (proj1 (Forall_forall _ _) G a0 I).
  - split; [|left; reflexivity]. repeat split; cbn; try assumption; apply A || apply AX; assumption.
  - unfold down. destruct (map_unit p (b_center b) _ R) as (v & E & U & Z). rewrite E. destruct (b_constrain b) eqn:EC.
    + destruct (b_axes b) as [axes|] eqn:EA.
      * destruct axes as [|a0 axes].
        { rewrite nearest_none. cbn. split.
          - unfold steady. cbn. do 5 (split; [assumption|]). split; [intros ? X; discriminate|]. intros l X. injection X as <-. constructor.
          - right. exists p. repeat split; reflexivity. }
        destruct (nearest_spec v (a0 :: axes) U Z ltac:(discriminate) (AX _ eq_refl)) as (a & c & l1 & l2 & EN & EL & ECC & O & D & _). rewrite EN, ECC. cbn [fst snd]. split; [|left; reflexivity].
        unfold steady. cbn. do 3 (split; [assumption|]). split; [apply O|]. split; [assumption|]. split.
        -- intros a1 X. injection X as <-. split; [|apply O]. specialize (AX _ eq_refl). rewrite EL in AX. apply (proj1 (Forall_forall _ _) AX). apply in_or_app. right. left. reflexivity.
        -- intros l X. apply AX. exact X.
      * cbn. split; [|left; reflexivity]. unfold steady. cbn. do 5 (split; [assumption|]). split; [intros ? X; discriminate|]. intros l X. discriminate.
    + cbn. split; [|left; reflexivity]. unfold steady. cbn. do 5 (split; [assumption|]). split; [intros ? X; discriminate|exact AX].
  - destruct (drag_point b p ST) as (q & v & E & _ & EV & V & _). rewrite (drag_value b p q v E EV). cbn [fst snd]. split; [|left; reflexivity].
    unfold steady. cbn. split; [assumption|]. split; [apply drag_quat_unit; assumption|]. repeat split; try assumption; apply A || apply AX; assumption.
  - split; [|left; reflexivity]. unfold steady. cbn. split; [assumption|]. split; [apply (slerp_unit _ _ _ 0); apply unit_nonzero; assumption|]. repeat split; try assumption; apply A || apply AX; assumption.
Qed.
Lemma run_steady ops : forall b, steady b -> Forall good_op ops -> steady (run b ops).
Proof.
  induction ops as [|o ops IH]; intros b S G; [exact S|]. apply Forall_cons_iff in G. destruct G as (G & GS). cbn. apply IH; [|exact GS]. apply (step_steady b o S G).
Qed.

(** ** What the operations do *)
Lemma down_free b point : 0 < b_radius b -> (b_constrain b = false \/ b_axes b = None) -> exists v, seen_at point (b_center b) (b_radius b) v /\
  down point b = (Ball None (b_axes b) (b_radius b) (b_center b) v (b_constrain b) (b_qnow b) (b_qnow b) (b_qnow b), Ok tt).
Proof.
  intros R C. destruct (map_seen point (b_center b) _ R) as (v & E & S). exists v. split; [exact S|]. unfold down. rewrite E. destruct C as [-> | ->]; [reflexivity|]. destruct (b_constrain b); reflexivity.
Qed.
Lemma seen_front point center r v : 0 < r -> arcball_map_to_sphere point center r = Ok v -> inner v v = 1 /\ 0 <= vz v.
Proof. intros R E. destruct (map_unit point center r ltac:(lra)) as (w & F & U & Z). rewrite E in F. injection F as <-. split; assumption. Qed.
Lemma down_axis_ok b point a0 axes : steady b -> 0 < b_radius b -> b_constrain b = true -> b_axes b = Some (a0 :: axes) ->
  exists p a c l1 l2, seen_at point (b_center b) (b_radius b) p /\ a0 :: axes = l1 ++ a :: l2 /\ on_circle a c /\ (far_from a p -> drawn_to a p c) /\
    (forall a' c', far_from a' p -> drawn_to a' p c' -> (In a' l1 -> inner c' p < inner c p) /\ (In a' l2 -> inner c' p <= inner c p)) /\
    down point b = (Ball (Some a) (b_axes b) (b_radius b) (b_center b) c true (b_qnow b) (b_qnow b) (b_qnow b), Ok tt).
Proof.
  intros ST R C A. destruct (map_seen point (b_center b) _ R) as (p & E & S). destruct (seen_front _ _ _ _ R E) as (U & Z).
  destruct ST as (_ & _ & _ & _ & _ & _ & AX). destruct (nearest_spec p (a0 :: axes) U Z ltac:(discriminate) (AX _ A)) as (a & c & l1 & l2 & EN & EL & ECC & O & D & M).
  exists p, a, c, l1, l2. do 5 (split; [assumption|]). unfold down. rewrite E, C, A, EN, ECC. reflexivity.
Qed.
Lemma drag_image b point : steady b -> 0 < b_radius b -> exists v b', stands_for b point v /\ drag point b = (b', Ok tt) /\
  b_vdown b' = b_vdown b /\ b_qdown b' = b_qdown b /\ b_qpre b' = b_qnow b /\ b_axis b' = b_axis b /\
  (EPS <= inner (vcross (b_vdown b) v) (vcross (b_vdown b) v) ->
   forall x y1 y, image (quaternion_matrix (b_qdown b)) x y1 -> (image (matrix b') x y <-> y = half_turn v (half_turn (b_vdown b) y1))) /\
  (inner (vcross (b_vdown b) v) (vcross (b_vdown b) v) < EPS -> b_qnow b' = b_qdown b) /\
  (forall a x, b_axis b = Some a -> image (quaternion_matrix (b_qdown b)) x a -> image (matrix b') x a).
Proof.
  intros ST R. destruct (drag_point b point ST) as (p & v & E & U & EV & V & SV). exists v. eexists.
  destruct (map_seen point (b_center b) _ R) as (p0 & E0 & S0). rewrite E in E0. injection E0 as <-.
  split. { unfold stands_for. destruct (b_axis b) as [a|]; [exists p; destruct SV; auto|subst v; exact S0]. }
  split; [apply (drag_value b point p v E EV)|]. cbn. do 4 (split; [reflexivity|]).
  pose proof ST as (QD & _ & _ & VD & _ & A & _). change (vcross (b_vdown b) v) with (cross (b_vdown b) v).
  assert (IM : EPS <= inner (cross (b_vdown b) v) (cross (b_vdown b) v) -> forall x y1 y, image (quaternion_matrix (b_qdown b)) x y1 -> (image (quaternion_matrix (drag_quat b v)) x y <-> y = half_turn v (half_turn (b_vdown b) y1))).
  { intros L x y1 y I. rewrite image_quaternion in I |- * by (try apply drag_quat_unit; assumption). subst y1. unfold drag_quat. cbv zeta. change (vdot (cross (b_vdown b) v) (cross (b_vdown b) v)) with (inner (cross (b_vdown b) v) (cross (b_vdown b) v)).
    destruct (Rlt_dec _ EPS); [lra|]. rewrite qrot_mul, half_turns by assumption. reflexivity. }
  split; [exact IM|]. assert (SM : inner (cross (b_vdown b) v) (cross (b_vdown b) v) < EPS -> drag_quat b v = b_qdown b).
  { intros L. unfold drag_quat. cbv zeta. change (vdot (cross (b_vdown b) v) (cross (b_vdown b) v)) with (inner (cross (b_vdown b) v) (cross (b_vdown b) v)). destruct (Rlt_dec _ EPS); [reflexivity|contradiction]. }
  split; [exact SM|]. intros a x EA I. unfold matrix. cbn. destruct (Rlt_dec (inner (cross (b_vdown b) v) (cross (b_vdown b) v)) EPS) as [L|L].
  - rewrite (SM L). exact I.
  - apply (IM ltac:(lra) x a a I). rewrite EA in SV. destruct SV as ((_ & O) & _). destruct (A a EA) as (_ & O2).
    unfold half_turn. rewrite O2. replace (vsub (times (2 * 0) (b_vdown b)) a) with (times (-1) a) by (destruct a, (b_vdown b); unfold vsub, times; cbn; apply vec_eq; cbn; ring).
    replace (inner v (times (-1) a)) with (- inner v a) by (unfold inner, times; cbn; ring). rewrite O. destruct a, v; unfold vsub, times; cbn; apply vec_eq; cbn; ring.
Qed.
Lemma next_value p q : qinner p p = 1 -> qinner q q = 1 -> EPS <= 1 - Rabs (qinner p q) ->
  quaternion_slerp p q 2 0 true = quaternion_multiply (quaternion_multiply q (quaternion_conjugate p)) q.
Proof.
  intros P Q E. assert (DP : direction_of p p) by (split; [exact P|exists 1; split; [lra|destruct p; unfold qmul; cbn; f_equal; ring]]).
  assert (DQ : direction_of q q) by (split; [exact Q|exists 1; split; [lra|destruct q; unfold qmul; cbn; f_equal; ring]]).
  destruct (slerp_arc p q p q 2 0 true DP DQ ltac:(lra) ltac:(lra) E) as (e & A & B). set (r := facing true p q) in *. change (IZR (2 * 0)) with 0 in B. rewrite Rmult_0_l, Rplus_0_r in B. change (2 * 0)%Z with 0%Z in B.
  destruct A as (_ & EE & O & AR). destruct B as (_ & _ & _ & BR). rewrite BR, cos_2a_cos, sin_2a. set (c := cos _) in *. set (s := sin _) in *.
  assert (C : c = qinner p r) by (rewrite AR; transitivity (c * qinner p p + s * qinner p e); [rewrite P, O; ring|unfold qinner, qsum, qmul; cbn; ring]).
  assert (X : qsum (qmul (2 * c * c - 1) p) (qmul (2 * s * c) e) = qsum (qmul (2 * c) r) (qmul (-1) p)) by (rewrite AR; destruct p, e; unfold qsum, qmul; cbn; f_equal; ring).
  rewrite X, C. assert (Y : qmul (2 * qinner p r) r = qmul (2 * qinner p q) q).
  { unfold r, facing. destruct (true && _)%bool; [|reflexivity]. unfold qinner, qmul. cbn. f_equal; ring. }
  rewrite Y. clear - Q. destruct p as [a b c d], q as [x y z w]. unfold qinner in *. cbn in Q. unfold qsum, qmul, quaternion_multiply, quaternion_conjugate. cbn. apply quat_eq; cbn; nsatz.
Qed.
Lemma next_repeats b : steady b -> EPS <= 1 - Rabs (qinner (b_qpre b) (b_qnow b)) ->
  exists turn, (forall x y0 y1, image (quaternion_matrix (b_qpre b)) x y0 -> image (matrix b) x y1 -> y1 = turn y0) /\
               (forall x y1 y2, image (matrix b) x y1 -> image (matrix (next 0 b)) x y2 -> y2 = turn y1).
Proof.
  intros ST E. pose proof ST as (_ & QN & QP & _). unfold matrix, next. cbn. rewrite Rplus_0_r, (next_value _ _ QP QN E).
  exists (qrot (quaternion_multiply (b_qnow b) (quaternion_conjugate (b_qpre b)))).
  assert (QC : qinner (quaternion_conjugate (b_qpre b)) (quaternion_conjugate (b_qpre b)) = 1) by (rewrite <- QP; unfold qinner, quaternion_conjugate; cbn; ring). split.
  - intros x y0 y1 I0 I1. rewrite image_quaternion in I0, I1 by assumption. subst. rewrite qrot_mul. f_equal. rewrite <- qrot_mul.
    clear - QP. destruct (b_qpre b) as [a b0 c d], x as [x y z]. unfold qinner in QP. cbn in QP. unfold qrot, quaternion_multiply, quaternion_conjugate. cbn. apply vec_eq; cbn; clear - QP.
    + transitivity (x * (a * a + b0 * b0 + c * c + d * d) * (a * a + b0 * b0 + c * c + d * d)); [rewrite QP; ring|ring].
    + transitivity (y * (a * a + b0 * b0 + c * c + d * d) * (a * a + b0 * b0 + c * c + d * d)); [rewrite QP; ring|ring].
    + transitivity (z * (a * a + b0 * b0 + c * c + d * d) * (a * a + b0 * b0 + c * c + d * d)); [rewrite QP; ring|ring].
  - intros x y1 y2 I1 I2. rewrite image_quaternion in I1 by assumption. rewrite image_quaternion in I2 by (rewrite !inner_mul, QN, QC; ring). subst. rewrite qrot_mul. reflexivity.
Qed.
Lemma slerp_full quat0 quat1 p q f k short : direction_of quat0 p -> direction_of quat1 q -> f <> 0 -> f <> 1 -> EPS <= 1 - Rabs (qinner p q) ->
  exists r e a, faces short p q r /\ 0 < a < PI /\ (short = true -> a <= PI / 2) /\ on_arc p e a r /\
    on_arc p e (f * (a + IZR (2 * k) * PI)) (quaternion_slerp quat0 quat1 f (2 * k) short).
Proof.
  intros DP DQ F0 F1 E. destruct (slerp_arc quat0 quat1 p q f k short DP DQ F0 F1 E) as (e & A & B). exists (facing short p q), e, (acos (qinner p (facing short p q))).
  destruct (facing_inner short p q (proj1 DP) (proj1 DQ) E) as (L & G). pose proof EPS_pos as EP. pose proof (acos_big _ L G) as AB. destruct (acos_bound (qinner p (facing short p q))) as (_ & AP).
  split; [|split; [|split; [|split; assumption]]].
  - unfold facing, faces. destruct short; cbn [andb]; [|left; split; [reflexivity|discriminate]]. destruct (Rlt_dec (qinner p q) 0) as [X|X]; [right; auto|left; split; [reflexivity|intros _; lra]].
  - split; [lra|]. destruct AP as [AP|AP]; [exact AP|]. exfalso. assert (C : cos (acos (qinner p (facing short p q))) = qinner p (facing short p q)) by (apply cos_acos; lra). rewrite AP, cos_PI in C.
    unfold facing in C. pose proof (cauchy p q (proj1 DP) (proj1 DQ)). destruct (short && _)%bool.
    + replace (qinner p (qmul (-1) q)) with (- qinner p q) in C by (unfold qinner, qmul; cbn; ring). replace (qinner p q) with 1 in E by lra. rewrite Rabs_R1 in E. lra.
    + rewrite <- C in E. rewrite Rabs_left in E; lra.
  - intros ->. apply acos_quarter. pose proof (facing_short p q). lra.
Qed.
Lemma next_arc b x : steady b -> 2 + x <> 0 -> 2 + x <> 1 -> EPS <= 1 - Rabs (qinner (b_qpre b) (b_qnow b)) ->
  exists r e a, faces true (b_qpre b) (b_qnow b) r /\ 0 < a <= PI / 2 /\ on_arc (b_qpre b) e a r /\ on_arc (b_qpre b) e ((2 + x) * a) (b_qnow (next x b)).
Proof.
  intros (_ & QN & QP & _) X0 X1 E.
  assert (D : forall q, qinner q q = 1 -> direction_of q q) by (intros q Q; split; [exact Q|exists 1; split; [lra|destruct q; unfold qmul; cbn; f_equal; ring]]).
  destruct (slerp_full (b_qpre b) (b_qnow b) (b_qpre b) (b_qnow b) (2 + x) 0 true (D _ QP) (D _ QN) X0 X1 E) as (r & e & a & F & A & S & A1 & A2).
  exists r, e, a. split; [exact F|]. split; [split; [lra|apply S; reflexivity]|]. split; [exact A1|]. change (IZR (2 * 0)) with 0 in A2. rewrite Rmult_0_l, Rplus_0_r in A2. exact A2.
Qed.
Lemma next_still b x : steady b -> 2 + x <> 1 -> 1 - Rabs (qinner (b_qpre b) (b_qnow b)) < EPS -> b_qnow (next x b) = b_qpre b.
Proof.
  intros (_ & QN & QP & _) X1 E.
  assert (D : forall q, qinner q q = 1 -> direction_of q q) by (intros q Q; split; [exact Q|exists 1; split; [lra|destruct q; unfold qmul; cbn; f_equal; ring]]).
  unfold next. cbn. apply (slerp_close _ _ _ _ _ _ _ (D _ QP) (D _ QN) X1 E).
Qed.
Lemma constrain_refuted : ~ (forall a p, inner a a = 1 -> inner p p = 1 -> exists c, arcball_constrain_to_axis p a = Some c /\ on_circle a c).
Proof.
  intros H. destruct (H down_axis (V3 0 0 1)) as (c & E & _); [unfold inner; cbn; ring|unfold inner; cbn; ring|]. rewrite constrain_down in E; [discriminate|unfold inner; cbn; ring|].
  replace (off (V3 0 0 1) down_axis) with vzero by (unfold off, vzero, down_axis, vsub, times, inner; cbn; apply vec_eq; cbn; ring). unfold vlength, inner. cbn. rewrite !Rmult_0_l, !Rplus_0_r, sqrt_0. pose proof EPS_pos. lra.
Qed.
Lemma no_axes b point : b_radius b <> 0 -> b_constrain b = true -> snd (down point (fst (step b (Setaxes [])))) = Err IndexError.
Proof.
  intros R C. unfold down. cbn. destruct (map_unit point (b_center b) _ R) as (v & -> & _). rewrite C. reflexivity.
Qed.
