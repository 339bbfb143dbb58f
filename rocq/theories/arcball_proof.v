(** * Lemmas on the trackball. *)

From Coq Require Import List ZArith Reals Bool Lra Lia Nsatz.
Import ListNotations.
From Verif Require Import Py transf_model transf_spec affine_model affine_spec affine_proof affine_quat arcball_model arcball_spec arcball_slerp.
Local Open Scope R_scope.

(** ** The image of a point under the matrix of a unit quaternion *)
Definition qrot (q : quat) (p : vec3) : vec3 :=
  let '(Quat x y z w) := q in
  V3 ((w*w + x*x - y*y - z*z) * vx p + 2 * (x*y - w*z) * vy p + 2 * (x*z + w*y) * vz p)
     (2 * (x*y + w*z) * vx p + (w*w - x*x + y*y - z*z) * vy p + 2 * (y*z - w*x) * vz p)
     (2 * (x*z - w*y) * vx p + 2 * (y*z + w*x) * vy p + (w*w - x*x - y*y + z*z) * vz p).
Lemma image_quaternion q p p' : qinner q q = 1 -> image (quaternion_matrix q) p p' <-> p' = qrot q p.
Proof.
  intros U. unfold quaternion_matrix. change (qdot q q) with (qinner q q). rewrite U. pose proof EPS_small as ES. destruct (Rlt_dec 1 EPS) as [L|_]; [lra|].
  rewrite image_affine by reflexivity. replace (2 / 1) with 2 by field. pose proof (sqrt_sqrt 2 ltac:(lra)) as SS. set (f := sqrt 2) in *. clearbody f.
  assert (E : forall a b, a * f * (b * f) = 2 * (a * b)) by (intros a b; transitivity (f * f * (a * b)); [ring|rewrite SS; reflexivity]).
  match goal with |- _ = ?v <-> _ => replace v with (qrot q p); [reflexivity|] end.
  unfold row_at, rows4, outer, qrot. destruct q as [x y z w]. unfold qinner in U. cbn in U |- *. rewrite !E. clear E SS ES f. destruct p as [a b c]. apply vec_eq; cbn; clear - U; nsatz.
Qed.
Lemma qrot_mul a b p : qrot (quaternion_multiply a b) p = qrot a (qrot b p).
Proof. destruct a, b, p. unfold qrot, quaternion_multiply. cbn. apply vec_eq; cbn; ring. Qed.
Lemma inner_mul a b : qinner (quaternion_multiply a b) (quaternion_multiply a b) = qinner a a * qinner b b.
Proof. destruct a, b. unfold qinner, quaternion_multiply. cbn. ring. Qed.

(** ** Points of the sphere *)
Lemma map_unit point center r : r <> 0 -> exists v, arcball_map_to_sphere point center r = Ok v /\ inner v v = 1 /\ 0 <= vz v.
Proof.
  intros R. unfold arcball_map_to_sphere. destruct (Req_EM_T r 0) as [|_]; [contradiction|]. set (x := (fst point - fst center) / r). set (y := (snd center - snd point) / r).
  clearbody x y. cbv zeta. eexists. split; [reflexivity|]. destruct (Rlt_dec 1 (x * x + y * y)) as [L|L].
  - assert (S : 0 < sqrt (x * x + y * y)) by (apply sqrt_lt_R0; lra). pose proof (sqrt_sqrt (x * x + y * y) ltac:(lra)) as SS. set (n := sqrt _) in *. clearbody n.
    unfold inner. cbn. split; [|unfold Rdiv; lra]. transitivity ((x * x + y * y) / (n * n)); [field; lra|]. rewrite SS. field. lra.
  - pose proof (sqrt_sqrt (1 - (x * x + y * y)) ltac:(lra)) as SS. unfold inner. cbn. split; [rewrite SS; ring|apply sqrt_pos].
Qed.
Lemma map_seen point center r : 0 < r -> exists v, arcball_map_to_sphere point center r = Ok v /\ seen_at point center r v.
Proof.
  intros R. destruct (map_unit point center r ltac:(lra)) as (v & E & U & Z). exists v. split; [exact E|].
  unfold arcball_map_to_sphere in E. destruct (Req_EM_T r 0) as [|_]; [lra|]. cbv zeta in E. unfold seen_at. cbv zeta.
  set (dx := fst point - fst center) in *. set (dy := snd center - snd point) in *. clearbody dx dy.
  assert (N : dx / r * (dx / r) + dy / r * (dy / r) = (dx * dx + dy * dy) / (r * r)) by (field; lra).
  assert (RR : 0 < r * r) by nra. split; [exact U|]. rewrite N in E.
  destruct (Rlt_dec 1 ((dx * dx + dy * dy) / (r * r))) as [L|L].
  - assert (L' : r * r < dx * dx + dy * dy).
    { apply (Rmult_lt_compat_r (r * r)) in L; [|exact RR]. replace ((dx * dx + dy * dy) / (r * r) * (r * r)) with (dx * dx + dy * dy) in L by (field; lra). lra. }
    split; [lra|]. intros _. injection E as <-. cbn in *. set (m := (dx * dx + dy * dy) / (r * r)) in *. clearbody m.
    assert (S : 1 < sqrt m). { apply Rsqr_incrst_0; [|lra|apply sqrt_pos]. rewrite Rsqr_sqrt by lra. unfold Rsqr. lra. }
    split; [unfold Rdiv; lra|]. exists (r * sqrt m). split; [nra|]. split; field; lra.
  - assert (L' : dx * dx + dy * dy <= r * r).
    { apply Rnot_lt_le in L. apply (Rmult_le_compat_r (r * r)) in L; [|lra]. replace ((dx * dx + dy * dy) / (r * r) * (r * r)) with (dx * dx + dy * dy) in L by (field; lra). lra. }
    split; [|lra]. intros _. injection E as <-. cbn in *. repeat split; [field; lra|field; lra|exact Z].
Qed.
Lemma map_zero point center : arcball_map_to_sphere point center 0 = Err ZeroDivisionError.
Proof. unfold arcball_map_to_sphere. destruct (Req_EM_T 0 0); [reflexivity|lra]. Qed.

(** ** Points on the circle of an axis *)
Definition off (p a : vec3) : vec3 := vsub p (times (inner a p) a).
Lemma off_inner p a : inner a a = 1 -> inner (off p a) a = 0 /\ inner (off p a) (off p a) = inner p p - inner a p * inner a p /\ inner (off p a) p = inner p p - inner a p * inner a p.
Proof. intros U. destruct p as [x y z], a as [b c d]. unfold off, inner, vsub, times in *. cbn in *. repeat split; nsatz. Qed.
Lemma constrain_off p a c : inner a a = 1 -> arcball_constrain_to_axis p a = Some c -> EPS < vlength (off p a) -> drawn_to a p c.
Proof.
  intros U E L. pose proof EPS_pos as EP. unfold arcball_constrain_to_axis in E. cbv zeta in E.
  assert (V : V3 (vx p - vx a * vdot a p) (vy p - vy a * vdot a p) (vz p - vz a * vdot a p) = off p a) by (unfold off, vsub, times; change (vdot a p) with (inner a p); cbn; f_equal; ring).
  rewrite V in E. change (vector_norm (off p a)) with (vlength (off p a)) in E. destruct (Rlt_dec EPS _) as [_|]; [|contradiction].
  destruct (off_inner p a U) as (O & OO & _). assert (P : 0 <= inner (off p a) (off p a)) by (unfold inner; nra).
  pose proof (sqrt_sqrt _ P) as SS. unfold vlength in *. set (n := sqrt _) in *. clearbody n. set (v := off p a) in *.
  assert (PV : p = vadd (times (inner a p) a) v) by (unfold v, off; destruct p, a; unfold vadd, vsub, times; cbn; apply vec_eq; cbn; ring).
  clearbody v. destruct (Rlt_dec (vz v) 0) as [Z|Z]; injection E as <-; cbn.
  - split; [split|].
    + unfold inner in *. cbn. transitivity ((vx v * vx v + vy v * vy v + vz v * vz v) / (n * n)); [field; lra|]. rewrite <- SS. field. lra.
    + transitivity (- inner v a / n); [unfold inner; cbn; field; lra|]. rewrite O. field. lra.
    + exists (- n). split.
      * rewrite PV at 1. destruct v, a. unfold vadd, times. cbn. apply vec_eq; cbn; field; lra.
      * left. cbn in *. unfold Rdiv. apply Rmult_lt_0_compat; [lra|apply Rinv_0_lt_compat; lra].
  - split; [split|].
    + unfold inner in *. cbn. transitivity ((vx v * vx v + vy v * vy v + vz v * vz v) / (n * n)); [field; lra|]. rewrite <- SS. field. lra.
    + transitivity (inner v a / n); [unfold inner; cbn; field; lra|]. rewrite O. field. lra.
    + exists n. split.
      * rewrite PV at 1. destruct v, a. unfold vadd, times. cbn. apply vec_eq; cbn; field; lra.
      * cbn in *. destruct (Rtotal_order 0 (vz v)) as [Y|[Y|Y]]; [left|right|lra].
        -- unfold Rdiv. apply Rmult_lt_0_compat; [lra|apply Rinv_0_lt_compat; lra].
        -- split; [rewrite <- Y; field; lra|lra].
Qed.
Lemma constrain_some p a : inner a a = 1 -> a <> down_axis -> exists c, arcball_constrain_to_axis p a = Some c /\ on_circle a c.
Proof.
  intros U N. destruct (Rlt_dec EPS (vlength (off p a))) as [L|L].
  - assert (S : exists c, arcball_constrain_to_axis p a = Some c).
    { unfold arcball_constrain_to_axis. cbv zeta. destruct (Rlt_dec EPS _); [eexists; reflexivity|]. destruct (Req_EM_T (vz a) 1); [eexists; reflexivity|].
      destruct n. revert L. unfold vlength, vector_norm. replace (V3 (vx p - vx a * vdot a p) (vy p - vy a * vdot a p) (vz p - vz a * vdot a p)) with (off p a); [intros X; exact X|].
      unfold off, vsub, times. change (vdot a p) with (inner a p). cbn. f_equal; ring. }
    destruct S as (c & E). exists c. split; [exact E|]. apply (constrain_off p a c U E L).
  - unfold arcball_constrain_to_axis. cbv zeta.
    replace (V3 (vx p - vx a * vdot a p) (vy p - vy a * vdot a p) (vz p - vz a * vdot a p)) with (off p a) by (unfold off, vsub, times; change (vdot a p) with (inner a p); cbn; f_equal; ring).
    change (vector_norm (off p a)) with (vlength (off p a)). destruct (Rlt_dec EPS _); [contradiction|]. destruct a as [x y z]. cbn. destruct (Req_EM_T z 1) as [-> |NZ].
    + exists (V3 1 0 0). split; [reflexivity|]. unfold on_circle, inner in *. cbn in *. split; [ring|]. nra.
    + destruct (Req_EM_T _ 0) as [W|W].
      * exfalso. unfold vdot in W. cbn in W. assert (X : x = 0) by nra. assert (Y : y = 0) by nra. subst. unfold inner in U. cbn in U. apply N. unfold down_axis. f_equal. nra.
      * exists (unit_vector (V3 (- y) x 0)). split; [reflexivity|].
        assert (NN : V3 (- y) x 0 <> vzero) by (intros E; injection E as A B; apply W; unfold vdot; cbn; rewrite A, B; ring).
        destruct (unit_ok _ NN) as (t & T & E & UU & _). set (u := unit_vector _) in *. clearbody u. split; [exact UU|].
        destruct u as [u1 u2 u3]. unfold times in E. cbn in E. injection E as A B C. unfold inner. cbn.
        assert (u3 = 0) by nra. apply (Rmult_eq_reg_l t); [|lra]. replace (t * (u1 * x + u2 * y + u3 * z)) with ((t * u1) * x + (t * u2) * y + (t * u3) * z) by ring. rewrite <- A, <- B, <- C. ring.
Qed.
Lemma constrain_down p : inner p p = 1 -> vlength (off p down_axis) <= EPS -> arcball_constrain_to_axis p down_axis = None.
Proof.
  intros U L. unfold arcball_constrain_to_axis. cbv zeta.
  replace (V3 (vx p - vx down_axis * vdot down_axis p) (vy p - vy down_axis * vdot down_axis p) (vz p - vz down_axis * vdot down_axis p)) with (off p down_axis) by (apply vec_eq; unfold off, vsub, times, inner, vdot, down_axis; cbn; ring).
  change (vector_norm (off p down_axis)) with (vlength (off p down_axis)). destruct (Rlt_dec EPS _); [lra|]. cbn. destruct (Req_EM_T (-1) 1); [lra|].
  destruct (Req_EM_T _ 0) as [|W]; [reflexivity|]. destruct W. unfold vdot. cbn. ring.
Qed.

(** ** The nearest axis *)
(** How near the circle of an axis is. *)
Definition score (p a : vec3) (t : R) : Prop := exists c, arcball_constrain_to_axis p a = Some c /\ t = inner c p.
Lemma score_above p a t : inner p p = 1 -> 0 <= vz p -> inner a a = 1 -> score p a t -> -1 < t.
Proof.
  intros P Z U (c & E & ->). destruct (Rlt_dec EPS (vlength (off p a))) as [L|L].
  - pose proof EPS_pos as EP. destruct (constrain_off p a c U E L) as ((C1 & C2) & s & PE & SC).
    assert (IP : inner c p = s). { rewrite PE. transitivity (inner a p * inner c a + s * inner c c); [unfold inner, vadd, times; cbn; ring|]. rewrite C1, C2. ring. }
    assert (SQ : inner a p * inner a p + s * s = 1). { assert (X : inner p p = inner a p * inner a p * inner a a + 2 * (inner a p * s) * inner c a + s * s * inner c c) by (rewrite PE at 1 2; unfold inner, vadd, times; cbn; ring). rewrite P, U, C1, C2 in X. lra. }
    rewrite IP. destruct (Rlt_dec (-1) s) as [|G]; [assumption|]. exfalso. assert (S1 : s = -1) by nra. assert (A0 : inner a p = 0) by nra.
    rewrite A0, S1 in PE. destruct p as [p1 p2 p3], c as [c1 c2 c3]. unfold vadd, times in PE. cbn in *. injection PE as _ _ PZ. destruct SC as [SC|(SC & SC')]; lra.
  - assert (X : inner c p * inner c p <= 1 / 4); [|nra].
    pose proof EPS_small as ES. assert (LL : inner (off p a) (off p a) <= 1 / 4).
    { assert (P0 : 0 <= inner (off p a) (off p a)) by (unfold inner; nra). pose proof (sqrt_sqrt _ P0) as SS. pose proof (sqrt_pos (inner (off p a) (off p a))). unfold vlength in L. pose proof EPS_pos. nra. }
    assert (NA : a <> down_axis \/ a = down_axis) by (destruct a as [x y z]; destruct (Req_dec x 0); [destruct (Req_dec y 0); [destruct (Req_dec z (-1))|]|]; try (left; intros X; injection X; intros; contradiction); subst; right; reflexivity).
    destruct NA as [NA|NA].
    + destruct (constrain_some p a U NA) as (c' & E' & C1 & C2). rewrite E in E'. injection E' as <-.
      assert (IP : inner c p = inner c (off p a)). { transitivity (inner c (off p a) + inner a p * inner c a); [unfold off, inner, vsub, times; cbn; ring|]. rewrite C2. ring. }
      rewrite IP. set (v := off p a) in *. clearbody v. assert (CS : inner c v * inner c v <= inner c c * inner v v).
      { assert (LG : inner c c * inner v v - inner c v * inner c v = inner (vcross c v) (vcross c v)) by (unfold inner, vcross; cbn; ring). assert (0 <= inner (vcross c v) (vcross c v)) by (unfold inner; nra). lra. }
      rewrite C1 in CS. lra.
    + subst a. rewrite (constrain_down p P) in E by lra. discriminate.
Qed.
Definition best_of (p : vec3) (axes : list vec3) (b : option vec3 * R) : Prop :=
  match fst b with
  | None => snd b = -1 /\ forall a t, In a axes -> score p a t -> t <= -1
  | Some a => score p a (snd b) /\ -1 < snd b /\ exists l1 l2, axes = l1 ++ a :: l2 /\ (forall a' t, In a' l1 -> score p a' t -> t < snd b) /\ (forall a' t, In a' l2 -> score p a' t -> t <= snd b)
  end.
Lemma nearest_fold p axes : forall done b, best_of p done b -> best_of p (done ++ axes) (fold_left (nearest_step p) axes b).
Proof.
  induction axes as [|a axes IH]; intros done b B; [rewrite app_nil_r; exact B|]. cbn [fold_left].
  replace (done ++ a :: axes) with ((done ++ [a]) ++ axes) by (rewrite <- app_assoc; reflexivity). apply IH. clear IH.
  unfold nearest_step. destruct (arcball_constrain_to_axis p a) as [c|] eqn:E.
  - change (vdot c p) with (inner c p). destruct (Rlt_dec (snd b) (inner c p)) as [L|L].
    + unfold best_of. cbn [fst snd]. split; [exists c; split; [exact E|reflexivity]|]. unfold best_of in B. destruct b as [[a0|] m]; cbn [fst snd] in *.
      * destruct B as (S & M & l1 & l2 & -> & B1 & B2). split; [lra|]. exists (l1 ++ a0 :: l2), []. split; [reflexivity|]. split; [|intros ? ? []].
        intros a' t I S'. apply in_app_or in I. destruct I as [I|[<-|I]]; [specialize (B1 a' t I S'); lra| |specialize (B2 a' t I S'); lra].
        destruct S as (x & S1 & ->), S' as (y & S2 & ->). rewrite S1 in S2. injection S2 as <-. exact L.
      * destruct B as (-> & B). split; [exact L|]. exists done, []. split; [reflexivity|]. split; [|intros ? ? []]. intros a' t I S'. specialize (B a' t I S'). lra.
    + unfold best_of in *. destruct b as [[a0|] m]; cbn [fst snd] in *.
      * destruct B as (S & M & l1 & l2 & -> & B1 & B2). split; [exact S|]. split; [exact M|]. exists l1, (l2 ++ [a]). rewrite <- app_assoc. split; [reflexivity|]. split; [exact B1|].
        intros a' t I S'. apply in_app_or in I. destruct I as [I|[<-|[]]]; [apply (B2 a' t I S')|]. destruct S' as (y & S2 & ->). rewrite E in S2. injection S2 as <-. lra.
      * destruct B as (-> & B). split; [reflexivity|]. intros a' t I S'. apply in_app_or in I. destruct I as [I|[<-|[]]]; [apply (B a' t I S')|]. destruct S' as (y & S2 & ->). rewrite E in S2. injection S2 as <-. lra.
  - assert (NS : forall t, ~ score p a t) by (intros t (y & S2 & _); rewrite E in S2; discriminate).
    unfold best_of in *. destruct b as [[a0|] m]; cbn [fst snd] in *.
    + destruct B as (S & M & l1 & l2 & -> & B1 & B2). split; [exact S|]. split; [exact M|]. exists l1, (l2 ++ [a]). rewrite <- app_assoc. split; [reflexivity|]. split; [exact B1|].
      intros a' t I S'. apply in_app_or in I. destruct I as [I|[<-|[]]]; [apply (B2 a' t I S')|destruct (NS t S')].
    + destruct B as (-> & B). split; [reflexivity|]. intros a' t I S'. apply in_app_or in I. destruct I as [I|[<-|[]]]; [apply (B a' t I S')|destruct (NS t S')].
Qed.
Lemma nearest_ok p axes : inner p p = 1 -> 0 <= vz p -> axes <> [] -> Forall (fun a => inner a a = 1 /\ a <> down_axis) axes ->
  exists a t l1 l2, arcball_nearest_axis p axes = Some a /\ axes = l1 ++ a :: l2 /\ score p a t /\
    (forall a' t', In a' l1 -> score p a' t' -> t' < t) /\ (forall a' t', In a' l2 -> score p a' t' -> t' <= t).
Proof.
  intros P Z N F. pose proof (nearest_fold p axes [] (None, -1)) as H. cbn [app] in H. assert (B : best_of p [] (None, -1)) by (split; [reflexivity|intros ? ? []]).
  specialize (H B). unfold arcball_nearest_axis. unfold best_of in H. destruct (fold_left _ axes _) as [[a|] m]; cbn [fst snd] in *.
  - destruct H as (S & M & l1 & l2 & E & B1 & B2). exists a, m, l1, l2. auto.
  - exfalso. destruct H as (_ & H). destruct axes as [|a axes]; [contradiction|]. apply Forall_inv in F. destruct F as (U & D).
    destruct (constrain_some p a U D) as (c & E & _). assert (S : score p a (inner c p)) by (exists c; auto).
    pose proof (score_above p a _ P Z U S). specialize (H a _ (or_introl eq_refl) S). lra.
Qed.
Lemma nearest_none p : arcball_nearest_axis p [] = None.
Proof. reflexivity. Qed.
