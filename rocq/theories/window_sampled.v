(** * Proofs about concatenations of sampled windows: cutting commutes with
    loading the samples. *)

From Coq Require Import List ZArith QArith Qround Bool Lia Lqa Psatz.
Import ListNotations.
From Verif Require Import Py Py_proof ListUtil window_model window_spec window_proof window_concat.
Open Scope py_scope.
Local Open Scope Q_scope.

(** ** Lists. *)
Lemma segment_app_mid {X} (p d q : list X) i j : (i <= length d)%nat -> (j <= length d)%nat ->
  segment (p ++ d ++ q) (length p + i) (length p + j) = segment d i j.
Proof.
  intros Hi Hj. unfold segment.
  replace (length p + j - (length p + i))%nat with (j - i)%nat by lia.
  rewrite skipn_app, skipn_all2 by lia. cbn [app].
  replace (length p + i - length p)%nat with i by lia.
  rewrite skipn_app, firstn_app. rewrite skipn_length.
  replace (j - i - (length d - i))%nat with 0%nat by lia. cbn. apply app_nil_r.
Qed.
Lemma segment_app_span {X} (p d m e q : list X) i j : (i <= length d)%nat -> (j <= length e)%nat ->
  segment (p ++ d ++ m ++ e ++ q) (length p + i) (length p + length d + length m + j) =
  segment d i (length d) ++ m ++ segment e 0 j.
Proof.
  intros Hi Hj. unfold segment.
  rewrite skipn_app, skipn_all2 by lia. cbn [app].
  replace (length p + i - length p)%nat with i by lia.
  rewrite skipn_app. replace (i - length d)%nat with 0%nat by lia. cbn [skipn].
  rewrite (firstn_all2 (n := length d - i)) by (rewrite skipn_length; lia).
  replace (length p + length d + length m + j - (length p + i))%nat
    with (length (skipn i d) + (length m + j))%nat by (rewrite skipn_length; lia).
  rewrite firstn_app_2. rewrite firstn_app_2. f_equal. f_equal.
  rewrite Nat.sub_0_r. rewrite firstn_app. replace (j - length e)%nat with 0%nat by lia.
  cbn. apply app_nil_r.
Qed.
Lemma segment_to {X} (l : list X) i j k : (k <= j - i)%nat -> (j <= length l)%nat ->
  segment (segment l i j) 0 k = segment l i (i + k).
Proof.
  intros Hk Hj. unfold segment. cbn [skipn]. rewrite firstn_firstn. f_equal. lia.
Qed.

(** ** Indices as functions of the time. *)
Definition ia (s r t : Q) : Z := to_approx_int ((t - s) * r) (TOL * r) true.
Definition ib (s r t : Q) : Z := to_approx_int ((t - s) * r) (TOL * r) false.
Lemma ia_shift s s' r t k : ~ r == 0 -> s' == s + inject_Z k / r -> ia s' r t = (ia s r t - k)%Z.
Proof.
  intros R E. unfold ia.
  rewrite (approx_comp _ ((t - s) * r + inject_Z (- k)) _ (TOL * r)); [|rewrite E, inject_Z_opp; field; auto|reflexivity].
  rewrite approx_shift. lia.
Qed.
Lemma ib_shift s s' r t k : ~ r == 0 -> s' == s + inject_Z k / r -> ib s' r t = (ib s r t - k)%Z.
Proof.
  intros R E. unfold ib.
  rewrite (approx_comp _ ((t - s) * r + inject_Z (- k)) _ (TOL * r)); [|rewrite E, inject_Z_opp; field; auto|reflexivity].
  rewrite approx_shift. lia.
Qed.
Lemma ia_at s r t k : ~ r == 0 -> t == s + inject_Z k / r -> ia s r t = k.
Proof.
  intros R E. unfold ia. rewrite (approx_comp _ (inject_Z k) _ (TOL * r)); [apply approx_int|rewrite E; field; auto|reflexivity].
Qed.
Lemma ib_at s r t k : ~ r == 0 -> t == s + inject_Z k / r -> ib s r t = k.
Proof.
  intros R E. unfold ib. rewrite (approx_comp _ (inject_Z k) _ (TOL * r)); [apply approx_int|rewrite E; field; auto|reflexivity].
Qed.
Lemma ib_ge s r t k : 0 < r -> s + inject_Z k / r <= t -> (k <= ib s r t)%Z.
Proof.
  intros R H. apply time_le in H; auto. apply floor_glb in H.
  pose proof (approx_lower ((t - s) * r) (TOL * r) false). unfold ib. lia.
Qed.
Lemma ib_le s r t k : 0 < r -> t <= s + inject_Z k / r -> (ib s r t <= k)%Z.
Proof.
  intros R H. apply time_ge in H; auto. apply ceil_lub in H.
  pose proof (approx_upper ((t - s) * r) (TOL * r) false). unfold ib. lia.
Qed.

Section Sampled.
Context {O A P : Type} (files : wavfiles P A).
Notation leaf := (leaf O A P).
Implicit Types (w : leaf) (ws : list leaf).

Definition sampled_ok w : Prop :=
  match w with
  | LB _ => False
  | LA a => array_ok a
  | LW v => exists samples, wav_ok files samples v
  end.
Definition arr_eq (x y : arrw A) : Prop :=
  a_start x == a_start y /\ a_end x == a_end y /\ a_rate x = a_rate y /\ a_data x = a_data y.

Lemma arr_eq_ok x y : arr_eq x y -> array_ok x -> array_ok y.
Proof.
  intros (E1 & E2 & E3 & E4) [R H]. unfold array_ok, sample_time in *. rewrite <- E3, <- E4. split; auto. lra.
Qed.
Lemma arr_eq_sym x y : arr_eq x y -> arr_eq y x.
Proof. intros (E1 & E2 & E3 & E4). repeat split; try lra; auto. Qed.
Lemma arr_eq_trans x y z : arr_eq x y -> arr_eq y z -> arr_eq x z.
Proof. intros (E1 & E2 & E3 & E4) (F1 & F2 & F3 & F4). repeat split; try lra; congruence. Qed.

(** get_subwindow of an array window in closed form. *)
Lemma array_sub_closed (x : arrw A) a b : array_ok x ->
  within (a_start x) (a_end x) a -> within (a_start x) (a_end x) b ->
  exists y i j, array_get_subwindow x a b = Ok y /\
    Z.of_nat i = ia (a_start x) (a_rate x) a /\ Z.of_nat j = ib (a_start x) (a_rate x) b /\
    (i <= length (a_data x))%nat /\ (j <= length (a_data x))%nat /\
    a_data y = segment (a_data x) i j /\
    a_start y == a_start x + inject_Z (Z.of_nat i) / a_rate x /\ a_rate y = a_rate x /\ array_ok y.
Proof.
  intros W Ha Hb. destruct (array_sub_raw x a b W Ha Hb) as (y & i & j & Ei & Ej & Hi & Hj & H & D & S' & R' & W').
  exists y, i, j. unfold get_index_after in Ei. unfold get_index_before in Ej.
  rewrite (proj2 (check_time_ok _ _ _) Ha) in Ei. rewrite (proj2 (check_time_ok _ _ _) Hb) in Ej.
  cbn in Ei, Ej. injection Ei as Ei. injection Ej as Ej. unfold ia, ib. repeat (split; [solve [auto]|]).
  auto.
Qed.

Lemma sampled_array w : sampled_ok w -> exists x, to_array_window files w = Ok x /\ array_ok x /\
  a_start x == w_start w /\ a_end x == w_end w.
Proof.
  destruct w as [b|a|v]; cbn; intro H; [contradiction| |].
  - destruct (array_copy_ok a H) as (x & Hx & W & Sx & Ex & _). exists x. rewrite Sx. repeat split; auto; try apply W; lra.
  - destruct H as (s & H). destruct (wav_to_array_ok files s v H) as (x & Hx & W & Sx & Ex & _).
    exists x. rewrite Sx. repeat split; auto; try apply W; lra.
Qed.
Lemma sampled_copy w x : sampled_ok w -> to_array_window files w = Ok x ->
  exists w' x', copy files w = Ok w' /\ sampled_ok w' /\ to_array_window files w' = Ok x' /\ arr_eq x' x /\
    w_start w' == w_start w /\ w_end w' == w_end w.
Proof.
  destruct w as [b|a|v]; cbn; intros H E; [contradiction| |].
  - destruct (array_copy_ok a H) as (y & Hy & W & Sy & Ey & Ry & Dy). rewrite Hy. cbn.
    assert (y = x) by congruence. subst y.
    destruct (array_copy_ok x W) as (z & Hz & Wz & Sz & Ez & Rz & Dz).
    exists (LA x), z. cbn. rewrite Hz. repeat (split; [solve [auto]|]).
    split; [unfold arr_eq; rewrite Sz; repeat split; auto; lra|]. rewrite Sy. split; [lra|auto].
  - destruct H as (s & H). destruct (wav_copy_ok files s v H) as (v' & -> & H' & P' & S' & E' & R' & A' & T').
    destruct (wav_to_array_ok files s v H) as (x0 & Hx & W & Sx & Ex & Rx & Dx & _).
    assert (x0 = x) by congruence. subst x0.
    destruct (wav_to_array_ok files s v' H') as (x' & Hx' & W' & Sx' & Ex' & Rx' & Dx' & _).
    exists (LW v'), x'. cbn. rewrite Hx'. split; auto. split; [exists s; auto|]. split; auto.
    split; [|rewrite S'; split; [lra|auto]].
    unfold arr_eq. rewrite Sx', Sx, Rx', Rx, Dx', Dx, A', T', S', R'. repeat split; auto; lra.
Qed.

(** Cutting one window and cutting its array. *)
Lemma sampled_sub w x a b : sampled_ok w -> to_array_window files w = Ok x ->
  (exists w' x' y, get_subwindow files w a b = Ok w' /\ sampled_ok w' /\
     to_array_window files w' = Ok x' /\ array_get_subwindow x a b = Ok y /\ arr_eq x' y) \/
  (get_subwindow files w a b = Err TimeOutOfBound /\
    (array_get_subwindow x a b = Err TimeOutOfBound \/
     exists y, array_get_subwindow x a b = Ok y /\ b < a_start y)).
Proof.
  destruct w as [u|u|v]; cbn; intros H E; [contradiction| |].
  - destruct (array_copy_ok u H) as (y & Hy & W & Sy & Ey & Ry & Dy).
    assert (y = x) by congruence. subst y.
    assert (Dec : (within (a_start u) (a_end u) a /\ within (a_start u) (a_end u) b) \/
                  ~ (within (a_start u) (a_end u) a /\ within (a_start u) (a_end u) b)).
    { destruct (check_time_case (a_start u) (a_end u) a) as [[_ ?]|[_ ?]];
      destruct (check_time_case (a_start u) (a_end u) b) as [[_ ?]|[_ ?]]; tauto. }
    destruct Dec as [[Wa Wb]|N].
    + left. destruct (array_sub_closed u a b H Wa Wb) as (y & i & j & Hsub & Ei & Ej & Li & Lj & D & S' & R' & W').
      destruct (array_sub_closed x a b W) as (y2 & i2 & j2 & Hsub2 & Ei2 & Ej2 & Li2 & Lj2 & D2 & S2 & R2 & W2).
      { rewrite Sy. unfold within in *. lra. }
      { rewrite Sy. unfold within in *. lra. }
      rewrite Hsub. cbn. destruct (array_copy_ok y W') as (z & Hz & Wz & Sz & Ez & Rz & Dz).
      exists (LA y), z, y2. cbn. rewrite Hz. repeat (split; [solve [auto]|]).
      rewrite Sy, Ry in *. assert (i2 = i) by lia. assert (j2 = j) by lia. subst i2 j2.
      unfold arr_eq. rewrite Sz, Rz, Dz, R', R2, D, D2, Dy.
      split; [lra|]. split; auto.
      destruct W' as [_ W']. destruct W2 as [_ W2]. rewrite Ez, W', W2. unfold sample_time.
      rewrite D, D2, Dy, R', R2. rewrite S', S2. reflexivity.
    + right. rewrite array_sub_err by auto. split; auto. left. apply array_sub_err. rewrite Sy.
      intros [Wa Wb]. apply N. unfold within in *. lra.
  - destruct H as (s & H).
    destruct (wav_sub_spec files s v x a b H E) as
      [(v' & y & z & -> & V' & _ & _ & _ & Hy & Hz & E1 & E2 & E3 & E4 & _)|[[-> Hy]|(y & -> & Hy & _ & L)]].
    + left. exists (LW v'), z, y. cbn. rewrite Hz. split; auto. split; [exists s; auto|]. repeat (split; [solve [auto]|]).
      unfold arr_eq. auto.
    + right. auto.
    + right. split; auto. right. exists y. auto.
Qed.

Lemma mapM_Forall2 {X Y} (f : X -> result Y) l l' : mapM f l = Ok l' <-> Forall2 (fun x y => f x = Ok y) l l'.
Proof.
  revert l'. induction l as [|x l IH]; intro l'; cbn.
  - split; intro H; [inversion H; constructor|inversion H; auto].
  - split.
    + intro H. destruct (f x) as [y|] eqn:E; [|discriminate]. cbn in H.
      destruct (mapM f l) as [ys|] eqn:E2; [|discriminate]. cbn in H. injection H as <-.
      constructor; auto. apply IH. auto.
    + intro H. inversion H as [|? y ? ys Hy Hl]; subst. rewrite Hy. cbn. apply IH in Hl. rewrite Hl. auto.
Qed.

(** Windows sharing one rate, and their arrays. *)
Definition tracks r ws (xs : list (arrw A)) : Prop :=
  Forall2 (fun w x => sampled_ok w /\ to_array_window files w = Ok x /\ a_rate x = r) ws xs.
Definition data_of (xs : list (arrw A)) : list A := concat (map (fun x => a_data x) xs).

Lemma tracks_len r ws xs lo hi : 0 < r -> tracks r ws xs -> tiles lo (map span ws) hi ->
  hi == lo + inject_Z (Z.of_nat (length (data_of xs))) / r.
Proof.
  intros R T. revert lo. induction T as [|w x ws xs (S1 & S2 & S3) T IH]; intros lo Ti; cbn in Ti.
  - unfold data_of. cbn. rewrite <- Ti. field. lra.
  - destruct Ti as (T1 & T2 & T3). apply IH in T3. rewrite T3.
    destruct (sampled_array w S1) as (y & Hy & [Ry Wy] & Sy & Ey). assert (y = x) by congruence. subst y.
    unfold sample_time in Wy. unfold data_of. cbn [map concat]. rewrite app_length, Nat2Z.inj_add, inject_Z_plus.
    fold (data_of xs). rewrite S3 in *. setoid_replace (w_end w) with (a_end x) by lra.
    rewrite Wy, Sy, T1. field. lra.
Qed.

Lemma concatenate_ok r xs x0 : 0 < r -> Forall (fun x => a_rate x = r) (x0 :: xs) ->
  exists X, array_concatenate (x0 :: xs) = Ok X /\ array_ok X /\ a_start X = a_start x0 /\
    a_rate X = r /\ a_data X = data_of (x0 :: xs).
Proof.
  intros R F. unfold array_concatenate.
  assert (R0 : a_rate x0 = r) by (inversion F; auto).
  assert (B : forallb (fun x => Qeq_bool (a_rate x) (a_rate x0)) (x0 :: xs) = true).
  { apply forallb_forall. intros y Hy. rewrite Forall_forall in F. rewrite (F y Hy), R0. apply Qeq_bool_iff. reflexivity. }
  rewrite B, R0. destruct (new_array_ok (concat (map (fun x : arrw A => a_data x) (x0 :: xs))) (a_start x0) r R) as (X & -> & W & S' & R' & D').
  exists X. repeat (split; [solve [auto]|]). auto.
Qed.

Lemma tracks_copy r ws xs : tracks r ws xs -> exists cs ys, mapM (copy files) ws = Ok cs /\
  tracks r cs ys /\ Forall2 arr_eq ys xs /\ Forall2 (fun c w => w_start c == w_start w /\ w_end c == w_end w) cs ws.
Proof.
  induction 1 as [|w x ws xs (S1 & S2 & S3) T (cs & ys & Hc & Tc & Fc & Gc)].
  - exists [], []. repeat split; constructor.
  - destruct (sampled_copy w x S1 S2) as (c & y & Hy & Sc & Ty & E & Es & Ee).
    exists (c :: cs), (y :: ys). cbn. rewrite Hy, Hc. cbn. split; auto.
    split; [constructor; auto; repeat split; auto; rewrite <- S3; apply E|].
    split; constructor; auto.
Qed.
Lemma data_of_eq ys xs : Forall2 arr_eq ys xs -> data_of ys = data_of xs.
Proof. induction 1 as [|y x ys xs E F IH]; auto. unfold data_of in *. cbn. rewrite IH. f_equal. apply E. Qed.
Lemma tiles_close lo cs ws hi : Forall2 (fun c w => w_start c == w_start w /\ w_end c == w_end w) cs ws ->
  tiles lo (map span ws) hi -> tiles lo (map (@span O A P) cs) hi.
Proof.
  intro F. revert lo. induction F as [|c w cs ws [E1 E2] F IH]; intros lo; cbn; auto.
  intros (T1 & T2 & T3). split; [lra|]. split; [lra|]. apply IH. eapply tiles_comp; [| |exact T3]; lra.
Qed.
Lemma tracks_app r (w1 w2 : list leaf) xs : tracks r (w1 ++ w2) xs -> exists x1 x2, xs = x1 ++ x2 /\ tracks r w1 x1 /\ tracks r w2 x2.
Proof. intro H. apply Forall2_app_inv_l in H as (x1 & x2 & F1 & F2 & ->). exists x1, x2. auto. Qed.
Lemma data_of_app x y : data_of (x ++ y) = data_of x ++ data_of y.
Proof. unfold data_of. rewrite map_app, concat_app. auto. Qed.
Lemma tracks_cons_inv r w ws xs : tracks r (w :: ws) xs -> exists x xs', xs = x :: xs' /\
  sampled_ok w /\ to_array_window files w = Ok x /\ a_rate x = r /\ tracks r ws xs'.
Proof. intro H. inversion H as [|? x ? xs' (H1 & H2 & H3) H4]; subst. exists x, xs'. auto. Qed.
Lemma tracks_rates r ws xs : tracks r ws xs -> Forall (fun x => a_rate x = r) xs /\
  mapM (to_array_window files) ws = Ok xs.
Proof.
  induction 1 as [|w x ws xs (S1 & S2 & S3) T [I1 I2]]; cbn; split; auto.
  rewrite S2. cbn. rewrite I2. auto.
Qed.
(** Sub-window from a time to the end of one window. *)
Lemma sub_from_time w x a r : sampled_ok w -> to_array_window files w = Ok x -> a_rate x = r ->
  within (w_start w) (w_end w) a ->
  exists w' x' i, get_subwindow files w a (w_end w) = Ok w' /\ sampled_ok w' /\ to_array_window files w' = Ok x' /\
    Z.of_nat i = ia (w_start w) r a /\ (i <= length (a_data x))%nat /\
    a_data x' = segment (a_data x) i (length (a_data x)) /\ a_rate x' = r /\
    a_start x' == w_start w + inject_Z (Z.of_nat i) / r /\ a_end x' == w_end w /\
    w_start w' == a_start x' /\ w_end w' == w_end w.
Proof.
  intros S1 S2 S3 Wa. destruct (sampled_array w S1) as (y & Hy & W & Sy & Ey).
  assert (y = x) by congruence. subst y. clear Hy. assert (Rp := proj1 W). rewrite S3 in Rp.
  assert (Nz : ~ r == 0) by lra.
  destruct (array_sub_closed x a (w_end w) W) as (y & i & j & Hs & Ei & Ej & Li & Lj & D & Sy' & Ry & Wy).
  { unfold within in *. lra. }
  { unfold within in *. lra. }
  rewrite S3 in *.
  assert (Ej' : j = length (a_data x)).
  { assert (ib (a_start x) r (w_end w) = Z.of_nat (length (a_data x))); [|lia].
    apply ib_at; auto. destruct W as [_ W]. unfold sample_time in W. rewrite S3 in W. lra. }
  subst j.
  assert (Ia : ia (a_start x) r a = ia (w_start w) r a).
  { rewrite (ia_shift (w_start w) (a_start x) r a 0); auto; [lia|]. rewrite Sy. change (inject_Z 0) with 0. field. auto. }
  assert (Ends : a_end y == w_end w).
  { destruct Wy as [_ ->]. unfold sample_time. rewrite Ry, Sy', D. unfold segment.
    rewrite firstn_length, skipn_length. rewrite Nat.min_id. rewrite Nat2Z.inj_sub by auto.
    unfold Z.sub. rewrite inject_Z_plus, inject_Z_opp. destruct W as [_ W]. unfold sample_time in W.
    rewrite S3 in W. rewrite <- Ey, W. field. auto. }
  destruct (sampled_sub w x a (w_end w) S1 S2) as [(w' & x' & y' & Hg & Sg & Tg & Hy' & E)|[_ [H|(y' & Hy' & L)]]].
  - assert (y' = y) by congruence. subst y'. destruct E as (E1 & E2 & E3 & E4).
    destruct (sampled_array w' Sg) as (x2 & Hx2 & Wx2 & Sx2 & Ex2). assert (x2 = x') by congruence. subst x2.
    exists w', x', i. rewrite E4, E3, Ry. repeat (split; [solve [auto|lia|congruence]|]).
    repeat split; try lra.
  - congruence.
  - assert (y' = y) by congruence. subst y'. exfalso.
    assert (a_start y <= a_end y); [|lra].
    destruct Wy as [_ ->]. unfold sample_time. rewrite Ry.
    assert (0 <= inject_Z (Z.of_nat (length (a_data y))) / r).
    { apply Qle_shift_div_l; auto. pose proof (injZ_nat_nonneg (length (a_data y))). lra. }
    lra.
Qed.

(** Sub-window from the start of one window to a time. *)
Lemma sub_to_time w x b r : sampled_ok w -> to_array_window files w = Ok x -> a_rate x = r ->
  within (w_start w) (w_end w) b ->
  exists w' x' j, get_subwindow files w (w_start w) b = Ok w' /\ sampled_ok w' /\ to_array_window files w' = Ok x' /\
    Z.of_nat j = ib (w_start w) r b /\ (j <= length (a_data x))%nat /\
    a_data x' = segment (a_data x) 0 j /\ a_rate x' = r /\
    a_start x' == w_start w /\ w_start w' == w_start w.
Proof.
  intros S1 S2 S3 Wb. destruct (sampled_array w S1) as (y & Hy & W & Sy & Ey).
  assert (y = x) by congruence. subst y. clear Hy. assert (Rp := proj1 W). rewrite S3 in Rp.
  assert (Nz : ~ r == 0) by lra.
  destruct (array_sub_closed x (w_start w) b W) as (y & i & j & Hs & Ei & Ej & Li & Lj & D & Sy' & Ry & Wy).
  { unfold within in *. lra. }
  { unfold within in *. lra. }
  rewrite S3 in *.
  assert (Ei' : i = 0%nat).
  { assert (ia (a_start x) r (w_start w) = 0%Z); [|lia]. apply ia_at; auto. rewrite Sy. change (inject_Z 0) with 0. field. auto. }
  subst i.
  assert (Sy2 : a_start y == w_start w) by (rewrite Sy', Sy; change (inject_Z (Z.of_nat 0)) with 0; field; auto).
  assert (Ib : ib (a_start x) r b = ib (w_start w) r b).
  { rewrite (ib_shift (w_start w) (a_start x) r b 0); auto; [lia|]. rewrite Sy. change (inject_Z 0) with 0. field. auto. }
  destruct (sampled_sub w x (w_start w) b S1 S2) as [(w' & x' & y' & Hg & Sg & Tg & Hy' & E)|[_ [H|(y' & Hy' & L)]]].
  - assert (y' = y) by congruence. subst y'. destruct E as (E1 & E2 & E3 & E4).
    destruct (sampled_array w' Sg) as (x2 & Hx2 & Wx2 & Sx2 & Ex2). assert (x2 = x') by congruence. subst x2.
    exists w', x', j. rewrite E4, E3, Ry. repeat (split; [solve [auto|lia|congruence]|]).
    repeat split; try lra.
  - congruence.
  - assert (y' = y) by congruence. subst y'. exfalso. unfold within in Wb. lra.
Qed.

Lemma concat_sub_sampled r lo ws hi xs a b : 0 < r -> ws <> [] -> tracks r ws xs ->
  tiles lo (map span ws) hi -> lo <= a -> a <= b -> b <= hi ->
  exists X Y, concat_to_array files ws = Ok X /\ array_get_subwindow X a b = Ok Y /\
    ((exists new Z, concat_get_subwindow files ws a b = Ok new /\ concat_to_array files new = Ok Z /\ arr_eq Z Y) \/
     (concat_get_subwindow files ws a b = Err TimeOutOfBound /\ a_data Y = [] /\ b < a_start Y)).
Proof.
  intros R N T Ti L1 L2 L3.
  assert (Nz : ~ r == 0) by lra.
  (* the whole array *)
  destruct ws as [|w0 ws']; [contradiction|]. set (ws := w0 :: ws') in *.
  destruct (tracks_cons_inv r w0 ws' xs T) as (x0 & xs' & -> & Sw0 & Tw0 & _ & _).
  destruct (tracks_rates r ws (x0 :: xs') T) as [Rs Ms].
  destruct (concatenate_ok r xs' x0 R Rs) as (X & HX & WX & SX & RX & DX).
  assert (HX' : concat_to_array files ws = Ok X) by (unfold concat_to_array; rewrite Ms; exact HX).
  assert (Slo : a_start X == lo).
  { rewrite SX. destruct (sampled_array w0 Sw0) as (y & Hy & _ & Sy & _). assert (y = x0) by congruence. subst y.
    rewrite Sy. cbn in Ti. lra. }
  assert (Shi : a_end X == hi).
  { destruct WX as [_ ->]. rewrite RX, DX. unfold sample_time. rewrite Slo. symmetry. apply (tracks_len r ws); auto. }
  destruct (array_sub_closed X a b WX) as (Y & IA & IB & HY & EA & EB & LA' & LB' & DY & SY & RY & WY).
  { unfold within. lra. }
  { unfold within. lra. }
  rewrite RX in *. exists X, Y. split; auto. split; auto.
  set (xs := x0 :: xs') in *.
  (* the pieces *)
  destruct (tiles_two lo ws hi a b N Ti L1 L2 L3) as
    (i & j & wi & wj & Hi & Hj & Ei & Ej & Lij & Wi & Wj & _ & _).
  remember (concat_get_subwindow files ws a b) as res eqn:Hres.
  unfold concat_get_subwindow in Hres. rewrite Hi, Hj in Hres. cbn [bind] in Hres.
  rewrite slice_segment in Hres.
  destruct (Nat.eq_dec i j) as [E|E].
  - (* one window *)
    subst j. assert (wj = wi) by congruence. subst wj.
    rewrite (seg_single ws i wi Ei) in Hres.
    apply nth_error_split in Ei as (pre & post & Ews & Li). rewrite Ews in T, Ti.
    destruct (tracks_app r pre (wi :: post) xs T) as (xpre & xr & Exs & Tpre & Tr).
    destruct (tracks_cons_inv r wi post xr Tr) as (xi & xpost & -> & Si & Ai & Ri & Tpost).
    rewrite map_app in Ti. apply tiles_app in Ti as (m & Ti1 & Ti2). cbn in Ti2. destruct Ti2 as (M1 & _ & _).
    assert (Off := tracks_len r pre xpre lo m R Tpre Ti1).
    destruct (sampled_copy wi xi Si Ai) as (c & y & Hc & Sc & Tc & Ec & Es & Ee).
    cbn [mapM bind] in Hres. rewrite Hc in Hres. cbn [bind] in Hres. rewrite py_nth_0 in Hres. cbn [bind] in Hres.
    destruct Ec as (Ec1 & Ec2 & Ec3 & Ec4).
    destruct (sub_from_time c y a r Sc Tc) as (c1 & y1 & i1 & Hc1 & Sc1 & Tc1 & Ei1 & Li1 & D1 & R1 & S1' & E1' & Sw1 & Ew1).
    { congruence. }
    { unfold within in *. lra. }
    rewrite Hc1 in Hres. cbn [bind] in Hres. rewrite py_set_0 in Hres. cbn [bind] in Hres.
    rewrite py_nth_single in Hres. cbn [bind] in Hres.
    (* global indices *)
    set (off := length (data_of xpre)) in *.
    assert (Sc_lo : w_start c == a_start X + inject_Z (Z.of_nat off) / r) by (rewrite Slo; lra).
    assert (IAe : IA = (off + i1)%nat).
    { pose proof (ia_shift (a_start X) (w_start c) r a (Z.of_nat off) Nz Sc_lo). lia. }
    assert (Dx : data_of xs = data_of xpre ++ a_data xi ++ data_of xpost).
    { rewrite Exs, data_of_app. unfold data_of. cbn. auto. }
    assert (NS : a_start y1 == a_start Y).
    { rewrite S1', SY, Sc_lo, IAe, Nat2Z.inj_add, inject_Z_plus. field. auto. }
    destruct (Qlt_le_dec b (w_start c1)) as [Lt|Le].
    + right.
      assert (Bad : get_subwindow files c1 (w_start c1) b = Err TimeOutOfBound).
      { destruct (sampled_sub c1 y1 (w_start c1) b Sc1 Tc1) as [(w' & x' & y' & Hg & _ & _ & Hy' & _)|[H _]]; auto.
        exfalso. rewrite array_sub_err in Hy'; [discriminate|]. intros [_ K]. unfold within in K. lra. }
      rewrite Bad in Hres. cbn [bind] in Hres. split; auto.
      assert (BY : b < a_start Y) by lra. split; auto. rewrite DY.
      assert (IB <= IA)%nat.
      { assert (ib (a_start X) r b <= Z.of_nat IA)%Z; [|lia]. apply ib_le; auto. rewrite <- SY. lra. }
      unfold segment. replace (IB - IA)%nat with 0%nat by lia. auto.
    + left.
      destruct (sub_to_time c1 y1 b r Sc1 Tc1 R1) as (c2 & y2 & j2 & Hc2 & Sc2 & Tc2 & Ej2 & Lj2 & D2 & R2 & S2' & Sw2).
      { unfold within in *. lra. }
      rewrite Hc2 in Hres. cbn [bind] in Hres. rewrite py_set_single in Hres. cbn [bind] in Hres.
      assert (Hn : new_concat [c2] = Ok [c2]) by (apply new_concat_ok; split; [discriminate|cbn; auto]).
      rewrite Hn in Hres.
      destruct (concatenate_ok r [] y2 R) as (Z & HZ & WZ & SZ & RZ & DZ).
      { constructor; auto. }
      exists [c2], Z. split; auto.
      split; [unfold concat_to_array; cbn [mapM]; rewrite Tc2; cbn [bind]; exact HZ|].
      assert (Sc1_lo : w_start c1 == a_start X + inject_Z (Z.of_nat IA) / r).
      { rewrite Sw1, NS, SY. reflexivity. }
      assert (IBe : (IB = IA + j2)%nat).
      { pose proof (ib_shift (a_start X) (w_start c1) r b (Z.of_nat IA) Nz Sc1_lo). lia. }
      assert (Dat : a_data Z = a_data Y).
      { rewrite DZ, DY, DX. change (data_of [y2]) with (a_data y2 ++ []). rewrite app_nil_r.
        rewrite D2, D1, Ec4. fold xs. rewrite Dx. rewrite IBe, IAe.
        assert (length (a_data y1) = (length (a_data xi) - i1)%nat).
        { rewrite D1, Ec4. unfold segment. rewrite firstn_length, skipn_length. lia. }
        rewrite Ec4 in Li1.
        rewrite segment_to by lia.
        replace (off + i1 + j2)%nat with (off + (i1 + j2))%nat by lia. unfold off.
        rewrite segment_app_mid by lia. reflexivity. }
      assert (Sta : a_start Z == a_start Y) by (rewrite SZ, S2', Sw1, NS; reflexivity).
      unfold arr_eq. rewrite Dat, RZ, RY. repeat split; auto.
      destruct WZ as [_ ->]. destruct WY as [_ ->]. rewrite RZ, RY, Dat. unfold sample_time. rewrite Sta. reflexivity.
  - (* several windows *)
    left. assert (L : (i < j)%nat) by lia.
    destruct (split_two ws i j wi wj L Ei Ej) as (pre & mid & post & Ews & Lp & Lm).
    rewrite Ews in Hres. rewrite (seg_multi pre mid post wi wj i j Lp Lm) in Hres.
    rewrite Ews in T, Ti.
    destruct (tracks_app r pre _ xs T) as (xpre & xr & Exs & Tpre & Tr).
    destruct (tracks_cons_inv r wi _ xr Tr) as (xi & xr2 & -> & Si & Ai & Ri & Tr2).
    destruct (tracks_app r mid _ xr2 Tr2) as (xmid & xr3 & -> & Tmid & Tr3).
    destruct (tracks_cons_inv r wj _ xr3 Tr3) as (xj & xpost & -> & Sj & Aj & Rj & Tpost).
    rewrite map_app in Ti. apply tiles_app in Ti as (m & Ti1 & Ti2).
    cbn [map tiles span fst snd] in Ti2. destruct Ti2 as (M1 & M2 & Ti2).
    rewrite map_app in Ti2. apply tiles_app in Ti2 as (m2 & Ti3 & Ti4).
    cbn [map tiles span fst snd] in Ti4. destruct Ti4 as (M3 & M4 & Ti5).
    assert (Off := tracks_len r pre xpre lo m R Tpre Ti1).
    assert (Offm := tracks_len r mid xmid _ m2 R Tmid Ti3).
    destruct (sampled_copy wi xi Si Ai) as (c & y & Hc & Sc & Tc & Ec & Es & Ee).
    destruct (sampled_copy wj xj Sj Aj) as (d & z & Hd & Sd & Td & Ed & Fs & Fe).
    destruct (tracks_copy r mid xmid Tmid) as (cm & ym & Hm & Tm & Em & Gm).
    assert (Hcopies : mapM (copy files) (wi :: mid ++ [wj]) = Ok (c :: cm ++ [d])).
    { cbn. rewrite Hc. cbn. apply mapM_Forall2 in Hm.
      assert (Hall : mapM (copy files) (mid ++ [wj]) = Ok (cm ++ [d])).
      { apply mapM_Forall2. apply Forall2_app; auto. }
      rewrite Hall. auto. }
    rewrite Hcopies in Hres. cbn [bind] in Hres. rewrite py_nth_0 in Hres. cbn [bind] in Hres.
    destruct Ec as (Ec1 & Ec2 & Ec3 & Ec4). destruct Ed as (Ed1 & Ed2 & Ed3 & Ed4).
    destruct (sub_from_time c y a r Sc Tc) as (c1 & y1 & i1 & Hc1 & Sc1 & Tc1 & Ei1 & Li1 & D1 & R1 & S1' & E1' & Sw1 & Ew1).
    { congruence. }
    { unfold within in *. lra. }
    rewrite Hc1 in Hres. cbn [bind] in Hres. rewrite py_set_0 in Hres. cbn [bind] in Hres.
    rewrite app_comm_cons, py_nth_m1 in Hres. cbn [bind] in Hres.
    destruct (sub_to_time d z b r Sd Td) as (d1 & z1 & j1 & Hd1 & Sd1 & Td1 & Ej1 & Lj1 & G1 & Q1 & U1 & Uw1).
    { congruence. }
    { unfold within in *. lra. }
    rewrite Hd1 in Hres. cbn [bind] in Hres. rewrite py_set_m1 in Hres. cbn [bind] in Hres.
    assert (Stc1 : w_start c1 <= w_end c1).
    { rewrite Sw1, S1', Ew1. destruct (sampled_array c Sc) as (y' & Hy' & [_ Wy'] & Sy' & Ey').
      assert (y' = y) by congruence. subst y'. unfold sample_time in Wy'.
      replace (a_rate y) with r in Wy' by congruence. rewrite <- Ey', Wy', Sy'.
      assert (inject_Z (Z.of_nat i1) / r <= inject_Z (Z.of_nat (length (a_data y))) / r); [|lra].
      apply Qle_shift_div_l; auto. setoid_replace (inject_Z (Z.of_nat i1) / r * r) with (inject_Z (Z.of_nat i1)) by (field; auto).
      apply (proj1 (injZ_le _ _)). lia. }
    assert (Std1 : w_start d1 <= w_end d1).
    { destruct (sampled_array d1 Sd1) as (y' & Hy' & [Ry' Wy'] & Sy' & Ey'). rewrite <- Ey', <- Sy', Wy'.
      unfold sample_time. assert (0 <= inject_Z (Z.of_nat (length (a_data y'))) / a_rate y'); [|lra].
      apply Qle_shift_div_l; auto. pose proof (injZ_nat_nonneg (length (a_data y'))). lra. }
    assert (Tnew : tiles (w_start c1) (map span ((c1 :: cm) ++ [d1])) (w_end d1)).
    { rewrite map_app. apply tiles_app. exists m2. split.
      - cbn [map tiles span fst snd]. split; [reflexivity|]. split; auto.
        eapply tiles_close; [exact Gm|]. eapply tiles_comp; [| |exact Ti3]; [lra|reflexivity].
      - cbn. repeat split; auto; lra. }
    assert (Hn : new_concat ((c1 :: cm) ++ [d1]) = Ok ((c1 :: cm) ++ [d1])).
    { eapply tiles_ok; [discriminate|exact Tnew]. }
    rewrite Hn in Hres.
    assert (Tn : tracks r ((c1 :: cm) ++ [d1]) (y1 :: ym ++ [z1])).
    { cbn. constructor; [repeat split; auto|]. apply Forall2_app; auto. }
    destruct (tracks_rates r _ _ Tn) as [Rn Mn].
    destruct (concatenate_ok r (ym ++ [z1]) y1 R Rn) as (Z & HZ & WZ & SZ & RZ & DZ).
    exists ((c1 :: cm) ++ [d1]), Z. split; auto.
    split; [unfold concat_to_array; rewrite Mn; exact HZ|].
    (* global indices *)
    set (off := length (data_of xpre)) in *.
    assert (Sc_lo : w_start c == a_start X + inject_Z (Z.of_nat off) / r) by (rewrite Slo; lra).
    assert (IAe : IA = (off + i1)%nat).
    { pose proof (ia_shift (a_start X) (w_start c) r a (Z.of_nat off) Nz Sc_lo). lia. }
    set (ni := length (a_data xi)) in *. set (nm := length (data_of xmid)) in *.
    assert (Endi : w_end wi == w_start wi + inject_Z (Z.of_nat ni) / r).
    { destruct (sampled_array wi Si) as (y' & Hy' & [_ Wy'] & Sy' & Ey').
      assert (y' = xi) by congruence. subst y'. unfold sample_time in Wy'. rewrite Ri in Wy'.
      rewrite <- Ey', Wy', Sy'. reflexivity. }
    assert (Sd_lo : w_start d == a_start X + inject_Z (Z.of_nat (off + ni + nm)) / r).
    { rewrite Slo, Fs, M3, Offm, Endi, M1, Off. rewrite !Nat2Z.inj_add, !inject_Z_plus. field. auto. }
    assert (IBe : (IB = off + ni + nm + j1)%nat).
    { pose proof (ib_shift (a_start X) (w_start d) r b (Z.of_nat (off + ni + nm)) Nz Sd_lo). lia. }
    assert (Dx : data_of xs = data_of xpre ++ a_data xi ++ data_of xmid ++ a_data xj ++ data_of xpost).
    { rewrite Exs, data_of_app. f_equal. change (a_data xi ++ data_of (xmid ++ xj :: xpost) =
        a_data xi ++ data_of xmid ++ a_data xj ++ data_of xpost). f_equal. rewrite data_of_app. reflexivity. }
    assert (Dat : a_data Z = a_data Y).
    { rewrite DZ, DY, DX. fold xs. rewrite Dx, IAe, IBe.
      change (data_of (y1 :: ym ++ [z1])) with (a_data y1 ++ data_of (ym ++ [z1])).
      rewrite data_of_app. change (data_of [z1]) with (a_data z1 ++ []). rewrite app_nil_r.
      rewrite (data_of_eq ym xmid Em), D1, G1, Ec4, Ed4. unfold off, ni, nm.
      rewrite Ec4 in Li1. rewrite Ed4 in Lj1. rewrite segment_app_span by auto. reflexivity. }
    assert (Sta : a_start Z == a_start Y).
    { rewrite SZ, S1', SY, Sc_lo, IAe, Nat2Z.inj_add, inject_Z_plus. field. auto. }
    unfold arr_eq. rewrite Dat, RZ, RY. repeat split; auto.
    destruct WZ as [_ ->]. destruct WY as [_ ->]. rewrite RZ, RY, Dat. unfold sample_time. rewrite Sta. reflexivity.
Qed.
End Sampled.
