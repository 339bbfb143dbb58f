(** * Proofs about single time windows. *)

From Coq Require Import List ZArith QArith Qround Bool Lia Lqa Psatz.
Import ListNotations.
From Verif Require Import Py Py_proof ListUtil window_model window_spec.
Open Scope py_scope.
Local Open Scope Q_scope.

(** ** Rational numbers. *)
Lemma Qlt_bool_iff a b : Qlt_bool a b = true <-> a < b.
Proof.
  unfold Qlt_bool. rewrite negb_true_iff. split; intro H.
  - apply Qnot_le_lt. intro K. apply Qle_bool_iff in K. congruence.
  - apply not_true_iff_false. intro K. apply Qle_bool_iff in K. apply Qlt_not_le in H. auto.
Qed.
Lemma Qlt_bool_false a b : Qlt_bool a b = false <-> b <= a.
Proof.
  split; intro H.
  - apply Qnot_lt_le. intro K. apply Qlt_bool_iff in K. congruence.
  - apply not_true_iff_false. intro K. apply Qlt_bool_iff in K. apply Qle_not_lt in H. auto.
Qed.
Lemma Qlt_bool_spec a b : BoolSpec (a < b) (b <= a) (Qlt_bool a b).
Proof.
  destruct (Qlt_bool a b) eqn:E; constructor; [apply Qlt_bool_iff | apply Qlt_bool_false]; auto.
Qed.
Lemma Qle_bool_spec a b : BoolSpec (a <= b) (b < a) (Qle_bool a b).
Proof.
  destruct (Qle_bool a b) eqn:E; constructor.
  - apply Qle_bool_iff; auto.
  - apply Qnot_le_lt. intro K. apply Qle_bool_iff in K. congruence.
Qed.
Lemma Qeq_bool_spec a b : BoolSpec (a == b) (~ a == b) (Qeq_bool a b).
Proof.
  destruct (Qeq_bool a b) eqn:E; constructor.
  - apply Qeq_bool_iff; auto.
  - intro K. apply Qeq_bool_iff in K. congruence.
Qed.
Ltac qlt := match goal with
  | |- context [Qlt_bool ?a ?b] => destruct (Qlt_bool_spec a b)
  | H : context [Qlt_bool ?a ?b] |- _ => destruct (Qlt_bool_spec a b)
  end.

Lemma TOL_pos : 0 < TOL.
Proof. reflexivity. Qed.
Lemma TOL_half : TOL + TOL < 1.
Proof. reflexivity. Qed.
Global Opaque TOL.

Lemma injZ_le a b : (a <= b)%Z <-> inject_Z a <= inject_Z b.
Proof. rewrite <- Zle_Qle. reflexivity. Qed.
Lemma injZ_lt a b : (a < b)%Z <-> inject_Z a < inject_Z b.
Proof. rewrite <- Zlt_Qlt. reflexivity. Qed.
Lemma injZ_S n : inject_Z (Z.of_nat (S n)) == inject_Z (Z.of_nat n) + 1.
Proof. rewrite Nat2Z.inj_succ. unfold Z.succ. rewrite inject_Z_plus. reflexivity. Qed.
Lemma injZ_nat_nonneg n : 0 <= inject_Z (Z.of_nat n).
Proof. change 0 with (inject_Z 0). apply (proj1 (injZ_le _ _)). lia. Qed.

Lemma floor_bounds x : inject_Z (Qfloor x) <= x /\ x < inject_Z (Qfloor x) + 1.
Proof.
  split; [apply Qfloor_le|].
  assert (H := Qlt_floor x). rewrite inject_Z_plus in H. exact H.
Qed.
Lemma ceil_bounds x : x <= inject_Z (Qceiling x) /\ inject_Z (Qceiling x) < x + 1.
Proof.
  split; [apply Qle_ceiling|].
  assert (H := Qceiling_lt x). unfold Z.sub in H. rewrite inject_Z_plus in H.
  change (inject_Z (- (1))) with (-(1)) in H. lra.
Qed.
Lemma floor_glb x z : inject_Z z <= x -> (z <= Qfloor x)%Z.
Proof. intro H. rewrite <- (Qfloor_Z z). apply Qfloor_resp_le; auto. Qed.
Lemma ceil_lub x z : x <= inject_Z z -> (Qceiling x <= z)%Z.
Proof. intro H. rewrite <- (Qceiling_Z z). apply Qceiling_resp_le; auto. Qed.

(** Everything needed about _to_approx_int. *)
Lemma approx_lower x tol ab : (Qfloor x <= to_approx_int x tol ab)%Z.
Proof.
  unfold to_approx_int.
  assert (Qfloor x <= Qceiling x)%Z.
  { apply (proj2 (injZ_le _ _)). destruct (floor_bounds x), (ceil_bounds x). lra. }
  repeat qlt; try destruct ab; lia.
Qed.
Lemma approx_upper x tol ab : (to_approx_int x tol ab <= Qceiling x)%Z.
Proof.
  unfold to_approx_int.
  assert (Qfloor x <= Qceiling x)%Z.
  { apply (proj2 (injZ_le _ _)). destruct (floor_bounds x), (ceil_bounds x). lra. }
  repeat qlt; try destruct ab; lia.
Qed.
Lemma approx_above x tol : 0 <= tol ->
  x - tol <= inject_Z (to_approx_int x tol true).
Proof.
  intro T. destruct (floor_bounds x), (ceil_bounds x).
  unfold to_approx_int. repeat qlt; lra.
Qed.
Lemma approx_below x tol : 0 <= tol ->
  inject_Z (to_approx_int x tol false) <= x + tol.
Proof.
  intro T. destruct (floor_bounds x), (ceil_bounds x).
  unfold to_approx_int. repeat qlt; lra.
Qed.
(** Monotonicity: rounding the larger number up and the smaller one down. *)
Lemma approx_cross x y tol : y < x ->
  (to_approx_int y tol false <= to_approx_int x tol true)%Z.
Proof.
  intro H.
  destruct (Z_le_gt_dec (Qceiling y) (Qfloor x)) as [C|C].
  { pose proof (approx_upper y tol false). pose proof (approx_lower x tol true). lia. }
  assert (F : (Qfloor y <= Qfloor x)%Z) by (apply Qfloor_resp_le; lra).
  assert (F' : (Qceiling y <= Qceiling x)%Z) by (apply Qceiling_resp_le; lra).
  assert (G : (Qceiling x <= Qfloor x + 1)%Z).
  { apply ceil_lub. rewrite inject_Z_plus. destruct (floor_bounds x). change (inject_Z 1) with 1. lra. }
  assert (E : Qceiling x = Qceiling y) by lia.
  unfold to_approx_int. rewrite E.
  repeat qlt; try lia; lra.
Qed.
(** Shift by an integer. *)
Lemma floor_shift x z : Qfloor (x + inject_Z z) = (Qfloor x + z)%Z.
Proof.
  apply Z.le_antisymm.
  - assert (H := floor_bounds (x + inject_Z z)).
    assert (Qfloor (x + inject_Z z) - z <= Qfloor x)%Z; [|lia].
    apply floor_glb. unfold Z.sub. rewrite inject_Z_plus, inject_Z_opp. lra.
  - apply floor_glb. rewrite inject_Z_plus. assert (H := floor_bounds x). lra.
Qed.
Lemma ceil_shift x z : Qceiling (x + inject_Z z) = (Qceiling x + z)%Z.
Proof.
  apply Z.le_antisymm.
  - apply ceil_lub. rewrite inject_Z_plus. assert (H := ceil_bounds x). lra.
  - assert (H := ceil_bounds (x + inject_Z z)).
    assert (Qceiling x <= Qceiling (x + inject_Z z) - z)%Z; [|lia].
    apply ceil_lub. unfold Z.sub. rewrite inject_Z_plus, inject_Z_opp. lra.
Qed.
Lemma Qlt_bool_comp a b c d : a == c -> b == d -> Qlt_bool a b = Qlt_bool c d.
Proof. intros. repeat qlt; auto; lra. Qed.
Lemma approx_comp x y t u ab : x == y -> t == u -> to_approx_int x t ab = to_approx_int y u ab.
Proof.
  intros E F. unfold to_approx_int.
  assert (Ef : Qfloor x = Qfloor y) by (apply Qfloor_comp; auto).
  assert (Ec : Qceiling x = Qceiling y) by (apply Qceiling_comp; auto).
  rewrite Ef, Ec.
  rewrite (Qlt_bool_comp (inject_Z (Qceiling y) - x) t (inject_Z (Qceiling y) - y) u)
    by (auto; rewrite E; reflexivity).
  rewrite (Qlt_bool_comp (x - inject_Z (Qfloor y)) t (y - inject_Z (Qfloor y)) u)
    by (auto; rewrite E; reflexivity).
  reflexivity.
Qed.
Lemma approx_shift x z tol ab :
  to_approx_int (x + inject_Z z) tol ab = (to_approx_int x tol ab + z)%Z.
Proof.
  unfold to_approx_int. rewrite floor_shift, ceil_shift, !inject_Z_plus.
  rewrite (Qlt_bool_comp (inject_Z (Qceiling x) + inject_Z z - (x + inject_Z z)) tol
             (inject_Z (Qceiling x) - x) tol) by lra.
  rewrite (Qlt_bool_comp (x + inject_Z z - (inject_Z (Qfloor x) + inject_Z z)) tol
             (x - inject_Z (Qfloor x)) tol) by lra.
  repeat qlt; try destruct ab; lia.
Qed.
Lemma approx_int z tol ab : to_approx_int (inject_Z z) tol ab = z.
Proof.
  pose proof (approx_lower (inject_Z z) tol ab). pose proof (approx_upper (inject_Z z) tol ab).
  rewrite Qfloor_Z in *. rewrite Qceiling_Z in *. lia.
Qed.

(** Index space and time line. *)
Lemma time_le start rate k t : 0 < rate ->
  (start + k / rate <= t <-> k <= (t - start) * rate).
Proof.
  intro R. assert (E : k == (k / rate) * rate) by (field; lra).
  split; intro H.
  - rewrite E. apply Qmult_le_r; auto. lra.
  - rewrite E in H. apply Qmult_le_r in H; auto. lra.
Qed.
Lemma time_ge start rate k t : 0 < rate ->
  (t <= start + k / rate <-> (t - start) * rate <= k).
Proof.
  intro R. assert (E : k == (k / rate) * rate) by (field; lra).
  split; intro H.
  - rewrite E. apply Qmult_le_r; auto. lra.
  - rewrite E in H. apply Qmult_le_r in H; auto. lra.
Qed.
Lemma rate_mul start rate k : 0 < rate -> (start + k / rate - start) * rate == k.
Proof. intro R. field. lra. Qed.
Lemma div_add a b r : ~ r == 0 -> a / r + b / r == (a + b) / r.
Proof. intro. field. auto. Qed.

Lemma check_time_ok s e t : check_time s e t = Ok tt <-> within s e t.
Proof.
  unfold check_time, within. repeat qlt; split; intro K; auto; try discriminate; lra.
Qed.
Lemma check_time_err s e t x : check_time s e t = Err x <-> x = TimeOutOfBound /\ ~ within s e t.
Proof.
  unfold check_time, within. repeat qlt; split; intro K; try (inversion K; subst; split; [reflexivity|lra]);
    try discriminate; destruct K as [-> K]; auto; exfalso; apply K; lra.
Qed.
Lemma check_time_case s e t :
  (check_time s e t = Ok tt /\ within s e t) \/
  (check_time s e t = Err TimeOutOfBound /\ ~ within s e t).
Proof.
  unfold check_time, within. repeat qlt; [right|right|left]; split; auto; lra.
Qed.
Lemma py_div_ok a b : ~ b == 0 -> py_div a b = Ok (a / b).
Proof. intro H. unfold py_div. destruct (Qeq_bool_spec b 0); auto. contradiction. Qed.
Lemma py_div_err a b : b == 0 -> py_div a b = Err ZeroDivisionError.
Proof. intro H. unfold py_div. destruct (Qeq_bool_spec b 0); auto. contradiction. Qed.

(** ** Basic windows. *)
Section BasicW.
Context {O : Type}.
Implicit Types w : basic O.
Lemma basic_sub_ok w a b : within (b_start w) (b_end w) a -> within (b_start w) (b_end w) b ->
  exists w', basic_get_subwindow w a b = Ok w' /\ b_start w' = a /\
    (b < a -> b_end w' = a) /\ (a <= b -> b_end w' == b) /\ b_obj w' = b_obj w.
Proof.
  intros Ha Hb. unfold basic_get_subwindow.
  rewrite (proj2 (check_time_ok _ _ _) Ha), (proj2 (check_time_ok _ _ _) Hb). cbn.
  eexists. split; [reflexivity|]. cbn. repeat split; auto.
  - intro. qlt; auto. lra.
  - intro. qlt; lra.
Qed.
Lemma basic_sub_err w a b :
  ~ (within (b_start w) (b_end w) a /\ within (b_start w) (b_end w) b) ->
  basic_get_subwindow w a b = Err TimeOutOfBound.
Proof.
  intro H. unfold basic_get_subwindow.
  destruct (check_time_case (b_start w) (b_end w) a) as [[-> Ha]|[-> _]]; cbn; auto.
  destruct (check_time_case (b_start w) (b_end w) b) as [[-> Hb]|[-> _]]; cbn; auto.
  exfalso; auto.
Qed.
End BasicW.

(** ** Array windows. *)
Section ArrayW.
Context {A : Type}.
Implicit Types w : arrw A.

(** The attribute absolute_end agrees with the data. *)
Definition array_ok w : Prop :=
  0 < a_rate w /\
  a_end w == sample_time (a_start w) (a_rate w) (length (a_data w)).

Lemma new_array_ok (data : list A) start rate : 0 < rate ->
  exists w, new_array_window data start rate = Ok w /\ array_ok w /\
    a_start w = start /\ a_rate w = rate /\ a_data w = data.
Proof.
  intro R. unfold new_array_window, samples_to_duration.
  rewrite py_div_ok by lra. cbn. eexists. split; [reflexivity|].
  unfold array_ok, sample_time. cbn. repeat split; auto. field. lra.
Qed.

Lemma new_array_inv (data : list A) start rate w : new_array_window data start rate = Ok w ->
  ~ rate == 0 /\ a_start w = start /\ a_rate w = rate /\ a_data w = data /\
  a_end w == sample_time start rate (length data).
Proof.
  unfold new_array_window, samples_to_duration. intro H.
  destruct (Qeq_dec rate 0) as [Z|Z]; [rewrite py_div_err in H by auto; discriminate|].
  rewrite py_div_ok in H by auto. cbn in H. inversion H; subst; clear H. cbn.
  repeat split; auto. unfold sample_time. field. auto.
Qed.

(** The two indices of get_subwindow, as natural numbers. *)
Lemma array_indices w a b : array_ok w ->
  within (a_start w) (a_end w) a -> within (a_start w) (a_end w) b ->
  exists i j,
    get_index_after (a_start w) (a_end w) (a_rate w) a = Ok (Z.of_nat i) /\
    get_index_before (a_start w) (a_end w) (a_rate w) b = Ok (Z.of_nat j) /\
    (i <= length (a_data w))%nat /\ (j <= length (a_data w))%nat.
Proof.
  intros [R E] Ha Hb. unfold get_index_after, get_index_before.
  rewrite (proj2 (check_time_ok _ _ _) Ha), (proj2 (check_time_ok _ _ _) Hb). cbn [bind].
  assert (X : forall t ab, within (a_start w) (a_end w) t ->
    exists k, to_approx_int ((t - a_start w) * a_rate w) (TOL * a_rate w) ab = Z.of_nat k /\
              (k <= length (a_data w))%nat).
  { intros t ab [H1 H2]. set (x := (t - a_start w) * a_rate w).
    assert (L : inject_Z 0 <= x).
    { apply (time_le (a_start w)); auto. change (inject_Z 0) with 0. 
      setoid_replace (0 / a_rate w) with 0 by (field; lra). lra. }
    assert (U : x <= inject_Z (Z.of_nat (length (a_data w)))).
    { apply (time_ge (a_start w)); auto. unfold sample_time in E. lra. }
    apply floor_glb in L. apply ceil_lub in U.
    pose proof (approx_lower x (TOL * a_rate w) ab).
    pose proof (approx_upper x (TOL * a_rate w) ab).
    exists (Z.to_nat (to_approx_int x (TOL * a_rate w) ab)). split; lia. }
  destruct (X a true Ha) as (i & -> & Hi). destruct (X b false Hb) as (j & -> & Hj).
  exists i, j. auto.
Qed.

Lemma slice_nat {X} (l : list X) i j :
  slice l (Z.of_nat i) (Z.of_nat j) = segment l i j.
Proof. apply slice_nonneg. Qed.

Lemma array_sub_raw w a b : array_ok w ->
  within (a_start w) (a_end w) a -> within (a_start w) (a_end w) b ->
  exists w' i j,
    get_index_after (a_start w) (a_end w) (a_rate w) a = Ok (Z.of_nat i) /\
    get_index_before (a_start w) (a_end w) (a_rate w) b = Ok (Z.of_nat j) /\
    (i <= length (a_data w))%nat /\ (j <= length (a_data w))%nat /\
    array_get_subwindow w a b = Ok w' /\
    a_data w' = segment (a_data w) i j /\
    a_start w' == sample_time (a_start w) (a_rate w) i /\
    a_rate w' = a_rate w /\ array_ok w'.
Proof.
  intros W Ha Hb. destruct (array_indices w a b W Ha Hb) as (i & j & Ei & Ej & Hi & Hj).
  assert (R := proj1 W).
  unfold array_get_subwindow. rewrite Ei, Ej. cbn [bind].
  unfold samples_to_duration. rewrite py_div_ok by lra. cbn [bind].
  destruct (new_array_ok (slice (a_data w) (Z.of_nat i) (Z.of_nat j))
     (a_start w + inject_Z (Z.of_nat i) * 1 / a_rate w) (a_rate w) R) as (w' & -> & W' & S' & R' & D').
  exists w', i, j. repeat (split; [solve [auto]|]). rewrite D', S', R'.
  rewrite slice_nat. repeat split; auto; try (apply W').
  unfold sample_time. field. lra.
Qed.

Lemma index_before_spec s e r t k : 0 < r -> get_index_before s e r t = Ok k ->
  within s e t /\ (forall m, (m <= k)%Z -> s + inject_Z m / r <= t + TOL) /\
  (forall m, s + inject_Z m / r <= t -> (m <= k)%Z).
Proof.
  intros R H. unfold get_index_before in H.
  destruct (check_time_case s e t) as [[C W]|[C W]]; rewrite C in H; cbn in H; [|discriminate].
  injection H as <-. split; auto. split.
  - intros m Hm. apply time_le; auto.
    apply (proj1 (injZ_le _ _)) in Hm.
    assert (B := approx_below ((t - s) * r) (TOL * r)).
    assert (T : 0 <= TOL * r) by (apply Qmult_le_0_compat; pose proof TOL_pos; lra).
    specialize (B T). lra.
  - intros m Hm. apply time_le in Hm; auto. apply floor_glb in Hm.
    pose proof (approx_lower ((t - s) * r) (TOL * r) false). lia.
Qed.
Lemma index_after_spec s e r t k : 0 < r -> get_index_after s e r t = Ok k ->
  within s e t /\ (forall m, (k <= m)%Z -> t - TOL <= s + inject_Z m / r) /\
  (forall m, t <= s + inject_Z m / r -> (k <= m)%Z).
Proof.
  intros R H. unfold get_index_after in H.
  destruct (check_time_case s e t) as [[C W]|[C W]]; rewrite C in H; cbn in H; [|discriminate].
  injection H as <-. split; auto. split.
  - intros m Hm. apply time_ge; auto.
    apply (proj1 (injZ_le _ _)) in Hm.
    assert (B := approx_above ((t - s) * r) (TOL * r)).
    assert (T : 0 <= TOL * r) by (apply Qmult_le_0_compat; pose proof TOL_pos; lra).
    specialize (B T). lra.
  - intros m Hm. apply time_ge in Hm; auto. apply ceil_lub in Hm.
    pose proof (approx_upper ((t - s) * r) (TOL * r) true). lia.
Qed.

Lemma array_sub_spec w a b : array_ok w ->
  within (a_start w) (a_end w) a -> within (a_start w) (a_end w) b ->
  exists w' i j,
    array_get_subwindow w a b = Ok w' /\
    (i <= length (a_data w))%nat /\ (j <= length (a_data w))%nat /\
    a_data w' = segment (a_data w) i j /\
    a_start w' == sample_time (a_start w) (a_rate w) i /\
    a_rate w' = a_rate w /\ array_ok w' /\
    (forall k, (i <= k < j)%nat ->
       sample_inside (a_start w) (a_rate w) (a - TOL) (b + TOL) k) /\
    (forall k, sample_inside (a_start w) (a_rate w) a b k -> (i <= k < j)%nat) /\
    (b < a -> (j <= i)%nat).
Proof.
  intros W Ha Hb.
  destruct (array_sub_raw w a b W Ha Hb) as (w' & i & j & Ei & Ej & Hi & Hj & H & D & S & R & W').
  exists w', i, j. repeat (split; [solve [auto]|]).
  destruct (index_after_spec _ _ _ _ _ (proj1 W) Ei) as (_ & A1 & A2).
  destruct (index_before_spec _ _ _ _ _ (proj1 W) Ej) as (_ & B1 & B2).
  unfold sample_inside, sample_time. split; [|split].
  - intros k Hk. split; [apply A1|apply B1]; lia.
  - intros k [K1 K2]. apply A2 in K1. apply B2 in K2. lia.
  - intro L. unfold get_index_after, get_index_before in Ei, Ej.
    rewrite (proj2 (check_time_ok _ _ _) Ha) in Ei.
    rewrite (proj2 (check_time_ok _ _ _) Hb) in Ej.
    cbn in Ei, Ej. injection Ei as Ei. injection Ej as Ej.
    assert (X : (b - a_start w) * a_rate w < (a - a_start w) * a_rate w).
    { apply Qmult_lt_r; [apply W|lra]. }
    apply (approx_cross _ _ (TOL * a_rate w)) in X. lia.
Qed.

Lemma array_sub_err w a b : 
  ~ (within (a_start w) (a_end w) a /\ within (a_start w) (a_end w) b) ->
  array_get_subwindow w a b = Err TimeOutOfBound.
Proof.
  intro H. unfold array_get_subwindow, get_index_after, get_index_before.
  destruct (check_time_case (a_start w) (a_end w) a) as [[-> Ha]|[-> _]]; cbn; auto.
  destruct (check_time_case (a_start w) (a_end w) b) as [[-> Hb]|[-> _]]; cbn; auto.
  exfalso; auto.
Qed.

Lemma array_copy_ok w : array_ok w ->
  exists w', array_copy w = Ok w' /\ array_ok w' /\ a_start w' = a_start w /\
    a_end w' == a_end w /\ a_rate w' = a_rate w /\ a_data w' = a_data w.
Proof.
  intros [R E]. destruct (new_array_ok (a_data w) (a_start w) (a_rate w) R) as (w' & H & W & S & R' & D).
  exists w'. unfold array_copy. repeat (split; [solve [auto]|]).
  split; [|auto]. rewrite E. destruct W as [_ ->]. rewrite S, R', D. reflexivity.
Qed.
End ArrayW.

(** ** Wav windows. *)
Section WavW.
Context {P A : Type} (files : wavfiles P A).
Implicit Types w : wavw P.

Definition wav_ok (samples : list A) w : Prop :=
  files (v_path w) = Ok (v_rate w, samples) /\ 0 < v_rate w /\
  (0 <= v_after w <= v_stop w)%Z /\ (v_stop w <= Z.of_nat (length samples))%Z /\
  v_end w == v_start w + inject_Z (v_stop w - v_after w) / v_rate w.

Lemma new_wav_ok path rate samples start : files path = Ok (rate, samples) -> 0 < rate ->
  exists w, new_wav_window files path start None = Ok w /\ wav_ok samples w /\
    v_path w = path /\ v_start w = start /\ v_rate w = rate /\
    v_after w = 0%Z /\ v_stop w = Z.of_nat (length samples).
Proof.
  intros F R. unfold new_wav_window. rewrite F. cbn [bind].
  unfold samples_to_duration. rewrite py_div_ok by lra. cbn [bind].
  eexists. split; [reflexivity|]. unfold wav_ok. cbn. repeat split; auto; try lia.
  rewrite Z.sub_0_r. field. lra.
Qed.

Lemma wav_copy_ok samples w : wav_ok samples w ->
  exists w', wav_copy files w = Ok w' /\ wav_ok samples w' /\
    v_path w' = v_path w /\ v_start w' = v_start w /\ v_end w' == v_end w /\
    v_rate w' = v_rate w /\ v_after w' = v_after w /\ v_stop w' = v_stop w.
Proof.
  intros (F & R & B & C & E). unfold wav_copy, new_wav_window. cbn [bind].
  unfold samples_to_duration. rewrite py_div_ok by lra. cbn [bind].
  eexists. split; [reflexivity|]. unfold wav_ok. cbn.
  repeat split; auto; try lia. 
  - field. lra.
  - rewrite E. field. lra.
Qed.

Lemma wav_move_ok samples w d : wav_ok samples w -> wav_ok samples (wav_move w d).
Proof.
  intros (F & R & B & C & E). unfold wav_ok. cbn. repeat split; auto; try lia. rewrite E. ring.
Qed.

Lemma wav_to_array_ok samples w : wav_ok samples w ->
  exists aw, wav_to_array files w = Ok aw /\ array_ok aw /\ a_start aw = v_start w /\
    a_end aw == v_end w /\ a_rate aw = v_rate w /\
    a_data aw = segment samples (Z.to_nat (v_after w)) (Z.to_nat (v_stop w)) /\
    length (a_data aw) = Z.to_nat (v_stop w - v_after w).
Proof.
  intros (F & R & B & C & E). unfold wav_to_array. rewrite F. cbn [bind].
  rewrite <- (Z2Nat.id (v_after w)) by lia. rewrite <- (Z2Nat.id (v_stop w)) by lia.
  rewrite slice_nat.
  destruct (new_array_ok (segment samples (Z.to_nat (v_after w)) (Z.to_nat (v_stop w)))
    (v_start w) (v_rate w) R) as (aw & -> & W & S & R' & D).
  assert (Len : length (a_data aw) = Z.to_nat (v_stop w - v_after w)).
  { rewrite D. unfold segment. rewrite firstn_length, skipn_length. lia. }
  exists aw. rewrite !Z2Nat.id by lia. repeat (split; [solve [auto]|]).
  split; [|repeat split; auto].
  destruct W as [_ ->]. rewrite S, R', E. unfold sample_time. rewrite Len.
  rewrite Z2Nat.id by lia. reflexivity.
Qed.

Lemma skipn_add {X} m n (l : list X) : skipn m (skipn n l) = skipn (n + m) l.
Proof. revert l. induction n; intro l; cbn; auto. destruct l; auto. rewrite skipn_nil. auto. Qed.

Lemma segment_segment {X} (l : list X) a b i j : (a <= b <= length l)%nat -> (i <= b - a)%nat -> (j <= b - a)%nat ->
  segment (segment l a b) i j = segment l (a + i) (a + j).
Proof.
  intros H Hi Hj. unfold segment. rewrite skipn_firstn_comm, firstn_firstn.
  rewrite skipn_add. f_equal. lia.
Qed.

(** Sub-windows of wav windows and of the corresponding arrays. *)
Lemma wav_sub_spec samples w aw a b : wav_ok samples w -> wav_to_array files w = Ok aw ->
  (exists w' aw' bw', wav_get_subwindow files w a b = Ok w' /\ wav_ok samples w' /\
     v_path w' = v_path w /\ v_rate w' = v_rate w /\
     v_start w' == v_start w + inject_Z (v_after w' - v_after w) / v_rate w /\
     array_get_subwindow aw a b = Ok aw' /\ wav_to_array files w' = Ok bw' /\
     a_start bw' == a_start aw' /\ a_rate bw' = a_rate aw' /\ a_data bw' = a_data aw' /\
     a_end bw' == a_end aw' /\ a_start aw' <= b) \/
  (wav_get_subwindow files w a b = Err TimeOutOfBound /\
     array_get_subwindow aw a b = Err TimeOutOfBound) \/
  (exists aw', wav_get_subwindow files w a b = Err TimeOutOfBound /\
     array_get_subwindow aw a b = Ok aw' /\ a_data aw' = [] /\ b < a_start aw').
Proof.
  intros V Ha. destruct (wav_to_array_ok samples w V) as (aw0 & Ha' & W & S & E & R & D & Len).
  assert (aw0 = aw) by congruence. subst aw0. clear Ha'.
  destruct (wav_copy_ok samples w V) as (c & Hc & Vc & Pc & Sc & Ec & Rc & Ac & Tc).
  destruct V as (F & Rp & B & C & Ew). 
  remember (wav_get_subwindow files w a b) as res eqn:Hres.
  unfold wav_get_subwindow in Hres. rewrite Hc in Hres. cbn [bind] in Hres.
  unfold wav_delay_start, get_index_after in Hres. rewrite Sc, Rc in Hres.
  destruct (check_time_case (v_start w) (v_end c) a) as [[Ck Wa]|[Ck Wa]]; rewrite Ck in Hres;
    cbn [bind] in Hres.
  2:{ right; left. split; auto. apply array_sub_err. rewrite S. intros [K _]. apply Wa.
      unfold within in *. lra. }
  unfold samples_to_duration in Hres. rewrite py_div_ok in Hres by lra. cbn [bind] in Hres.
  set (sh := to_approx_int ((a - v_start w) * v_rate w) (TOL * v_rate w) true) in *.
  unfold wav_stop_at, get_index_before in Hres. cbn in Hres.
  assert (Wa' : within (a_start aw) (a_end aw) a) by (unfold within in *; rewrite S; lra).
  destruct (check_time_case (v_start w) (v_end c) b) as [[_ Wb]|[_ Wb]].
  2:{ right; left.
      assert (Sh : (0 <= sh)%Z).
      { assert (L : (0 <= Qfloor ((a - v_start w) * v_rate w))%Z).
        { apply floor_glb. apply time_le; auto. change (inject_Z 0) with 0.
          setoid_replace (0 / v_rate w) with 0 by (field; lra). unfold within in Wa. lra. }
        pose proof (approx_lower ((a - v_start w) * v_rate w) (TOL * v_rate w) true). lia. }
      split.
      - destruct (check_time_case (v_start w + inject_Z sh * 1 / v_rate w) (v_end c) b) as [[_ K]|[K _]];
          [|rewrite K in Hres; auto].
        exfalso. apply Wb. unfold within in *.
        assert (0 <= inject_Z sh * 1 / v_rate w).
        { apply Qle_shift_div_l; auto. rewrite (injZ_le 0 sh) in Sh. change (inject_Z 0) with 0 in Sh. lra. }
        lra.
      - apply array_sub_err. rewrite S. intros [_ K]. apply Wb. unfold within in *. lra. }
  assert (Wb' : within (a_start aw) (a_end aw) b) by (unfold within in *; rewrite S; lra).
  destruct (array_sub_spec aw a b W Wa' Wb') as (aw' & i & j & Hsub & Hi & Hj & D' & S' & R' & W' & _ & _ & Hemp).
  (* identify i and j *)
  destruct (array_sub_raw aw a b W Wa' Wb') as (aw'' & i' & j' & Ei & Ej & Hi' & Hj' & Hsub' & D'' & S'' & R'' & _).
  assert (aw'' = aw') by congruence. subst aw''.
  clear D' S' Hi Hj Hemp i j. rename i' into i, j' into j, D'' into D', S'' into S'.
  unfold get_index_after, get_index_before in Ei, Ej.
  rewrite (proj2 (check_time_ok _ _ _) Wa') in Ei. rewrite (proj2 (check_time_ok _ _ _) Wb') in Ej.
  cbn in Ei, Ej. rewrite S, R in Ei, Ej. fold sh in Ei. injection Ei as Ei. injection Ej as Ej.
  assert (NS : v_start w + inject_Z sh * 1 / v_rate w == a_start aw').
  { rewrite S'. unfold sample_time. rewrite S, R, Ei. field. lra. }
  destruct (check_time_case (v_start w + inject_Z sh * 1 / v_rate w) (v_end c) b) as [[Ckb Wb2]|[Ckb Wb2]];
    rewrite Ckb in Hres; cbn [bind] in Hres.
  - left.
    assert (Idx : to_approx_int ((b - (v_start w + inject_Z sh * 1 / v_rate w)) * v_rate w)
                    (TOL * v_rate w) false = (Z.of_nat j - Z.of_nat i)%Z).
    { rewrite (approx_comp _ ((b - v_start w) * v_rate w + inject_Z (- sh)) _ (TOL * v_rate w)).
      - rewrite approx_shift. lia.
      - rewrite inject_Z_opp. field. lra.
      - reflexivity. }
    rewrite Idx in Hres. unfold samples_to_duration in Hres. rewrite py_div_ok in Hres by lra. cbn [bind] in Hres.
    assert (Nn : (i <= j)%nat).
    { assert (L : (0 <= Qfloor ((b - (v_start w + inject_Z sh * 1 / v_rate w)) * v_rate w))%Z).
      { apply floor_glb. apply time_le; auto. change (inject_Z 0) with 0.
        setoid_replace (0 / v_rate w) with 0 by (field; lra). unfold within in Wb2. lra. }
      pose proof (approx_lower ((b - (v_start w + inject_Z sh * 1 / v_rate w)) * v_rate w) (TOL * v_rate w) false).
      lia. }
    match type of Hres with _ = Ok ?x => set (w' := x) in Hres end.
    assert (V' : wav_ok samples w').
    { unfold wav_ok, w'. cbn. rewrite Pc, Ac. rewrite Len in Hi', Hj'.
      repeat split; auto; try lia.
      replace (v_after w + (Z.of_nat j - Z.of_nat i) + sh - (v_after w + sh))%Z with (Z.of_nat j - Z.of_nat i)%Z by lia.
      replace (v_after w + sh + (Z.of_nat j - Z.of_nat i) - (v_after w + sh))%Z with (Z.of_nat j - Z.of_nat i)%Z by lia.
      field. lra. }
    destruct (wav_to_array_ok samples w' V') as (bw' & Hb' & Wb'' & Sb & Eb & Rb & Db & Lb).
    exists w', aw', bw'.
    assert (Dat : a_data bw' = a_data aw').
    { rewrite Db, D', D. unfold w'. cbn. rewrite Ac. rewrite Len in Hi', Hj'.
      rewrite segment_segment by lia. f_equal; lia. }
    assert (Sta : a_start bw' == a_start aw').
    { rewrite Sb. unfold w'. cbn. apply NS. }
    repeat (split; [solve [auto]|]).
    split; [unfold w'; cbn; rewrite Ac; replace (v_after w + sh - v_after w)%Z with sh by lia; field; lra|].
    repeat (split; [solve [auto]|]).
    split; [rewrite Rb, R'; unfold w'; cbn; auto|].
    split; [auto|].
    split; [|rewrite <- NS; apply Wb2].
    destruct Wb'' as [_ ->]. destruct W' as [_ ->]. rewrite Dat.
    replace (a_rate bw') with (a_rate aw') by (rewrite Rb, R', R; unfold w'; cbn; auto).
    unfold sample_time. rewrite Sta. reflexivity.
  - right; right. exists aw'. split; auto. split; auto.
    assert (Lt : b < a_start aw').
    { rewrite <- NS. unfold within in Wb2, Wb.
      apply Qnot_le_lt. intro K. apply Wb2. split; auto. lra. }
    split; auto.
    rewrite D'. unfold segment. replace (j - i)%nat with 0%nat; auto.
    assert (j <= i)%nat; [|lia].
    rewrite S' in Lt. unfold sample_time in Lt. rewrite S, R in Lt.
    apply Qlt_le_weak in Lt. apply time_ge in Lt; auto. apply ceil_lub in Lt.
    pose proof (approx_upper ((b - v_start w) * v_rate w) (TOL * v_rate w) false). lia.
Qed.

Definition op_delta (o : wav_op) : Q := match o with WMove d => d | _ => 0 end.

Lemma wav_step_ok samples w o : wav_ok samples w ->
  wav_ok samples (wav_step files w o) /\ v_path (wav_step files w o) = v_path w /\
  v_rate (wav_step files w o) = v_rate w /\
  v_start (wav_step files w o) - inject_Z (v_after (wav_step files w o)) / v_rate w ==
    v_start w - inject_Z (v_after w) / v_rate w + op_delta o.
Proof.
  intro V. assert (R : 0 < v_rate w) by apply V. destruct o as [d| |a b]; cbn.
  - split; [apply wav_move_ok; auto|]. repeat split; auto. ring.
  - destruct (wav_copy_ok samples w V) as (w' & -> & V' & -> & -> & _ & -> & -> & _).
    repeat split; auto; try apply V'. ring.
  - destruct (wav_to_array_ok samples w V) as (aw & Ha & _).
    destruct (wav_sub_spec samples w aw a b V Ha) as
      [(w' & aw' & bw' & -> & V' & Pw & Rw & Sw & _)|[[-> _]|(aw' & -> & _)]].
    + repeat (split; [solve [auto]|]). rewrite Sw. unfold Z.sub.
      rewrite inject_Z_plus, inject_Z_opp. field. lra.
    + repeat split; auto; try apply V. ring.
    + repeat split; auto; try apply V. ring.
Qed.

Lemma wav_run_ok samples h : forall w, wav_ok samples w ->
  wav_ok samples (wav_run files w h) /\ v_path (wav_run files w h) = v_path w /\
  v_rate (wav_run files w h) = v_rate w /\
  v_start (wav_run files w h) - inject_Z (v_after (wav_run files w h)) / v_rate w ==
    v_start w - inject_Z (v_after w) / v_rate w + sum_Q (map op_delta h).
Proof.
  unfold wav_run, sum_Q. induction h as [|o h IH]; intros w V; cbn [fold_left map fold_right].
  - repeat split; auto; try apply V. ring.
  - destruct (wav_step_ok samples w o V) as (V1 & P1 & R1 & S1).
    destruct (IH _ V1) as (V2 & P2 & R2 & S2). repeat (split; [solve [auto|congruence]|]).
    rewrite R1 in S2. rewrite S2, S1. ring.
Qed.
End WavW.
