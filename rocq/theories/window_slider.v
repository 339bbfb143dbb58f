(** * Proofs about slider and concat_of_frames. *)

From Coq Require Import List ZArith QArith Qround Bool Lia Lqa Psatz.
Import ListNotations.
From Verif Require Import Py Py_proof ListUtil window_model window_spec window_proof window_concat.
Open Scope py_scope.
Local Open Scope Q_scope.

(** The number written [i * shift] in the statements. *)
Definition nshift (i : nat) (shift : Q) : Q := inject_Z (Z.of_nat i) * shift.

Lemma nshift_S i s : nshift (S i) s == nshift i s + s.
Proof. unfold nshift. rewrite injZ_S. ring. Qed.
Lemma nshift_le i j s : 0 <= s -> (i <= j)%nat -> nshift i s <= nshift j s.
Proof.
  intros S L. induction L as [|j L IH]; [lra|]. rewrite nshift_S. lra.
Qed.

Lemma mul_div x s : 0 < s -> x / s * s == x.
Proof. intro. field. lra. Qed.
Lemma div_le_mul a b s : 0 < s -> (a <= b / s <-> a * s <= b).
Proof.
  intro S. rewrite <- (mul_div b s S) at 2. split; intro H.
  - apply Qmult_le_r; auto.
  - apply Qmult_le_r in H; auto.
Qed.
Lemma div_ge_mul a b s : 0 < s -> (b / s <= a <-> b <= a * s).
Proof.
  intro S. rewrite <- (mul_div b s S) at 2. split; intro H.
  - apply Qmult_le_r; auto.
  - apply Qmult_le_r in H; auto.
Qed.

(** Position of the last step computed by _arange. *)
Lemma arange_steps left right step tol : 0 < step -> 0 <= tol -> tol <= step ->
  let n := to_approx_int ((right - left) * 1 / step) (tol / step) false in
  (left + inject_Z n * step <= right \/ left + inject_Z n * step < right + tol) /\
  right < left + (inject_Z n + 1) * step /\ right + tol <= left + (inject_Z n + 1) * step /\
  (tol + tol <= step -> left + (inject_Z n - 1) * step <= right - tol).
Proof.
  intros Sp T Ts n. set (x := (right - left) * 1 / step) in *. set (u := tol / step) in *.
  assert (Ex : x * step == right - left) by (unfold x; field; lra).
  assert (Eu : u * step == tol) by (unfold u; field; lra).
  assert (U0 : 0 <= u) by (apply div_le_mul; auto; lra).
  assert (U1 : u <= 1) by (apply div_ge_mul; auto; lra).
  destruct (floor_bounds x) as [F1 F2]. destruct (ceil_bounds x) as [C1 C2].
  assert (FC : inject_Z (Qceiling x) <= inject_Z (Qfloor x) + 1).
  { change 1 with (inject_Z 1). rewrite <- inject_Z_plus. apply (proj1 (injZ_le _ _)).
    apply ceil_lub. rewrite inject_Z_plus. change (inject_Z 1) with 1. lra. }
  assert (M : forall a b, a <= b -> a * step <= b * step) by (intros; apply Qmult_le_r; auto).
  assert (M' : forall a b, a < b -> a * step < b * step) by (intros; apply Qmult_lt_r; auto).
  assert (K : (inject_Z n <= x \/ inject_Z n < x + u) /\ x < inject_Z n + 1 /\ x + u <= inject_Z n + 1 /\
              (u + u <= 1 -> inject_Z n - 1 <= x - u)).
  { unfold n, to_approx_int.
    destruct (Qlt_bool_spec (inject_Z (Qceiling x) - x) u) as [H|H].
    - split; [right; lra|]. split; [lra|]. split; [lra|]. intro. lra.
    - assert (Same : (if Qlt_bool (x - inject_Z (Qfloor x)) u then Qfloor x else Qfloor x) = Qfloor x)
        by (destruct (Qlt_bool _ _); auto).
      rewrite Same. split; [left; lra|]. split; [lra|]. split; [|intro; lra]. 
      destruct (Qlt_le_dec (inject_Z (Qfloor x)) x) as [L|L]; lra. }
  destruct K as (K1 & K2 & K3 & K4). repeat split.
  - destruct K1 as [K1|K1]; [left; apply M in K1; lra|right; apply M' in K1; lra].
  - apply M' in K2. lra.
  - apply M in K3. lra.
  - intro H. assert (H2 : u + u <= 1).
    { apply (Qmult_le_r _ _ step); auto. lra. }
    specialize (K4 H2). apply M in K4. lra.
Qed.

Lemma nth_error_map_seq {X} (f : nat -> X) n i : nth_error (map f (seq 0 n)) i =
  if (i <? n)%nat then Some (f i) else None.
Proof.
  rewrite nth_error_map.
  destruct (Nat.ltb_spec i n) as [H|H].
  - rewrite (nth_error_nth' _ 0%nat) by (rewrite seq_length; auto).
    rewrite seq_nth by auto. reflexivity.
  - replace (nth_error (seq 0 n) i) with (@None nat); auto.
    symmetry. apply nth_error_None. rewrite seq_length. auto.
Qed.

Lemma snap_spec x ref tol : 0 <= tol ->
  (snap_above x ref tol = ref /\ ref - tol < x) \/ (snap_above x ref tol = x /\ x <= ref - tol).
Proof. intro. unfold snap_above. destruct (Qlt_bool_spec (ref - tol) x); auto. Qed.

Lemma arange_full left right step tol : 0 < step -> 0 <= tol -> tol <= step ->
  exists l, arange left right step true tol = Ok l /\
    (forall i s, nth_error l i = Some s ->
       s <= right /\ near tol s (left + nshift i step) /\ ((S i < length l)%nat -> s == left + nshift i step)) /\
    (forall i, left + nshift i step <= right -> (i < length l)%nat) /\
    (forall i, (length l <= i)%nat -> right < left + nshift i step /\ right + tol <= left + nshift i step).
Proof.
  intros Sp T Ts. unfold arange. rewrite !py_div_ok by lra. cbn [bind].
  destruct (arange_steps left right step tol Sp T Ts) as (A1 & A2 & A3 & _).
  set (n := to_approx_int ((right - left) * 1 / step) (tol / step) false) in *.
  destruct (Z.ltb_spec n 0) as [C|C].
  - exists []. split; auto. split; [intros [|i] s H; discriminate|].
    assert (L : forall i, right < left + nshift i step /\ right + tol <= left + nshift i step).
    { intro i. assert (inject_Z n + 1 <= 0).
      { change 1 with (inject_Z 1). change 0 with (inject_Z 0). rewrite <- inject_Z_plus.
        apply (proj1 (injZ_le _ _)). lia. }
      assert ((inject_Z n + 1) * step <= 0 * step) by (apply Qmult_le_r; auto).
      assert (0 <= nshift i step).
      { unfold nshift. apply Qmult_le_0_compat; [apply injZ_nat_nonneg|lra]. }
      split; lra. }
    split; [|intros; apply L]. intros i Hi. destruct (L i). lra.
  - cbn [orb]. eexists. split; [reflexivity|].
    set (k := Z.to_nat n). assert (Ek : inject_Z n = inject_Z (Z.of_nat k)) by (unfold k; rewrite Z2Nat.id; auto).
    rewrite app_length, map_length, seq_length. cbn [length].
    assert (Last : let last := snap_above (left + inject_Z n * step) right tol in
                   last <= right /\ near tol last (left + nshift k step)).
    { cbn zeta. unfold nshift. rewrite Ek in *.
      destruct (snap_spec (left + inject_Z (Z.of_nat k) * step) right tol T) as [[-> H]|[-> H]];
        unfold near; split; try lra. }
    cbn zeta in Last. set (last := snap_above _ _ _) in *.
    assert (Bef : forall i, (i < k)%nat -> left + nshift i step <= right).
    { intros i Hi. assert (nshift i step + step <= nshift k step).
      { rewrite <- nshift_S. apply nshift_le; [lra|lia]. }
      unfold nshift in *. rewrite Ek in A1. lra. }
    split; [|split].
    + intros i s H. destruct (Nat.lt_ge_cases i k) as [L|L].
      * rewrite nth_error_app1 in H by (rewrite map_length, seq_length; auto).
        rewrite nth_error_map_seq in H. destruct (Nat.ltb_spec i k); [|lia]. injection H as <-.
        fold (nshift i step). split; [apply Bef; auto|]. split; [unfold near; lra|intro; reflexivity].
      * rewrite nth_error_app2 in H by (rewrite map_length, seq_length; auto).
        rewrite map_length, seq_length in H. destruct (i - k)%nat as [|r] eqn:Er; [|destruct r; discriminate].
        injection H as <-. assert (i = k) by lia. subst i. split; [apply Last|]. split; [apply Last|]. lia.
    + intros i Hi. destruct (Nat.lt_ge_cases i (k + 1)) as [L|L]; auto. exfalso.
      assert (nshift (k + 1) step <= nshift i step) by (apply nshift_le; [lra|lia]).
      replace (k + 1)%nat with (S k) in H by lia. rewrite nshift_S in H.
      unfold nshift in *. rewrite Ek in *. lra.
    + intros i Hi. assert (nshift (k + 1) step <= nshift i step) by (apply nshift_le; [lra|lia]).
      replace (k + 1)%nat with (S k) in H by lia. rewrite nshift_S in H.
      unfold nshift in *. rewrite Ek in *. split; lra.
Qed.

Lemma arange_partial left right step tol : 0 < step -> 0 <= tol -> tol + tol <= step ->
  exists l, arange left right step false tol = Ok l /\
    (forall i s, nth_error l i = Some s ->
       s == left + nshift i step /\ s < right /\ s <= right - tol) /\
    (forall i, left + nshift i step < right -> left + nshift i step <= right - tol ->
       (i < length l)%nat).
Proof.
  intros Sp T Ts. unfold arange. rewrite !py_div_ok by lra. cbn [bind].
  destruct (arange_steps left right step tol Sp T) as (A1 & A2 & A3 & A4); [lra|]. specialize (A4 Ts).
  set (n := to_approx_int ((right - left) * 1 / step) (tol / step) false) in *.
  assert (Pos : forall i, 0 <= nshift i step).
  { intro i. unfold nshift. apply Qmult_le_0_compat; [apply injZ_nat_nonneg|lra]. }
  destruct (Z.ltb_spec n 0) as [C|C].
  - exists []. split; auto. split; [intros [|i] s H; discriminate|].
    intros i Hi _. exfalso. assert (inject_Z n + 1 <= 0).
    { change 1 with (inject_Z 1). change 0 with (inject_Z 0). rewrite <- inject_Z_plus.
      apply (proj1 (injZ_le _ _)). lia. }
    assert ((inject_Z n + 1) * step <= 0 * step) by (apply Qmult_le_r; auto).
    specialize (Pos i). lra.
  - cbn [orb].
    set (k := Z.to_nat n). assert (Ek : inject_Z n = inject_Z (Z.of_nat k)) by (unfold k; rewrite Z2Nat.id; auto).
    set (last := snap_above _ _ _).
    set (l0 := map _ _).
    assert (N0 : forall i s, nth_error l0 i = Some s -> s = left + nshift i step /\ (i < k)%nat).
    { intros i s H. unfold l0 in H. rewrite nth_error_map_seq in H. destruct (Nat.ltb_spec i k); [|discriminate].
      injection H as <-. auto. }
    assert (Len0 : length l0 = k) by (unfold l0; rewrite map_length, seq_length; auto).
    assert (Bef : forall i, (i < k)%nat -> left + nshift i step <= right - tol /\ left + nshift i step < right).
    { intros i Hi. assert (nshift i step + step <= nshift k step).
      { rewrite <- nshift_S. apply nshift_le; [lra|lia]. }
      unfold nshift in *. rewrite Ek in A1, A4. split; lra. }
    assert (Aft : forall i, (k < i)%nat -> ~ left + nshift i step < right).
    { intros i Hi. assert (nshift (S k) step <= nshift i step) by (apply nshift_le; [lra|lia]).
      rewrite nshift_S in H. unfold nshift in *. rewrite Ek in *. lra. }
    assert (Last : (last = right /\ right - tol < left + nshift k step) \/
                   (last = left + nshift k step /\ left + nshift k step <= right - tol)).
    { unfold last. fold (nshift k step). rewrite Ek. apply snap_spec; auto. }
    destruct (Qeq_bool_spec last right) as [E|E]; cbn [negb].
    + exists l0. split; auto. split.
      * intros i s H. destruct (N0 i s H) as [-> L]. destruct (Bef i L). repeat split; auto; lra.
      * intros i H1 H2. rewrite Len0. destruct (Nat.lt_trichotomy i k) as [L|[L|L]]; auto; exfalso.
        -- subst i. destruct Last as [[_ H]|[H _]]; [lra|]. rewrite H in E. lra.
        -- apply (Aft i L H1).
    + exists (l0 ++ [last]). split; auto. split.
      * intros i s H. destruct (Nat.lt_ge_cases i k) as [L|L].
        -- rewrite nth_error_app1 in H by lia. destruct (N0 i s H) as [-> _]. destruct (Bef i L). repeat split; auto; lra.
        -- rewrite nth_error_app2 in H by lia. rewrite Len0 in H.
           destruct (i - k)%nat as [|r] eqn:Er; [|destruct r; discriminate].
           injection H as <-. assert (i = k) by lia. subst i.
           destruct Last as [[H _]|[H H']]; [rewrite H in E; exfalso; apply E; reflexivity|].
           rewrite H in *. split; [reflexivity|]. split; [|auto].
           apply Qnot_le_lt. intro K. apply E. lra.
      * intros i H1 H2. rewrite app_length, Len0. cbn [length].
        destruct (Nat.le_gt_cases i k) as [L|L]; [lia|]. exfalso. apply (Aft i L H1).
Qed.

Lemma slider_full t0 t1 width shift tol : 0 < shift -> 0 <= tol -> tol <= shift ->
  exists l, slider t0 t1 width shift false tol = Ok l /\
    (forall i p, nth_error l i = Some p ->
       near tol (fst p) (t0 + nshift i shift) /\
       ((S i < length l)%nat -> fst p == t0 + nshift i shift) /\
       fst p + width <= t1 /\ snd p <= t1 /\ near tol (snd p) (fst p + width) /\
       (snd p == fst p + width \/ snd p == t1)) /\
    (forall i, t0 + nshift i shift + width <= t1 -> (i < length l)%nat) /\
    (forall i, (length l <= i)%nat ->
       t1 < t0 + nshift i shift + width /\ t1 + tol <= t0 + nshift i shift + width).
Proof.
  intros Sp T Ts. unfold slider. cbn [negb].
  destruct (arange_full t0 (t1 - width) shift tol Sp T Ts) as (l & -> & A1 & A2 & A3). cbn [bind].
  eexists. split; [reflexivity|]. rewrite map_length. split; [|split].
  - intros i p H. rewrite nth_error_map in H. destruct (nth_error l i) as [s|] eqn:E; [|discriminate].
    injection H as <-. cbn [fst snd]. destruct (A1 i s E) as (B1 & B2 & B3).
    destruct (snap_spec (s + width) t1 tol T) as [[-> H]|[-> H]];
      repeat (split; [solve [auto|lra|unfold near; lra]|]); [right|left]; lra.
  - intros i H. apply A2. lra.
  - intros i H. destruct (A3 i H). split; lra.
Qed.

Lemma slider_partial t0 t1 width shift tol : 0 < shift -> 0 <= tol -> tol + tol <= shift ->
  exists l, slider t0 t1 width shift true tol = Ok l /\
    (forall i p, nth_error l i = Some p ->
       fst p == t0 + nshift i shift /\ fst p < t1 /\ fst p <= t1 - tol /\
       ((snd p = t1 /\ t1 - tol < fst p + width) \/
        (snd p = fst p + width /\ fst p + width <= t1 - tol))) /\
    (forall i, t0 + nshift i shift < t1 -> t0 + nshift i shift <= t1 - tol ->
       (i < length l)%nat).
Proof.
  intros Sp T Ts. unfold slider. cbn [negb].
  destruct (arange_partial t0 t1 shift tol Sp T Ts) as (l & -> & A1 & A2). cbn [bind].
  eexists. split; [reflexivity|]. rewrite map_length. split.
  - intros i p H. rewrite nth_error_map in H. destruct (nth_error l i) as [s|] eqn:E; [|discriminate].
    injection H as <-. cbn [fst snd]. destruct (A1 i s E) as (B1 & B2 & B3).
    repeat (split; [solve [auto]|]). apply snap_spec; auto.
  - intros i H1 H2. apply A2; auto.
Qed.

(** ** Frames. *)
Section Frames.
Context {O A P : Type}.

Definition frame (p : Q * Q) : basic O := Basic (fst p) (snd p) None.

Lemma frames_map l : map (fun p => @LB O A P (Basic (fst p) (snd p) None)) l = leaves (map frame l).
Proof. unfold leaves. rewrite map_map. reflexivity. Qed.
Lemma bspan_frames l : map bspan (map frame l) = l.
Proof.
  rewrite map_map. rewrite <- (map_id l) at 2. apply map_ext. intros [a b]. reflexivity.
Qed.

Lemma frames_tile D t1 l : 0 < D -> forall t0, l <> [] ->
  (forall i p, nth_error l i = Some p -> fst p == t0 + nshift i D /\ fst p <= snd p) ->
  (forall i p, nth_error l i = Some p -> (S i < length l)%nat -> snd p == fst p + D) ->
  (forall i p, nth_error l i = Some p -> S i = length l -> snd p == t1) ->
  tiles t0 l t1.
Proof.
  intro HD. induction l as [|p l IH]; intros t0 N H1 H2 H3; [contradiction|].
  cbn. destruct (H1 0%nat p eq_refl) as [S0 O0].
  assert (Z0 : nshift 0 D == 0) by (unfold nshift; cbn; ring).
  split; [lra|]. split; auto. destruct l as [|q l].
  - cbn. apply (H3 0%nat p); auto.
  - assert (E : snd p == fst p + D) by (apply (H2 0%nat p); auto; cbn; lia).
    apply IH; [discriminate| | |].
    + intros i r Hr. destruct (H1 (S i) r Hr) as [Sr Or]. rewrite nshift_S in Sr. split; auto. lra.
    + intros i r Hr Hl. apply (H2 (S i) r); auto. cbn [length] in *. lia.
    + intros i r Hr Hl. apply (H3 (S i) r); auto. cbn [length] in *. lia.
Qed.

Lemma frames_ok t0 t1 rate : 0 < rate -> TOL * rate <= 1 # 2 -> t0 + TOL <= t1 ->
  exists fs : list (basic O), @concat_of_frames O A P t0 t1 rate = Ok (leaves fs) /\
    fs <> [] /\ tiles t0 (map bspan fs) t1 /\
    (forall k f, nth_error fs k = Some f -> b_obj f = None /\
       b_start f == t0 + inject_Z (Z.of_nat k) / rate /\
       ((S k < length fs)%nat -> b_end f - b_start f == 1 / rate) /\
       (S k = length fs -> b_end f == t1 /\ TOL <= b_end f - b_start f /\ b_end f - b_start f < 1 / rate + TOL)).
Proof.
  intros R TR L. pose proof TOL_pos as TP. unfold concat_of_frames. rewrite py_div_ok by lra. cbn [bind].
  set (D := 1 / rate).
  assert (DR : D * rate == 1) by (unfold D; field; lra).
  assert (HD : 0 < D).
  { unfold D. apply Qlt_shift_div_l; lra. }
  assert (T2 : TOL + TOL <= D).
  { apply (Qmult_le_r _ _ rate); auto. lra. }
  destruct (slider_partial t0 t1 D D TOL HD ltac:(lra) T2) as (l & -> & S1 & S2). cbn [bind].
  rewrite frames_map. assert (Z0 : nshift 0 D == 0) by (unfold nshift; cbn; ring).
  assert (Nl : l <> []).
  { intro E. subst l. specialize (S2 0%nat). cbn in S2. assert (0 < 0)%nat; [apply S2; lra|lia]. }
  (* all but the last end one period later, the last at t1 *)
  assert (Mid : forall i p, nth_error l i = Some p -> (S i < length l)%nat -> snd p == fst p + D).
  { intros i p Hp Hi. destruct (S1 i p Hp) as (A1 & A2 & A3 & [[-> A4]|[-> _]]); [|reflexivity].
    destruct (nth_error l (S i)) as [q|] eqn:Eq; [|apply nth_error_None in Eq; lia].
    destruct (S1 (S i) q Eq) as (B1 & _ & B3 & _). rewrite nshift_S in B1. lra. }
  assert (Las : forall i p, nth_error l i = Some p -> S i = length l -> snd p == t1 /\ t1 - TOL < fst p + D).
  { intros i p Hp Hi. destruct (S1 i p Hp) as (A1 & A2 & A3 & [[-> A4]|[_ A4]]); [split; [reflexivity|auto]|].
    exfalso. assert (K : (S i < length l)%nat); [|lia]. apply S2; rewrite nshift_S; lra. }
  assert (T : tiles t0 l t1).
  { apply (frames_tile D); auto.
    - intros i p Hp. destruct (S1 i p Hp) as (A1 & A2 & A3 & [[-> A4]|[-> _]]); split; lra.
    - intros i p Hp Hi. apply (Las i p Hp Hi). }
  exists (map frame l).
  rewrite (tiles_ok t0 (leaves (map frame l)) t1).
  2:{ destruct l; [contradiction|discriminate]. }
  2:{ rewrite span_leaves, bspan_frames. exact T. }
  split; auto. split; [destruct l; [contradiction|discriminate]|].
  split; [rewrite bspan_frames; exact T|].
  intros k f Hf. rewrite nth_error_map in Hf. destruct (nth_error l k) as [p|] eqn:Ep; [|discriminate].
  injection Hf as <-. rewrite map_length. cbn. split; auto.
  destruct (S1 k p Ep) as (A1 & A2 & A3 & A4). split; [|split].
  - rewrite A1. unfold nshift, D. field. lra.
  - intro H. rewrite (Mid k p Ep H). fold D. ring.
  - intro H. destruct (Las k p Ep H) as [B1 B2]. fold D. split; auto. split; lra.
Qed.

Lemma frames_short t0 t1 rate : 0 < rate -> TOL * rate <= 1 # 2 -> t1 < t0 + TOL ->
  @concat_of_frames O A P t0 t1 rate = Err ValueError.
Proof.
  intros R TR L. pose proof TOL_pos as TP. unfold concat_of_frames. rewrite py_div_ok by lra. cbn [bind].
  set (D := 1 / rate).
  assert (DR : D * rate == 1) by (unfold D; field; lra).
  assert (HD : 0 < D).
  { unfold D. apply Qlt_shift_div_l; lra. }
  assert (T2 : TOL + TOL <= D).
  { apply (Qmult_le_r _ _ rate); auto. lra. }
  destruct (slider_partial t0 t1 D D TOL HD ltac:(lra) T2) as (l & -> & S1 & S2). cbn [bind].
  destruct l as [|p l]; [reflexivity|]. exfalso.
  destruct (S1 0%nat p eq_refl) as (A1 & A2 & A3 & _).
  assert (Z0 : nshift 0 D == 0) by (unfold nshift; cbn; ring). lra.
Qed.

Lemma frames_zero t0 t1 rate : rate == 0 ->
  @concat_of_frames O A P t0 t1 rate = Err ZeroDivisionError.
Proof. intro R. unfold concat_of_frames. rewrite py_div_err by auto. reflexivity. Qed.
End Frames.
