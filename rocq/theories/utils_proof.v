From Coq Require Import List ZArith Arith Bool Lia Permutation Sorted QArith Reals Lra.
From Flocq Require Import Core Relative.
Import ListNotations.
From Verif Require Import Py Py_proof ListUtil utils_model utils_spec pairing_proof.
Local Open Scope nat_scope.

(** ** Velocities *)

Lemma nth_error_combine {A B} (a : list A) (b : list B) i :
  nth_error (combine a b) i =
  match nth_error a i, nth_error b i with
  | Some x, Some y => Some (x, y) | _, _ => None end.
Proof.
  revert b i. induction a as [|x a IH]; intros b i; [destruct i; reflexivity|].
  destruct b as [|y b]; [destruct i; simpl; [reflexivity|destruct (nth_error a i); reflexivity]|].
  destruct i; simpl; [reflexivity|apply IH].
Qed.

Lemma nth_error_skipn {A} n (l : list A) i : nth_error (skipn n l) i = nth_error l (n + i).
Proof.
  revert l. induction n as [|n IH]; intros l; simpl; [reflexivity|].
  destruct l; [destruct i; reflexivity|apply IH].
Qed.
Lemma nth_error_firstn {A} n (l : list A) i : i < n -> nth_error (firstn n l) i = nth_error l i.
Proof.
  revert l i. induction n as [|n IH]; intros l i Hi; [lia|].
  destruct l; [reflexivity|]. destruct i; simpl; [reflexivity|]. apply IH. lia.
Qed.

Lemma skipn_skipn {A} x y (l : list A) : skipn x (skipn y l) = skipn (x + y) l.
Proof.
  revert l. induction y as [|y IH]; intros l; [rewrite Nat.add_0_r; reflexivity|].
  rewrite Nat.add_succ_r. destruct l; simpl; [apply skipn_nil|apply IH].
Qed.

Lemma clamp_neg n d : (0 < d <= Z.of_nat n)%Z -> clamp_slice n (- d) = n - Z.to_nat d.
Proof.
  intros H. unfold clamp_slice. destruct (Z.ltb_spec (- d) 0); lia.
Qed.
Lemma clamp_pos n d : (0 <= d)%Z -> clamp_slice n d = Nat.min n (Z.to_nat d).
Proof.
  intros H. unfold clamp_slice. destruct (Z.ltb_spec d 0); lia.
Qed.

Section Rows.
Context {V : Type} (sub : V -> V -> V) (zero : V).

Lemma bsub_same a b : length a = length b ->
  exists r, bsub sub a b = Ok r /\ length r = length a /\
   forall i x y, nth_error a i = Some x -> nth_error b i = Some y ->
     nth_error r i = Some (sub x y).
Proof.
  intros H. unfold bsub. rewrite H, Nat.eqb_refl. eexists. split; [reflexivity|].
  split; [rewrite map_length, combine_length; lia|].
  intros i x y Hx Hy. rewrite nth_error_map, nth_error_combine, Hx, Hy. reflexivity.
Qed.

(** Entry i of the array shifted circularly by d. *)
Lemma nth_error_rotate (l : list V) k i : k <= length l -> i < length l ->
  nth_error (skipn k l ++ firstn k l) i = nth_error l ((i + k) mod length l).
Proof.
  intros Hk Hi.
  destruct (Nat.lt_ge_cases i (length l - k)) as [H|H].
  - rewrite nth_error_app1 by (rewrite skipn_length; lia).
    rewrite nth_error_skipn. f_equal. rewrite Nat.mod_small by lia. lia.
  - rewrite nth_error_app2 by (rewrite skipn_length; lia).
    rewrite skipn_length. rewrite nth_error_firstn by lia. f_equal.
    replace (i + k) with ((i - (length l - k)) + 1 * length l) by lia.
    rewrite Nat.mod_add by lia. rewrite Nat.mod_small by lia. reflexivity.
Qed.

Lemma rotate_length (l : list V) k : k <= length l ->
  length (skipn k l ++ firstn k l) = length l.
Proof. intros H. rewrite app_length, skipn_length, firstn_length. lia. Qed.

Lemma velocities_spec (x : list V) : x <> [] ->
  exists v, velocities sub x = Ok v /\ length v = length x /\
  forall i a b, i < length x -> nth_error x i = Some a ->
    nth_error x ((i + 1) mod length x) = Some b -> nth_error v i = Some (sub b a).
Proof.
  destruct x as [|x0 l]; [congruence|]. intros _.
  unfold velocities, py_nth. rewrite norm_index_in by (simpl; lia). cbn [bind nth_error Z.to_nat].
  change 1%Z with (Z.of_nat 1). rewrite slice_from_nonneg.
  set (x := x0 :: l).
  assert (Es : skipn 1 x ++ [x0] = skipn 1 x ++ firstn 1 x) by reflexivity.
  rewrite Es. destruct (bsub_same (skipn 1 x ++ firstn 1 x) x) as (r & E & Hl & Hn).
  { apply rotate_length. simpl. lia. }
  exists r. split; [exact E|]. split; [rewrite Hl; apply rotate_length; simpl; lia|].
  intros i a b Hi Ha Hb. apply Hn; [|exact Ha]. rewrite nth_error_rotate; [exact Hb|simpl; lia|exact Hi].
Qed.

Lemma velocities_empty : velocities sub [] = Err IndexError.
Proof. reflexivity. Qed.

(** positions[-d:] ++ positions[:-d] *)
Lemma circular_slided (x : list V) (d : Z) : (0 <= d <= Z.of_nat (length x))%Z ->
  slice_from x (- d) ++ slice_to x (- d) =
  skipn (if (d =? 0)%Z then 0 else length x - Z.to_nat d) x ++
  firstn (if (d =? 0)%Z then 0 else length x - Z.to_nat d) x.
Proof.
  intros H. unfold slice_from, slice_to. destruct (Z.eqb_spec d 0) as [->|Hne].
  - change (- 0)%Z with 0%Z. rewrite clamp_pos, Nat.min_0_r by lia. reflexivity.
  - rewrite clamp_neg by lia. reflexivity.
Qed.

Lemma delayed_circular (x : list V) (d : Z) : (0 <= d)%Z ->
  let d' := Nat.min (Z.to_nat d) (length x) in
  exists v, delayed_velocities sub zero d x Circular = Ok v /\ length v = length x /\
  forall i a b, i < length x -> nth_error x i = Some a ->
    nth_error x ((i + (length x - d')) mod length x) = Some b ->
    nth_error v i = Some (sub a b).
Proof.
  intros Hd d'. unfold delayed_velocities.
  set (e := if (Z.of_nat (length x) <? d)%Z then Z.of_nat (length x) else d).
  assert (He : (0 <= e <= Z.of_nat (length x))%Z /\ Z.to_nat e = d').
  { unfold e, d'. destruct (Z.ltb_spec (Z.of_nat (length x)) d); lia. }
  destruct He as [He Hed]. cbn [bind]. rewrite circular_slided by exact He.
  set (k := if (e =? 0)%Z then 0 else length x - Z.to_nat e).
  assert (Hk : k <= length x) by (unfold k; destruct (e =? 0)%Z; lia).
  destruct (bsub_same x (skipn k x ++ firstn k x)) as (r & E & Hl & Hn).
  { symmetry. apply rotate_length; exact Hk. }
  exists r. split; [exact E|]. split; [exact Hl|].
  intros i a b Hi Ha Hb. apply Hn; [exact Ha|]. rewrite nth_error_rotate by assumption.
  rewrite <- Hb. f_equal. unfold k. rewrite <- Hed. destruct (Z.eqb_spec e 0) as [->|Hne].
  - rewrite Nat.add_0_r. change (Z.to_nat 0) with 0. rewrite Nat.sub_0_r.
    replace (i + length x) with (i + 1 * length x) by lia. rewrite Nat.mod_add by lia. reflexivity.
  - reflexivity.
Qed.

Lemma delayed_zeros (x : list V) (d : Z) : (1 <= d)%Z ->
  let d' := Nat.min (Z.to_nat d) (length x) in
  x <> [] ->
  exists v, delayed_velocities sub zero d x Zeros = Ok v /\ length v = length x /\
  forall i a, nth_error x i = Some a ->
    (i < d' -> nth_error v i = Some (sub a zero)) /\
    (forall b, d' <= i -> nth_error x (i - d') = Some b -> nth_error v i = Some (sub a b)).
Proof.
  intros Hd d' Hne. unfold delayed_velocities.
  set (e := if (Z.of_nat (length x) <? d)%Z then Z.of_nat (length x) else d).
  assert (Hx : 0 < length x) by (destruct x; [congruence|simpl; lia]).
  assert (He : (1 <= e <= Z.of_nat (length x))%Z /\ Z.to_nat e = d').
  { unfold e, d'. destruct (Z.ltb_spec (Z.of_nat (length x)) d); lia. }
  destruct He as [He Hed].
  replace (e <? 0)%Z with false by (symmetry; apply Z.ltb_ge; lia). cbn [bind].
  unfold slice_to. rewrite clamp_neg by lia. rewrite Hed.
  assert (Hd' : d' <= length x) by (unfold d'; lia).
  destruct (bsub_same x (repeat zero d' ++ firstn (length x - d') x)) as (r & E & Hl & Hn).
  { rewrite app_length, repeat_length, firstn_length. lia. }
  exists r. split; [exact E|]. split; [exact Hl|].
  intros i a Ha. assert (Hi : i < length x) by (apply nth_error_Some; congruence). split.
  - intros Hlt. apply Hn; [exact Ha|].
    rewrite nth_error_app1 by (rewrite repeat_length; exact Hlt).
    destruct (nth_error (repeat zero d') i) as [z|] eqn:Ez.
    + apply nth_error_In, repeat_spec in Ez. congruence.
    + apply nth_error_None in Ez. rewrite repeat_length in Ez. lia.
  - intros b Hge Hb. apply Hn; [exact Ha|].
    rewrite nth_error_app2 by (rewrite repeat_length; exact Hge).
    rewrite repeat_length, nth_error_firstn by lia. exact Hb.
Qed.

Lemma delayed_zeros_zero (x : list V) : 2 <= length x ->
  delayed_velocities sub zero 0 x Zeros = Err ValueError.
Proof.
  intros H. unfold delayed_velocities.
  destruct (Z.ltb_spec (Z.of_nat (length x)) 0); [lia|].
  change (0 <? 0)%Z with false. cbn [bind]. change (- 0)%Z with 0%Z.
  unfold slice_to. rewrite clamp_pos by lia. simpl Z.to_nat. rewrite Nat.min_0_r. simpl firstn.
  simpl app. unfold bsub. destruct x as [|a [|b x]]; simpl in H; try lia. reflexivity.
Qed.

Lemma delayed_other (x : list V) d :
  delayed_velocities sub zero d x OtherPadding = Err ValueError.
Proof. reflexivity. Qed.

(** filter_cont *)
Lemma filter_cont_spec (avg3 : V -> V -> V -> V) (x : list V) : x <> [] ->
  exists v, filter_cont avg3 x = Ok v /\ length v = length x /\
  forall i a b c, nth_error x i = Some a -> nth_error x (i - 1) = Some b ->
    nth_error x (Nat.min (i + 1) (length x - 1)) = Some c ->
    nth_error v i = Some (avg3 a b c).
Proof.
  intros Hne. assert (Hx : 0 < length x) by (destruct x; [congruence|simpl; lia]).
  unfold filter_cont.
  destruct (nth_error x 0) as [f|] eqn:Ef; [|apply nth_error_None in Ef; lia].
  destruct (nth_error x (length x - 1)) as [la|] eqn:El; [|apply nth_error_None in El; lia].
  assert (E0 : py_nth x 0 = Ok f).
  { unfold py_nth. rewrite norm_index_in by lia. cbn [bind Z.to_nat]. rewrite Ef. reflexivity. }
  assert (E1 : py_nth x (-1) = Ok la).
  { unfold py_nth, norm_index.
    destruct (Z.leb_spec 0 (-1)); [lia|]. cbn [andb].
    destruct (Z.leb_spec (- Z.of_nat (length x)) (-1)); [|lia]. cbn [andb Z.ltb Z.compare].
    cbn [bind]. replace (Z.to_nat (-1 + Z.of_nat (length x))) with (length x - 1) by lia.
    rewrite El. reflexivity. }
  rewrite E0, E1. cbn [bind]. set (l := [f] ++ x ++ [la]).
  assert (Hll : length l = length x + 2) by (unfold l; simpl; rewrite app_length; simpl; lia).
  assert (Hin : forall i, i < length x -> nth_error l (S i) = nth_error x i).
  { intros i Hi. unfold l. simpl. rewrite nth_error_app1 by exact Hi. reflexivity. }
  assert (H2 : slice_to l (-2) = firstn (length x) l).
  { unfold slice_to. change (-2)%Z with (Z.opp 2). rewrite clamp_neg by lia.
    replace (length l - Z.to_nat 2) with (length x) by lia. reflexivity. }
  assert (H3 : slice_from l 2 = skipn 2 l) by (apply (slice_from_nonneg l 2)).
  assert (H1 : slice l 1 (-1) = x).
  { unfold slice. rewrite (clamp_pos _ 1) by lia. change (-1)%Z with (Z.opp 1). rewrite clamp_neg by lia.
    replace (Nat.min (length l) (Z.to_nat 1)) with 1 by lia.
    replace (length l - Z.to_nat 1 - 1) with (length x) by lia. unfold l. simpl.
    rewrite firstn_app, firstn_all, Nat.sub_diag. simpl. apply app_nil_r. }
  rewrite H1, H2, H3. eexists. split; [reflexivity|]. split.
  - rewrite map_length, !combine_length, firstn_length, skipn_length. lia.
  - intros i a b c Ha Hb Hc. assert (Hi : i < length x) by (apply nth_error_Some; congruence).
    rewrite nth_error_map, nth_error_combine, Ha, nth_error_combine.
    rewrite nth_error_firstn by exact Hi. rewrite nth_error_skipn.
    assert (Hb' : nth_error l i = Some b).
    { destruct i as [|i]; [change (0 - 1) with 0 in Hb; rewrite Ef in Hb; exact Hb|].
      rewrite Hin by lia. simpl in Hb. rewrite Nat.sub_0_r in Hb. exact Hb. }
    assert (Hc' : nth_error l (2 + i) = Some c).
    { change (2 + i) with (S (S i)). destruct (Nat.eq_dec (i + 1) (length x)) as [Heq|Hn].
      - replace (Nat.min (i + 1) (length x - 1)) with (length x - 1) in Hc by lia.
        rewrite El in Hc. injection Hc as <-. unfold l.
        change (nth_error ([f] ++ x ++ [la]) (S (S i))) with (nth_error (x ++ [la]) (S i)).
        rewrite nth_error_app2 by lia. replace (S i - length x) with 0 by lia. reflexivity.
      - rewrite Hin by lia. replace (Nat.min (i + 1) (length x - 1)) with (S i) in Hc by lia.
        exact Hc. }
    rewrite Hb', Hc'. reflexivity.
Qed.
End Rows.

(** The average of three rationals lies between their bounds. *)
Lemma avg3_bounds (lo hi a b c : Q) :
  (lo <= a <= hi -> lo <= b <= hi -> lo <= c <= hi -> lo <= (a + b + c) / 3 <= hi)%Q.
Proof.
  intros [H1 H2] [H3 H4] [H5 H6]. split.
  - apply Qle_shift_div_l; [reflexivity|].
    setoid_replace (lo * 3)%Q with (lo + lo + lo)%Q by ring.
    apply Qplus_le_compat; [apply Qplus_le_compat|]; assumption.
  - apply Qle_shift_div_r; [reflexivity|].
    setoid_replace (hi * 3)%Q with (hi + hi + hi)%Q by ring.
    apply Qplus_le_compat; [apply Qplus_le_compat|]; assumption.
Qed.

(** On one column: bounds are preserved, constants are fixed. *)
Definition avg3Q (a b c : Q) : Q := ((a + b + c) / 3)%Q.
Lemma filter_cont_bounds (x v : list Q) lo hi :
  filter_cont avg3Q x = Ok v ->
  (forall a, In a x -> (lo <= a <= hi)%Q) -> (forall a, In a v -> (lo <= a <= hi)%Q).
Proof.
  intros E Hx a Ha. destruct x as [|x0 l]; [discriminate|]. set (x := x0 :: l) in *.
  destruct (filter_cont_spec avg3Q x) as (v' & E' & Hl & Hn); [discriminate|].
  rewrite E in E'. injection E' as <-.
  apply In_nth_error in Ha as [i Hi].
  assert (Hlt : i < length x) by (rewrite <- Hl; apply nth_error_Some; congruence).
  destruct (nth_error x i) as [p|] eqn:Ep; [|apply nth_error_None in Ep; lia].
  destruct (nth_error x (i - 1)) as [q|] eqn:Eq; [|apply nth_error_None in Eq; lia].
  destruct (nth_error x (Nat.min (i + 1) (length x - 1))) as [r|] eqn:Er;
    [|apply nth_error_None in Er; lia].
  rewrite (Hn i p q r Ep Eq Er) in Hi. injection Hi as <-.
  apply avg3_bounds; apply Hx; eapply nth_error_In; eassumption.
Qed.

(** ** Bounds *)
Lemma filter_bound_spec x inf sup : (inf <= sup)%Z ->
  (inf <= filter_bound x inf sup <= sup)%Z /\
  ((inf <= x <= sup)%Z -> filter_bound x inf sup = x) /\
  filter_bound (filter_bound x inf sup) inf sup = filter_bound x inf sup /\
  (forall y, (inf <= y <= sup)%Z -> (Z.abs (filter_bound x inf sup - x) <= Z.abs (y - x))%Z).
Proof. unfold filter_bound. intros H. repeat split; intros; lia. Qed.

Lemma manualy_normalize_spec low up x : ~ (up == low)%Q ->
  (manualy_normalize low up low == 0)%Q /\ (manualy_normalize low up up == 1)%Q /\
  (manualy_normalize low up x * (up - low) + low == x)%Q /\
  ((low <= x <= up)%Q -> (0 <= manualy_normalize low up x <= 1)%Q).
Proof.
  intros Hne.
  assert (Hw : ~ (up - low == 0)%Q).
  { intros H. apply Hne. rewrite <- (Qplus_0_l low), <- H. ring. }
  assert (Hb : Qeq_bool (up - low) 0 = false).
  { destruct (Qeq_bool (up - low) 0) eqn:E; [|reflexivity].
    exfalso. apply Hw, Qeq_bool_iff, E. }
  assert (Hn : forall y, (manualy_normalize low up y == (y - low) / (up - low))%Q).
  { intros y. unfold manualy_normalize. rewrite Hb.
    setoid_replace (up - low + 1 * 0)%Q with (up - low)%Q by ring. reflexivity. }
  rewrite !Hn. split; [field; exact Hw|]. split; [field; exact Hw|]. split; [field; exact Hw|].
  intros [H1 H2].
  assert (Hp : (0 < up - low)%Q).
  { destruct (Qle_lt_or_eq low up (Qle_trans _ _ _ H1 H2)) as [H|H].
    - apply (proj1 (Qlt_minus_iff low up)). exact H.
    - exfalso. apply Hne. symmetry. exact H. }
  split.
  - apply Qle_shift_div_l; [exact Hp|]. rewrite Qmult_0_l. apply (proj1 (Qle_minus_iff low x)). exact H1.
  - apply Qle_shift_div_r; [exact Hp|]. rewrite Qmult_1_l. apply Qplus_le_compat; [exact H2|apply Qle_refl].
Qed.

Lemma manualy_normalize_flat low up x : (up == low)%Q ->
  (manualy_normalize low up x == x - low)%Q.
Proof.
  intros H. unfold manualy_normalize.
  assert (Hw : (up - low == 0)%Q) by (rewrite H; ring).
  rewrite (proj2 (Qeq_bool_iff _ _) Hw).
  setoid_replace (up - low + 1 * 1)%Q with 1%Q by (rewrite Hw; ring). field.
Qed.

(** ** Nested lists *)

Section Nested.
Context {A : Type}.

Lemma mapM_flatten_err (l : list (nested A)) k e :
  mapM (fun y => flatten y k) l = Err e -> exists y, In y l /\ flatten y k = Err e.
Proof.
  induction l as [|y l IH]; [discriminate|]. simpl.
  destruct (flatten y k) as [ys|e'] eqn:E; cbn [bind].
  - destruct (mapM (fun y => flatten y k) l) as [r|e''] eqn:E2; cbn [bind]; [discriminate|].
    intros H. destruct (IH H) as (z & Hz & Ez). exists z. split; [right|]; assumption.
  - intros H. injection H as ->. exists y. split; [left; reflexivity|exact E].
Qed.

Lemma StronglySorted_map_cons i (paths : list (list nat)) :
  StronglySorted lex paths -> StronglySorted lex (map (cons i) paths).
Proof.
  induction 1 as [|p paths _ IH Hp]; simpl; constructor; [exact IH|].
  apply Forall_map. eapply Forall_impl; [|exact Hp]. intros q Hq. constructor 2. exact Hq.
Qed.

Lemma StronglySorted_app {X} (R : X -> X -> Prop) l1 l2 :
  StronglySorted R l1 -> StronglySorted R l2 ->
  (forall x y, In x l1 -> In y l2 -> R x y) -> StronglySorted R (l1 ++ l2).
Proof.
  intros H1 H2 H. induction H1 as [|x l1 _ IH Hx]; simpl; [exact H2|].
  constructor.
  - apply IH. intros; apply H; [right|]; assumption.
  - apply Forall_app. split; [exact Hx|]. apply Forall_forall. intros y Hy.
    apply H; [left; reflexivity|exact Hy].
Qed.

Lemma flatten_paths k : forall (x : nested A) l, flatten x k = Ok l -> lists_level x k l.
Proof.
  induction k as [|k IH]; intros x l E.
  - injection E as <-. exists [[]]. split; [repeat constructor|]. split; [|reflexivity].
    intros p. simpl. split.
    + intros [<-|[]]. split; [reflexivity|discriminate].
    + intros [H _]. destruct p; [left; reflexivity|discriminate].
  - destruct x as [a|xs]; [discriminate|]. cbn [flatten children bind] in E.
    destruct (mapM (fun y => flatten y k) xs) as [ls|e] eqn:Em; [|discriminate].
    cbn [bind] in E. injection E as <-.
    assert (HP : forall i0, exists paths, StronglySorted lex paths /\
      (forall p, In p paths <-> exists i q y, p = (i0 + i) :: q /\ nth_error xs i = Some y /\
          length q = k /\ at_path y q <> None) /\
      map (fun p => match p with [] => None | j :: q =>
             match nth_error xs (j - i0) with Some y => at_path y q | None => None end end) paths
        = map Some (concat ls)).
    { clear -Em IH. revert ls Em. induction xs as [|y xs IHx]; intros ls Em i0.
      - injection Em as <-. exists []. split; [constructor|]. split; [|reflexivity].
        intros p. split; [intros []|]. intros (i & q & y & _ & H & _). destruct i; discriminate.
      - simpl in Em. destruct (flatten y k) as [l1|e] eqn:E1; [|discriminate]. cbn [bind] in Em.
        destruct (mapM (fun y => flatten y k) xs) as [ls'|e] eqn:E2; [|discriminate].
        cbn [bind] in Em. injection Em as <-.
        destruct (IH y l1 E1) as (P1 & S1 & I1 & M1).
        destruct (IHx ls' eq_refl (S i0)) as (P2 & S2 & I2 & M2).
        exists (map (cons i0) P1 ++ P2). split; [|split].
        + apply StronglySorted_app; [apply StronglySorted_map_cons; exact S1|exact S2|].
          intros p q Hp Hq. apply in_map_iff in Hp as (p' & <- & _).
          apply I2 in Hq as (i & q' & y' & -> & _). constructor 1. lia.
        + intros p. rewrite in_app_iff, in_map_iff. split.
          * intros [(q & <- & Hq)|Hp].
            -- apply I1 in Hq as [Hq1 Hq2]. exists 0, q, y. rewrite Nat.add_0_r. auto.
            -- apply I2 in Hp as (i & q & y' & -> & Hy' & H'). exists (S i), q, y'.
               split; [f_equal; lia|]. auto.
          * intros (i & q & y' & -> & Hy' & Hq1 & Hq2). destruct i as [|i].
            -- left. exists q. rewrite Nat.add_0_r. split; [reflexivity|]. simpl in Hy'.
               injection Hy' as <-. apply I1. auto.
            -- right. apply I2. exists i, q, y'. split; [f_equal; lia|]. auto.
        + simpl. rewrite !map_app. f_equal.
          * rewrite map_map. rewrite <- M1. apply map_ext. intros q.
            rewrite Nat.sub_diag. reflexivity.
          * rewrite <- M2. apply map_ext_in. intros p Hp.
            apply I2 in Hp as (i & q & y' & -> & _).
            replace (S i0 + i - i0) with (S i) by lia.
            replace (S i0 + i - S i0) with i by lia. reflexivity. }
    destruct (HP 0) as (paths & HS & HI & HM). exists paths. split; [exact HS|]. split.
    + intros p. rewrite HI. split.
      * intros (i & q & y & -> & Hy & Hq & Hn). split; [simpl; congruence|].
        simpl. rewrite Hy. exact Hn.
      * intros [Hp Hn]. destruct p as [|i q]; [discriminate|]. simpl in Hn, Hp.
        destruct (nth_error xs i) as [y|] eqn:Ey; [|congruence].
        exists i, q, y. auto.
    + rewrite <- HM. apply map_ext_in. intros p Hp. apply HI in Hp as (i & q & y & -> & Hy & _).
      simpl. rewrite Nat.sub_0_r. reflexivity.
Qed.

(** flatten fails, with TypeError, exactly when it meets a leaf above level k. *)
Lemma flatten_error k : forall (x : nested A),
  (exists l, flatten x k = Ok l) \/
  (flatten x k = Err TypeError /\
   exists p a, length p < k /\ at_path x p = Some (Leaf a)).
Proof.
  induction k as [|k IH]; intros x; [left; simpl; eauto|].
  destruct x as [a|xs].
  - right. split; [reflexivity|]. exists [], a. split; [simpl; lia|reflexivity].
  - cbn [flatten children bind].
    assert (H : (exists l, mapM (fun y => flatten y k) xs = Ok l) \/
       (mapM (fun y => flatten y k) xs = Err TypeError /\
        exists i y p a, nth_error xs i = Some y /\ length p < k /\ at_path y p = Some (Leaf a))).
    { induction xs as [|y xs IHx]; [left; simpl; eauto|]. simpl.
      destruct (IH y) as [[l E]|[E (p & a & H)]]; rewrite E; cbn [bind].
      - destruct IHx as [[l' E']|[E' (i & y' & p & a & H)]]; rewrite E'; cbn [bind].
        + left. eauto.
        + right. split; [reflexivity|]. exists (S i), y', p, a. exact H.
      - right. split; [reflexivity|]. exists 0, y, p, a. simpl. tauto. }
    destruct H as [[l E]|[E (i & y & p & a & Hy & Hp & Ha)]]; rewrite E; cbn [bind].
    + left. eauto.
    + right. split; [reflexivity|]. exists (i :: p), a. simpl. rewrite Hy. split; [lia|exact Ha].
Qed.

(** distribute then flatten enumerates all combinations. *)
Lemma distribute_level k : forall (x y : nested A) values,
  values <> [] -> distribute x values k = Ok y ->
  exists ls, flatten x k = Ok (map Node ls) /\
    flatten y k = Ok (map (fun l => Node (map (fun v => Node (l ++ [v])) values)) ls) /\
    flatten y (S k) = Ok (flat_map (fun l => map (fun v => Node (l ++ [v])) values) ls).
Proof.
  induction k as [|k IH]; intros x y values Hv E.
  - destruct x as [a|l].
    + destruct values; [congruence|discriminate].
    + cbn [distribute children bind] in E. rewrite mapM_pure with (g := fun v => Node (l ++ [v])) in E
        by reflexivity. cbn [bind] in E. injection E as <-. exists [l]. simpl.
      split; [reflexivity|]. split; [reflexivity|].
      rewrite mapM_pure with (g := fun z => [z]) by reflexivity. cbn [bind]. f_equal.
      rewrite app_nil_r. generalize (map (fun v => Node (l ++ [v])) values) as zs. clear.
      induction zs as [|z zs IH]; simpl; [reflexivity|]. f_equal. exact IH.
  - destruct x as [a|xs]; [discriminate|]. cbn [distribute children bind] in E.
    destruct (mapM (fun y => distribute y values k) xs) as [yl|e] eqn:Em; [|discriminate].
    cbn [bind] in E. injection E as <-.
    assert (H : exists lss,
       mapM (fun z => flatten z k) xs = Ok (map (map Node) lss) /\
       mapM (fun z => flatten z k) yl =
         Ok (map (map (fun l => Node (map (fun v => Node (l ++ [v])) values))) lss) /\
       mapM (fun z => flatten z (S k)) yl =
         Ok (map (flat_map (fun l => map (fun v => Node (l ++ [v])) values)) lss)).
    { apply mapM_ok in Em. induction Em as [|x y xs yl Exy _ IHm].
      - exists []. split; [|split]; reflexivity.
      - destruct IHm as (lss & E1 & E2 & E3). destruct (IH x y values Hv Exy) as (ls & F1 & F2 & F3).
        exists (ls :: lss). cbn [mapM map]. rewrite F1, F2, F3. cbn [bind].
        rewrite E1, E2, E3. split; [|split]; reflexivity. }
    destruct H as (lss & E1 & E2 & E3). exists (concat lss).
    change (flatten (Node xs) (S k)) with
      (l <- mapM (fun y => flatten y k) xs ;; Ok (concat l))%py.
    change (flatten (Node yl) (S (S k))) with
      (l <- mapM (fun y => flatten y (S k)) yl ;; Ok (concat l))%py.
    change (flatten (Node yl) (S k)) with
      (l <- mapM (fun y => flatten y k) yl ;; Ok (concat l))%py.
    rewrite E1, E2, E3. cbn [bind]. rewrite !concat_map.
    split; [reflexivity|]. split; [reflexivity|]. f_equal.
    clear. induction lss as [|ls lss IH]; simpl; [reflexivity|]. rewrite flat_map_app, IH. reflexivity.
Qed.

Lemma meta_map_flatten k f : forall (x y : nested A),
  meta_map k f x = Ok y ->
  exists xs, flatten x k = Ok xs /\ flatten y k = Ok (map f xs).
Proof.
  induction k as [|k IH]; intros x y E.
  - injection E as <-. exists [x]. split; reflexivity.
  - destruct x as [a|xs]; [discriminate|]. cbn [meta_map children bind] in E.
    destruct (mapM (meta_map k f) xs) as [yl|e] eqn:Em; [|discriminate]. cbn [bind] in E.
    injection E as <-. apply mapM_ok in Em. cbn [flatten children bind].
    assert (H : exists ls, mapM (fun z => flatten z k) xs = Ok ls /\
                           mapM (fun z => flatten z k) yl = Ok (map (map f) ls)).
    { induction Em as [|x y xs yl Exy _ IHm]; [exists []; split; reflexivity|].
      destruct IHm as (ls & E1 & E2). destruct (IH x y Exy) as (l & F1 & F2).
      exists (l :: ls). cbn [mapM map]. rewrite F1, F2. cbn [bind]. rewrite E1, E2. split; reflexivity. }
    destruct H as (ls & E1 & E2). rewrite E1, E2. cbn [bind].
    exists (concat ls). rewrite concat_map. split; reflexivity.
Qed.
End Nested.

(** ** Splits *)

Lemma py_range_mult nb reps : 0 < nb ->
  py_range 0 (Z.of_nat nb * Z.of_nat reps) (Z.of_nat nb) =
  Ok (map (fun k => Z.of_nat (k * nb)) (seq 0 reps)).
Proof.
  intros H. unfold py_range.
  destruct (Z.eqb_spec (Z.of_nat nb) 0); [lia|]. destruct (Z.ltb_spec 0 (Z.of_nat nb)); [|lia].
  f_equal.
  assert (E : ((Z.of_nat nb * Z.of_nat reps - 0 + Z.of_nat nb - 1) / Z.of_nat nb = Z.of_nat reps)%Z).
  { symmetry. apply (Z.div_unique _ _ _ (Z.of_nat nb - 1)); lia. }
  rewrite E, Nat2Z.id. apply map_ext. intros k. lia.
Qed.

Lemma random_split_from_spec nb reps n indices :
  0 < nb -> nb * reps <= n -> Permutation indices (seq 0 n) ->
  exists splits, random_split_from (Z.of_nat nb) (Z.of_nat reps) indices = Ok splits /\
    length splits = reps /\
    (forall s, In s splits -> is_split n s /\ length (snd s) = nb) /\
    (forall i j si sj, i <> j -> nth_error splits i = Some si -> nth_error splits j = Some sj ->
       disjoint (snd si) (snd sj)).
Proof.
  intros Hnb Hle HP. unfold random_split_from. rewrite py_range_mult by exact Hnb. cbn [bind].
  assert (Hlen : length indices = n) by (rewrite (Permutation_length HP), seq_length; reflexivity).
  assert (Hnd : NoDup indices) by (eapply Permutation_NoDup; [symmetry; exact HP|apply seq_NoDup]).
  eexists. split; [reflexivity|].
  rewrite map_map.
  set (mk := fun k => (slice_to indices (Z.of_nat (k * nb)) ++
                       slice_from indices (Z.of_nat (k * nb) + Z.of_nat nb),
                       slice indices (Z.of_nat (k * nb)) (Z.of_nat (k * nb) + Z.of_nat nb))).
  assert (Hmk : forall k, mk k = (firstn (k * nb) indices ++ skipn (k * nb + nb) indices,
                                  firstn nb (skipn (k * nb) indices))).
  { intros k. unfold mk. rewrite <- Nat2Z.inj_add, slice_to_nonneg, slice_from_nonneg, slice_nonneg.
    do 2 f_equal. lia. }
  split; [rewrite map_length, seq_length; reflexivity|]. split.
  - intros s Hs. apply in_map_iff in Hs as (k & <- & Hk). apply in_seq in Hk.
    change (is_split n (mk k) /\ length (snd (mk k)) = nb). rewrite Hmk. simpl.
    assert (Hkn : k * nb + nb <= n) by nia. split.
    + unfold is_split. simpl. rewrite <- HP.
      rewrite <- (firstn_skipn (k * nb) indices) at 4.
      rewrite <- app_assoc. apply Permutation_app_head.
      rewrite <- (firstn_skipn nb (skipn (k * nb) indices)) at 2.
      rewrite skipn_skipn. rewrite (Nat.add_comm nb). apply Permutation_app_comm.
    + rewrite firstn_length, skipn_length. lia.
  - intros i j si sj Hij Hi Hj. rewrite nth_error_map in Hi, Hj.
    destruct (nth_error (seq 0 reps) i) as [i'|] eqn:Ei; [|discriminate].
    destruct (nth_error (seq 0 reps) j) as [j'|] eqn:Ej; [|discriminate].
    assert (i < reps) by (rewrite <- (seq_length reps 0); apply nth_error_Some; congruence).
    assert (j < reps) by (rewrite <- (seq_length reps 0); apply nth_error_Some; congruence).
    rewrite (nth_error_nth' _ 0), seq_nth in Ei by (rewrite ?seq_length; assumption).
    rewrite (nth_error_nth' _ 0), seq_nth in Ej by (rewrite ?seq_length; assumption).
    injection Ei as <-. injection Ej as <-. simpl in Hi, Hj.
    change (Some (mk i) = Some si) in Hi. change (Some (mk j) = Some sj) in Hj.
    injection Hi as <-. injection Hj as <-. rewrite !Hmk. simpl.
    intros x Hx Hx'. apply In_nth_error in Hx as [a Ha]. apply In_nth_error in Hx' as [b Hb].
    assert (Hal : a < nb).
    { assert (a < length (firstn nb (skipn (i * nb) indices))) by (apply nth_error_Some; congruence).
      rewrite firstn_length in *. lia. }
    assert (Hbl : b < nb).
    { assert (b < length (firstn nb (skipn (j * nb) indices))) by (apply nth_error_Some; congruence).
      rewrite firstn_length in *. lia. }
    rewrite nth_error_firstn, nth_error_skipn in Ha by exact Hal.
    rewrite nth_error_firstn, nth_error_skipn in Hb by exact Hbl.
    assert (i * nb + a = j * nb + b).
    { eapply NoDup_nth_error; [exact Hnd|apply nth_error_Some; congruence|congruence]. }
    apply Hij. nia.
Qed.

Lemma random_split_from_zero reps indices :
  random_split_from 0 reps indices = Err ValueError.
Proof. reflexivity. Qed.

(** Floating point: the slices fit. *)
Section Float.
Local Open Scope R_scope.

Lemma round64_rel x : bpow radix2 (-1022) <= x ->
  Rabs (round64 x - x) <= / 2 * bpow radix2 (-52) * x.
Proof.
  intros Hx. unfold round64.
  assert (Hp : 0 < x) by (eapply Rlt_le_trans; [apply (bpow_gt_0 radix2)|exact Hx]).
  rewrite <- (Rabs_pos_eq x) at 3 by lra.
  apply (relative_error_N_FLT radix2 (-1074) 53 ltac:(lia) (fun x => negb (Z.even x))).
  rewrite Rabs_pos_eq by lra. exact Hx.
Qed.

Lemma round64_upper x : 0 <= x -> 1 <= round64 x -> round64 x <= x * (1 + bpow radix2 (-53)).
Proof.
  intros Hx H1.
  destruct (Rle_lt_dec (bpow radix2 (-1022)) x) as [H|H].
  - pose proof (round64_rel x H) as Hr. apply Rabs_le_inv in Hr.
    replace (bpow radix2 (-52)) with (2 * bpow radix2 (-53)) in Hr.
    + lra.
    + change 2 with (bpow radix2 1). rewrite <- bpow_plus. reflexivity.
  - exfalso.
    assert (Hle : round64 x <= round64 (bpow radix2 (-1022))).
    { unfold round64. apply round_le; [apply FLT_exp_valid; reflexivity|apply valid_rnd_N|lra]. }
    assert (Hf : round64 (bpow radix2 (-1022)) = bpow radix2 (-1022)).
    { unfold round64. apply round_generic; [apply valid_rnd_N|].
      apply generic_format_bpow. unfold FLT_exp. simpl. lia. }
    assert (bpow radix2 (-1022) < 1).
    { change 1 with (bpow radix2 0). apply bpow_lt. lia. }
    lra.
Qed.

Lemma Ztrunc_pos_bound z x : (1 <= Ztrunc x)%Z -> z = Ztrunc x -> 1 <= x /\ IZR z <= x.
Proof.
  intros H ->.
  assert (Hx : 0 <= x).
  { destruct (Rle_lt_dec 0 x) as [H0|H0]; [exact H0|exfalso].
    rewrite (Ztrunc_ceil x) in H by lra.
    assert (Zceil x <= 0)%Z by (apply Zceil_glb; simpl; lra). lia. }
  rewrite Ztrunc_floor in * by exact Hx.
  pose proof (Zfloor_lb x). split; [|assumption]. apply IZR_le in H. lra.
Qed.

Lemma float_slices_fit n ratio : (Z.of_nat n <= 2 ^ 51)%Z -> 0 < ratio <= 1 ->
  (1 <= nb_test_of round64 n ratio)%Z ->
  (0 <= reps_of round64 ratio)%Z /\
  (nb_test_of round64 n ratio * reps_of round64 ratio <= Z.of_nat n)%Z.
Proof.
  intros Hn [Hr0 Hr1] Hnb.
  set (u := bpow radix2 (-53)).
  assert (Hu : u = / 9007199254740992).
  { reflexivity. }
  assert (Hn0 : (0 < n)%nat).
  { destruct n; [exfalso|lia]. unfold nb_test_of in Hnb. simpl in Hnb.
    assert (E : round64 0 = 0) by (unfold round64; apply round_0, valid_rnd_N).
    rewrite E, Rmult_0_r, E, Ztrunc_IZR in Hnb. lia. }
  assert (HnR : 1 <= IZR (Z.of_nat n)) by (apply IZR_le; lia).
  set (N := IZR (Z.of_nat n)) in *.
  assert (Hone : round64 1 = 1).
  { unfold round64. apply round_generic; [apply valid_rnd_N|].
    change 1 with (bpow radix2 0). apply generic_format_bpow. unfold FLT_exp. simpl. lia. }
  assert (Hmono : forall x y, x <= y -> round64 x <= round64 y).
  { intros x y Hxy. unfold round64.
    apply round_le; [apply FLT_exp_valid; reflexivity|apply valid_rnd_N|exact Hxy]. }
  assert (HrN : round64 N <= N * (1 + u)).
  { apply round64_upper; [lra|]. rewrite <- Hone. apply Hmono. exact HnR. }
  assert (HrN1 : 1 <= round64 N) by (rewrite <- Hone; apply Hmono; exact HnR).
  assert (Hinv : 1 <= 1 / ratio).
  { unfold Rdiv. rewrite Rmult_1_l. rewrite <- Rinv_1. apply Rinv_le_contravar; lra. }
  assert (Hk1 : 1 <= round64 (1 / ratio)) by (rewrite <- Hone at 1; apply Hmono; exact Hinv).
  assert (Hku : round64 (1 / ratio) <= 1 / ratio * (1 + u)) by (apply round64_upper; lra).
  set (k := reps_of round64 ratio). set (nb := nb_test_of round64 n ratio) in *.
  assert (Hk : (1 <= k)%Z).
  { unfold k, reps_of. rewrite Ztrunc_floor by lra. apply Zfloor_lub. exact Hk1. }
  split; [lia|].
  destruct (Ztrunc_pos_bound k (round64 (1 / ratio)) Hk eq_refl) as [_ HkR].
  destruct (Ztrunc_pos_bound nb (round64 (ratio * round64 N)) Hnb eq_refl) as [Ha HnbR].
  assert (Ha' : round64 (ratio * round64 N) <= ratio * round64 N * (1 + u)).
  { apply round64_upper; [|exact Ha]. apply Rmult_le_pos; lra. }
  assert (Hup : IZR nb <= ratio * N * (1 + u) * (1 + u)).
  { eapply Rle_trans; [exact HnbR|]. eapply Rle_trans; [exact Ha'|].
    apply Rmult_le_compat_r; [lra|].
    rewrite (Rmult_assoc ratio). apply Rmult_le_compat_l; lra. }
  assert (Hprod : IZR nb * IZR k <= N * ((1 + u) * (1 + u) * (1 + u))).
  { eapply Rle_trans.
    - apply Rmult_le_compat; [| |exact Hup|eapply Rle_trans; [exact HkR|exact Hku]].
      + apply IZR_le; lia.
      + apply IZR_le; lia.
    - apply Req_le. field. lra. }
  assert (HNb : N <= 2251799813685248).
  { unfold N. apply IZR_le. exact Hn. }
  assert (Hlt : IZR (nb * k) < IZR (Z.of_nat n + 1)).
  { rewrite mult_IZR, plus_IZR. fold N. eapply Rle_lt_trans; [exact Hprod|]. rewrite Hu.
    assert (N * ((1 + / 9007199254740992) * (1 + / 9007199254740992) * (1 + / 9007199254740992))
            = N + N * ((1 + / 9007199254740992) * (1 + / 9007199254740992) * (1 + / 9007199254740992) - 1))
      by ring.
    rewrite H. apply Rplus_lt_compat_l.
    eapply Rle_lt_trans; [apply Rmult_le_compat_r; [lra|exact HNb]|]. lra. }
  apply lt_IZR in Hlt. lia.
Qed.
End Float.

Lemma random_split_spec shuffle n ratio :
  (Z.of_nat n <= 2 ^ 51)%Z -> (0 < ratio <= 1)%R ->
  (forall l, Permutation (shuffle l) l) ->
  ((1 <= nb_test_of round64 n ratio)%Z ->
   exists splits, random_split round64 shuffle n ratio = Ok splits /\
    Z.of_nat (length splits) = reps_of round64 ratio /\
    (forall s, In s splits -> is_split n s /\
       Z.of_nat (length (snd s)) = nb_test_of round64 n ratio) /\
    (forall i j si sj, i <> j -> nth_error splits i = Some si -> nth_error splits j = Some sj ->
       disjoint (snd si) (snd sj))) /\
  (nb_test_of round64 n ratio = 0%Z ->
   random_split round64 shuffle n ratio = Err ValueError).
Proof.
  intros Hn Hr Hsh. split.
  - intros Hnb. destruct (float_slices_fit n ratio Hn Hr Hnb) as [Hk Hfit].
    unfold random_split.
    set (nb := nb_test_of round64 n ratio) in *. set (k := reps_of round64 ratio) in *.
    assert (Enb : nb = Z.of_nat (Z.to_nat nb)) by lia.
    assert (Ek : k = Z.of_nat (Z.to_nat k)) by lia.
    rewrite Enb, Ek.
    destruct (random_split_from_spec (Z.to_nat nb) (Z.to_nat k) n (shuffle (seq 0 n)))
      as (splits & E & Hl & Hs & Hd); [lia|nia|apply Hsh|].
    exists splits. split; [exact E|]. split; [lia|]. split; [|exact Hd].
    intros s Hs'. destruct (Hs s Hs') as [H1 H2]. split; [exact H1|]. lia.
  - intros E. unfold random_split. rewrite E. reflexivity.
Qed.

Lemma leave_one_out_spec n :
  length (leave_one_out n) = n /\
  forall i, i < n -> exists train, nth_error (leave_one_out n) i = Some (train, [i]) /\
    StronglySorted lt train /\ forall j, In j train <-> j < n /\ j <> i.
Proof.
  unfold leave_one_out. split; [rewrite map_length, seq_length; reflexivity|].
  intros i Hi. eexists. split.
  - rewrite nth_error_map, (nth_error_nth' _ 0), seq_nth by (rewrite ?seq_length; exact Hi).
    simpl. reflexivity.
  - split.
    + generalize 0 as a. clear. induction n as [|n IH]; intros a; simpl; [constructor|].
      destruct (a =? i); simpl; [apply IH|]. constructor; [apply IH|].
      apply Forall_forall. intros x Hx. apply filter_In in Hx as [Hx _]. apply in_seq in Hx. lia.
    + intros j. rewrite filter_In, in_seq, negb_true_iff, Nat.eqb_neq. split; intros; lia || tauto.
Qed.
