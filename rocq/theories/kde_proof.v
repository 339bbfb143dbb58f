(** * Lemmas on linear binning. *)

From Coq Require Import List ZArith Arith Reals Bool Lia Lra.
Import ListNotations.
From Verif Require Import Py Py_proof hac_model quant_model quant_spec quant_proof kde_model kde_spec.
Open Scope py_scope.
Local Open Scope R_scope.

(** ** Minimum and maximum *)
Lemma fold_min l : forall a, smallest (fold_left Rmin l a) (a :: l).
Proof.
  induction l as [|x l IH]; intros a; cbn [fold_left].
  - split; [left; reflexivity|]. constructor; [lra|constructor].
  - destruct (IH (Rmin a x)) as (I & F). inversion F as [|? ? H F']; subst. split.
    + destruct I as [I|I]; [|right; right; exact I]. rewrite <- I at 1. unfold Rmin at 1. destruct (Rle_dec a x); cbn; tauto.
    + pose proof (Rmin_l a x). pose proof (Rmin_r a x). constructor; [lra|]. constructor; [lra|exact F'].
Qed.
Lemma fold_max l : forall a, largest (fold_left Rmax l a) (a :: l).
Proof.
  induction l as [|x l IH]; intros a; cbn [fold_left].
  - split; [left; reflexivity|]. constructor; [lra|constructor].
  - destruct (IH (Rmax a x)) as (I & F). inversion F as [|? ? H F']; subst. split.
    + destruct I as [I|I]; [|right; right; exact I]. rewrite <- I at 1. unfold Rmax at 1. destruct (Rle_dec a x); cbn; tauto.
    + pose proof (Rmax_l a x). pose proof (Rmax_r a x). constructor; [lra|]. constructor; [lra|exact F'].
Qed.
Lemma np_min_ok x : x <> [] -> exists lo, np_min x = Ok lo /\ smallest lo x.
Proof. destruct x as [|a l]; [congruence|]. intros _. eexists. split; [reflexivity|apply fold_min]. Qed.
Lemma np_max_ok x : x <> [] -> exists hi, np_max x = Ok hi /\ largest hi x.
Proof. destruct x as [|a l]; [congruence|]. intros _. eexists. split; [reflexivity|apply fold_max]. Qed.
Lemma smallest_unique a b x : smallest a x -> smallest b x -> a = b.
Proof. intros (I & F) (I' & F'). rewrite Forall_forall in *. specialize (F b I'). specialize (F' a I). lra. Qed.
Lemma largest_unique a b x : largest a x -> largest b x -> a = b.
Proof. intros (I & F) (I' & F'). rewrite Forall_forall in *. specialize (F b I'). specialize (F' a I). lra. Qed.

Lemma bounds_ok x bounds lo hi : in_bounds x bounds lo hi -> bounds_1d x bounds = Ok (lo, hi).
Proof.
  intros (N & W & LT & B). destruct (np_min_ok x N) as (mn & EM & SM). destruct (np_max_ok x N) as (mx & EX & LX).
  unfold bounds_1d. rewrite EM, EX. cbn [bind]. destruct bounds as [b|].
  - subst b. destruct SM as (I1 & _). destruct LX as (I2 & _). unfold within in W. rewrite Forall_forall in W.
    pose proof (W mn I1). pose proof (W mx I2). destruct (Rlt_dec mn lo); [lra|]. destruct (Rlt_dec hi mx); [lra|]. reflexivity.
  - destruct B as (B1 & B2). rewrite (smallest_unique _ _ _ SM B1), (largest_unique _ _ _ LX B2). reflexivity.
Qed.

(** ** The cell of a sample *)
Definition cell (lo delta : R) (nb : nat) (x : R) (b : nat) (t : R) : Prop :=
  (b < nb)%nat /\ 0 <= t < 1 /\ x = lo + (INR b + t) * delta /\ (S b = nb -> t = 0) /\
  Int_part ((x - lo) / delta) = Z.of_nat b.

Lemma spacing_pos lo hi nb : lo < hi -> (2 <= nb)%nat -> 0 < spacing lo hi nb.
Proof.
  intros L N. unfold spacing. apply Rmult_lt_0_compat; [lra|]. apply Rinv_0_lt_compat.
  apply le_INR in N. cbn in N. lra.
Qed.

Lemma cell_exists lo hi nb x : lo < hi -> (2 <= nb)%nat -> lo <= x <= hi -> exists b t, cell lo (spacing lo hi nb) nb x b t.
Proof.
  intros L N X. pose proof (spacing_pos lo hi nb L N) as D. set (delta := spacing lo hi nb) in *.
  assert (N1 : 1 <= INR nb - 1) by (apply le_INR in N; cbn in N; lra).
  assert (DH : delta * (INR nb - 1) = hi - lo) by (unfold delta, spacing; field; lra).
  set (q := (x - lo) / delta). assert (XQ : x = lo + q * delta) by (unfold q; field; lra).
  assert (Q0 : 0 <= q) by (unfold q; apply Rmult_le_pos; [lra|apply Rlt_le, Rinv_0_lt_compat, D]).
  assert (Q1 : q <= INR nb - 1) by (apply Rmult_le_reg_r with delta; [exact D|]; lra).
  destruct (base_Int_part q) as (B1 & B2). set (z := Int_part q) in *.
  assert (Z0 : (0 <= z)%Z) by (apply Z.lt_succ_r; apply lt_IZR; rewrite succ_IZR; lra).
  assert (ZN : (z < Z.of_nat nb)%Z).
  { apply lt_IZR. rewrite <- INR_IZR_INZ. lra. }
  exists (Z.to_nat z), (q - IZR z).
  assert (E : INR (Z.to_nat z) = IZR z) by (rewrite INR_IZR_INZ, Z2Nat.id by exact Z0; reflexivity).
  repeat split.
  - lia.
  - lra.
  - lra.
  - rewrite E, XQ. ring.
  - intros SB. rewrite <- E. rewrite <- SB, S_INR in Q1. lra.
  - rewrite Z2Nat.id by exact Z0. reflexivity.
Qed.

Lemma share_cell lo delta nb x b t j : 0 < delta -> cell lo delta nb x b t ->
  share delta (point lo delta j) x = if Nat.eqb j b then 1 - t else if Nat.eqb j (S b) then t else 0.
Proof.
  intros D (B & T & X & _ & _). unfold share, point.
  replace (Rabs (x - (lo + INR j * delta)) / delta) with (Rabs (INR b + t - INR j)).
  2:{ rewrite X. replace (lo + (INR b + t) * delta - (lo + INR j * delta)) with ((INR b + t - INR j) * delta) by ring.
      rewrite Rabs_mult, (Rabs_right delta) by lra. field. lra. }
  destruct (Nat.eqb_spec j b) as [->|NB].
  - replace (INR b + t - INR b) with t by ring. rewrite Rabs_right by lra. apply Rmax_right. lra.
  - destruct (Nat.eqb_spec j (S b)) as [->|NS].
    + rewrite S_INR. replace (INR b + t - (INR b + 1)) with (- (1 - t)) by ring. rewrite Rabs_Ropp, Rabs_right by lra.
      rewrite Rmax_right; lra.
    + apply Rmax_left. enough (1 <= Rabs (INR b + t - INR j)) by lra.
      destruct (Nat.lt_ge_cases j b) as [LT|GE].
      * apply le_INR in LT. rewrite S_INR in LT. rewrite Rabs_right; lra.
      * assert (G : (S (S b) <= j)%nat) by lia. apply le_INR in G. rewrite !S_INR in G. rewrite Rabs_left; lra.
Qed.

(** ** Populating the bins *)
Lemma item_in {A} (l : list A) (b : nat) (d : A) : (b < length l)%nat -> item true l (Z.of_nat b) = Ok (nth b l d).
Proof.
  intros L. unfold item, py_nth. rewrite norm_index_nonneg, (proj2 (Nat.ltb_lt _ _) L). cbn [bind].
  rewrite (nth_error_nth' l d L). reflexivity.
Qed.
Lemma set_in {A} (l : list A) (b : nat) (v : A) : (b < length l)%nat -> py_set l (Z.of_nat b) v = Ok (list_set l b v).
Proof. intros L. unfold py_set. rewrite norm_index_nonneg, (proj2 (Nat.ltb_lt _ _) L). reflexivity. Qed.
Lemma add_item_ok l b w : (b < length l)%nat -> exists l', add_item true l (Z.of_nat b) w = Ok l' /\ length l' = length l /\
  forall j, nth j l' 0 = nth j l 0 + (if Nat.eqb j b then w else 0).
Proof.
  intros L. unfold add_item. rewrite (item_in l b 0 L). cbn [bind]. rewrite set_in by exact L.
  eexists. split; [reflexivity|]. split; [apply list_set_length|]. intros j. rewrite nth_list_set.
  destruct (Nat.eqb_spec j b) as [->|N]; cbn [andb]; [rewrite (proj2 (Nat.ltb_lt _ _) L); reflexivity|ring].
Qed.

Lemma grid_length lo delta n : length (grid lo delta n) = n.
Proof. unfold grid. rewrite map_length, seq_length. reflexivity. Qed.
Lemma grid_nth lo delta n i : (i < n)%nat -> nth i (grid lo delta n) 0 = point lo delta i.
Proof.
  intros I. unfold grid. rewrite (nth_indep _ 0 (lo + INR 0 * delta)) by (rewrite map_length, seq_length; exact I).
  rewrite (map_nth (fun i => lo + INR i * delta)), seq_nth by exact I. reflexivity.
Qed.

Lemma bin_sample_ok lo delta nb w bins x b t : 0 < delta -> cell lo delta nb x b t -> length bins = S nb ->
  exists bins', bin_sample true (grid lo delta (S nb)) lo delta w bins x = Ok bins' /\ length bins' = S nb /\
    forall j, nth j bins' 0 = nth j bins 0 + w * share delta (point lo delta j) x.
Proof.
  intros D C L. pose proof C as (B & T & X & _ & F). unfold bin_sample. rewrite F.
  replace (Z.of_nat b + 1)%Z with (Z.of_nat (S b)) by lia.
  rewrite (item_in _ (S b) 0), (item_in _ b 0) by (rewrite grid_length; lia). cbn [bind].
  rewrite !grid_nth by lia.
  destruct (add_item_ok bins b (w * (point lo delta (S b) - x) / delta)) as (b1 & E1 & L1 & H1); [lia|].
  rewrite E1. cbn [bind].
  destruct (add_item_ok b1 (S b) (w * (x - point lo delta b) / delta)) as (b2 & E2 & L2 & H2); [lia|].
  exists b2. split; [exact E2|]. split; [lia|]. intros j. rewrite H2, H1.
  rewrite (share_cell lo delta nb x b t j D C).
  assert (WL : w * (point lo delta (S b) - x) / delta = w * (1 - t)).
  { unfold point. rewrite X, S_INR. field. lra. }
  assert (WR : w * (x - point lo delta b) / delta = w * t).
  { unfold point. rewrite X. field. lra. }
  rewrite WL, WR. destruct (Nat.eqb_spec j b) as [->|NB].
  - replace (Nat.eqb b (S b)) with false by (symmetry; apply Nat.eqb_neq; lia). ring.
  - destruct (Nat.eqb_spec j (S b)); ring.
Qed.

Lemma fold_bins lo hi nb w xs : lo < hi -> (2 <= nb)%nat -> within lo hi xs -> forall bins, length bins = S nb ->
  exists bins', foldM (bin_sample true (grid lo (spacing lo hi nb) (S nb)) lo (spacing lo hi nb) w) xs bins = Ok bins' /\
    length bins' = S nb /\
    forall j, nth j bins' 0 = nth j bins 0 + w * add_up (map (share (spacing lo hi nb) (point lo (spacing lo hi nb) j)) xs).
Proof.
  intros L N W. pose proof (spacing_pos lo hi nb L N) as D. induction W as [|x xs X W IH]; intros bins LB.
  - exists bins. split; [reflexivity|]. split; [exact LB|]. intros j. cbn. ring.
  - destruct (cell_exists lo hi nb x L N X) as (b & t & C).
    destruct (bin_sample_ok _ _ _ w bins x b t D C LB) as (b1 & E1 & L1 & H1).
    destruct (IH b1 L1) as (b2 & E2 & L2 & H2). exists b2. cbn [foldM]. rewrite E1. cbn [bind].
    split; [exact E2|]. split; [exact L2|]. intros j. rewrite H2, H1. cbn [map add_up]. ring.
Qed.

Lemma nth_zeros n j : nth j (repeat 0 n) 0 = 0.
Proof. revert j. induction n as [|n IH]; intros [|j]; cbn; auto. Qed.

Lemma removelast_nth {A} (l : list A) n j d : length l = S n -> (j < n)%nat -> nth j (removelast l) d = nth j l d.
Proof.
  revert n j. induction l as [|a l IH]; intros n j L J; [discriminate|]. destruct l as [|b l]; [cbn in L; lia|].
  change (removelast (a :: b :: l)) with (a :: removelast (b :: l)). destruct j as [|j]; [reflexivity|]. cbn [nth].
  destruct n as [|n]; [lia|]. apply IH with n; [cbn in *; lia|lia].
Qed.
Lemma removelast_length {A} (l : list A) n : length l = S n -> length (removelast l) = n.
Proof.
  revert n. induction l as [|a l IH]; intros n L; [discriminate|]. destruct l as [|b l]; [cbn in *; lia|].
  change (removelast (a :: b :: l)) with (a :: removelast (b :: l)). destruct n as [|n]; [cbn in L; lia|].
  cbn [length]. rewrite (IH n); [reflexivity|cbn in *; lia].
Qed.

Lemma spacing_z lo hi nb : (2 <= nb)%Z -> (hi - lo) / IZR (nb - 1) = spacing lo hi (Z.to_nat nb).
Proof. intros N. unfold spacing. rewrite INR_IZR_INZ, Z2Nat.id by lia. rewrite minus_IZR. reflexivity. Qed.

Lemma bins_1d xs nb bounds lo hi : (2 <= nb)%Z -> in_bounds xs bounds lo hi ->
  let n := Z.to_nat nb in let delta := spacing lo hi n in
  exists g bins, get_bins_1d true xs nb bounds = Ok (g, bins) /\ length g = n /\ length bins = n /\
    forall j, (j < n)%nat -> nth j g 0 = point lo delta j /\ nth j bins 0 = density_1d lo delta xs j.
Proof.
  intros N B n delta. assert (N2 : (2 <= n)%nat) by (unfold n; lia). pose proof B as (NE & W & LT & _).
  pose proof (spacing_pos lo hi n LT N2) as D. fold delta in D.
  unfold get_bins_1d. replace (nb <? 2)%Z with false by (symmetry; apply Z.ltb_ge; exact N).
  rewrite (bounds_ok _ _ _ _ B). cbn [bind fst snd]. rewrite (spacing_z lo hi nb N). fold n. fold delta.
  rewrite Nat.add_1_r.
  destruct (fold_bins lo hi n (1 / (INR (length xs) * delta)) xs LT N2 W (repeat 0 (S n))) as (bins & E & L & H); [apply repeat_length|].
  fold delta in E, H. rewrite E. cbn [bind]. eexists _, _. split; [reflexivity|].
  split; [apply removelast_length, grid_length|]. split; [apply removelast_length, L|]. intros j J. split.
  - rewrite (removelast_nth _ n) by (try apply grid_length; exact J). apply grid_nth. lia.
  - rewrite (removelast_nth _ n) by (try exact L; exact J). rewrite H, nth_zeros. unfold density_1d, Rdiv. ring.
Qed.

(** ** Sums over the grid *)
Definition sum_n (f : nat -> R) (n : nat) : R := add_up (map f (seq 0 n)).
Lemma add_up_app l l' : add_up (l ++ l') = add_up l + add_up l'.
Proof. induction l as [|a l IH]; cbn [app add_up]; [ring|rewrite IH; ring]. Qed.
Lemma sum_S f n : sum_n f (S n) = sum_n f n + f n.
Proof. unfold sum_n. rewrite seq_S, map_app, add_up_app. cbn. ring. Qed.
Lemma sum_ext f g n : (forall j, (j < n)%nat -> f j = g j) -> sum_n f n = sum_n g n.
Proof. induction n as [|n IH]; intros H; [reflexivity|]. rewrite !sum_S, IH, H; auto. Qed.
Lemma sum_const0 n : sum_n (fun _ => 0) n = 0.
Proof. induction n as [|n IH]; [reflexivity|]. rewrite sum_S, IH. ring. Qed.
Lemma sum_plus f g n : sum_n (fun j => f j + g j) n = sum_n f n + sum_n g n.
Proof. induction n as [|n IH]; [unfold sum_n; cbn; ring|]. rewrite !sum_S, IH. ring. Qed.
Lemma sum_scale c f n : sum_n (fun j => c * f j) n = c * sum_n f n.
Proof. induction n as [|n IH]; [unfold sum_n; cbn; ring|]. rewrite !sum_S, IH. ring. Qed.
Lemma sum_swap (f : nat -> nat -> R) n m : sum_n (fun i => sum_n (f i) m) n = sum_n (fun j => sum_n (fun i => f i j) n) m.
Proof.
  induction n as [|n IH]; [cbn; rewrite sum_const0; reflexivity|]. rewrite sum_S, IH, <- sum_plus.
  apply sum_ext. intros j _. rewrite sum_S. reflexivity.
Qed.
Lemma sum_list {A} (f : nat -> A -> R) n (l : list A) :
  sum_n (fun j => add_up (map (f j) l)) n = add_up (map (fun x => sum_n (fun j => f j x) n) l).
Proof. induction l as [|a l IH]; cbn [map add_up]; [apply sum_const0|]. rewrite sum_plus, IH. reflexivity. Qed.
Lemma sum_pick f n b : (b < n)%nat -> sum_n (fun j => if Nat.eqb j b then f j else 0) n = f b.
Proof.
  intros B. induction n as [|n IH]; [lia|]. rewrite sum_S. destruct (Nat.eqb_spec n b) as [->|N].
  - rewrite (sum_ext _ (fun _ => 0)), sum_const0; [ring|]. intros j J. destruct (Nat.eqb_spec j b); [lia|reflexivity].
  - rewrite IH by lia. ring.
Qed.
Lemma sum_out f n b : (n <= b)%nat -> sum_n (fun j => if Nat.eqb j b then f j else 0) n = 0.
Proof. intros B. rewrite (sum_ext _ (fun _ => 0)); [apply sum_const0|]. intros j J. destruct (Nat.eqb_spec j b); [lia|reflexivity]. Qed.
Lemma sum_nth l : sum_n (fun j => nth j l 0) (length l) = add_up l.
Proof.
  induction l as [|a l IH] using rev_ind; [reflexivity|]. rewrite app_length, Nat.add_1_r, sum_S, add_up_app. cbn.
  rewrite app_nth2, Nat.sub_diag by lia. cbn. rewrite <- IH. f_equal; [|ring].
  apply sum_ext. intros j J. apply app_nth1, J.
Qed.
Lemma sum_le f g n : (forall j, (j < n)%nat -> f j <= g j) -> sum_n f n <= sum_n g n.
Proof.
  induction n as [|n IH]; intros H; [apply Rle_refl|]. rewrite !sum_S. apply Rplus_le_compat; [apply IH; intros; apply H; lia|apply H; lia].
Qed.
Lemma sum_ge0 f n : (forall j, (j < n)%nat -> 0 <= f j) -> 0 <= sum_n f n.
Proof. intros H. rewrite <- (sum_const0 n). apply sum_le, H. Qed.

(** The shares of a sample. *)
Lemma sum_share (f : nat -> R) lo delta nb x b t : 0 < delta -> cell lo delta nb x b t ->
  sum_n (fun j => share delta (point lo delta j) x * f j) nb = (1 - t) * f b + t * f (S b).
Proof.
  intros D C. rewrite (sum_ext _ (fun j => (if Nat.eqb j b then (1 - t) * f j else 0) + (if Nat.eqb j (S b) then t * f j else 0))).
  - rewrite sum_plus. destruct C as (B & T & X & LAST & _). rewrite (sum_pick (fun j => (1 - t) * f j)) by exact B.
    destruct (Nat.lt_ge_cases (S b) nb) as [LT|GE].
    + rewrite (sum_pick (fun j => t * f j)) by exact LT. reflexivity.
    + rewrite (sum_out (fun j => t * f j)) by exact GE. rewrite (LAST ltac:(lia)). ring.
  - intros j _. rewrite (share_cell _ _ _ _ _ _ j D C). destruct (Nat.eqb_spec j b) as [->|N].
    + replace (Nat.eqb b (S b)) with false by (symmetry; apply Nat.eqb_neq; lia). ring.
    + destruct (Nat.eqb_spec j (S b)); ring.
Qed.
Lemma share_total lo hi nb x : lo < hi -> (2 <= nb)%nat -> lo <= x <= hi ->
  sum_n (fun j => share (spacing lo hi nb) (point lo (spacing lo hi nb) j) x) nb = 1.
Proof.
  intros L N X. destruct (cell_exists lo hi nb x L N X) as (b & t & C).
  pose proof (sum_share (fun _ => 1) _ _ _ _ _ _ (spacing_pos lo hi nb L N) C) as H.
  rewrite <- (sum_ext (fun j => share (spacing lo hi nb) (point lo (spacing lo hi nb) j) x * 1)) by (intros; ring).
  rewrite H. ring.
Qed.
Lemma share_mean lo hi nb x : lo < hi -> (2 <= nb)%nat -> lo <= x <= hi ->
  sum_n (fun j => share (spacing lo hi nb) (point lo (spacing lo hi nb) j) x * point lo (spacing lo hi nb) j) nb = x.
Proof.
  intros L N X. destruct (cell_exists lo hi nb x L N X) as (b & t & C).
  rewrite (sum_share (point lo (spacing lo hi nb)) _ _ _ _ _ _ (spacing_pos lo hi nb L N) C).
  destruct C as (_ & _ & -> & _). unfold point. rewrite S_INR. ring.
Qed.

Lemma share_ge0 delta g x : 0 <= share delta g x.
Proof. apply Rmax_l. Qed.
Lemma add_up_ge0 {A} (f : A -> R) l : (forall x, In x l -> 0 <= f x) -> 0 <= add_up (map f l).
Proof. induction l as [|a l IH]; cbn [map add_up]; intros H; [lra|]. pose proof (H a (or_introl eq_refl)). specialize (IH (fun x I => H x (or_intror I))). lra. Qed.
Lemma add_up_const {A} (c : R) (l : list A) : add_up (map (fun _ => c) l) = INR (length l) * c.
Proof. induction l as [|a l IH]; [cbn; ring|]. cbn [map add_up length]. rewrite IH, S_INR. ring. Qed.

Lemma length_pos {A} (l : list A) : l <> [] -> 0 < INR (length l).
Proof. intros N. apply lt_0_INR. destruct l; [congruence|cbn; lia]. Qed.

Lemma density_ge0 lo hi nb xs j : lo < hi -> (2 <= nb)%nat -> xs <> [] -> 0 <= density_1d lo (spacing lo hi nb) xs j.
Proof.
  intros L N NE. pose proof (spacing_pos lo hi nb L N). pose proof (length_pos xs NE). unfold density_1d.
  apply Rmult_le_pos; [apply add_up_ge0; intros; apply share_ge0|]. apply Rlt_le, Rinv_0_lt_compat, Rmult_lt_0_compat; assumption.
Qed.
Lemma density_mass lo hi nb xs : lo < hi -> (2 <= nb)%nat -> xs <> [] -> within lo hi xs ->
  sum_n (density_1d lo (spacing lo hi nb) xs) nb = / spacing lo hi nb.
Proof.
  intros L N NE W. pose proof (spacing_pos lo hi nb L N) as D. pose proof (length_pos xs NE). set (delta := spacing lo hi nb) in *.
  unfold density_1d. rewrite (sum_ext _ (fun j => / (INR (length xs) * delta) * add_up (map (share delta (point lo delta j)) xs))) by (intros; unfold Rdiv; ring).
  rewrite sum_scale, sum_list. rewrite (map_ext_in _ (fun _ => 1)); [rewrite add_up_const; field; lra|].
  intros x I. apply share_total; try assumption. unfold within in W. rewrite Forall_forall in W. apply W, I.
Qed.
Lemma density_mean lo hi nb xs : lo < hi -> (2 <= nb)%nat -> xs <> [] -> within lo hi xs ->
  sum_n (fun j => density_1d lo (spacing lo hi nb) xs j * point lo (spacing lo hi nb) j) nb * spacing lo hi nb = mean xs.
Proof.
  intros L N NE W. pose proof (spacing_pos lo hi nb L N) as D. pose proof (length_pos xs NE). set (delta := spacing lo hi nb) in *.
  unfold density_1d. rewrite (sum_ext _ (fun j => / (INR (length xs) * delta) * add_up (map (fun x => share delta (point lo delta j) x * point lo delta j) xs))).
  2:{ intros j _. assert (E : add_up (map (fun x => share delta (point lo delta j) x * point lo delta j) xs) =
        add_up (map (share delta (point lo delta j)) xs) * point lo delta j).
      { clear. induction xs as [|x xs IH]; cbn [map add_up]; [ring|rewrite IH; ring]. }
      rewrite E. unfold Rdiv. ring. }
  rewrite sum_scale, sum_list. rewrite (map_ext_in _ (fun x => x)); [rewrite map_id; unfold mean; field; lra|].
  intros x I. apply share_mean; try assumption. unfold within in W. rewrite Forall_forall in W. apply W, I.
Qed.

Lemma list_sum_n l n f : length l = n -> (forall j, (j < n)%nat -> nth j l 0 = f j) -> add_up l = sum_n f n.
Proof. intros L H. rewrite <- sum_nth, L. apply sum_ext, H. Qed.
Lemma list_nonneg l n f : length l = n -> (forall j, (j < n)%nat -> nth j l 0 = f j) -> (forall j, 0 <= f j) -> nonnegative l.
Proof.
  intros L H P. apply Forall_forall. intros x I. apply (In_nth _ _ 0) in I. destruct I as (j & J & <-).
  rewrite H by lia. apply P.
Qed.
Lemma dot_sum a : forall b, length a = length b -> dot a b = sum_n (fun j => nth j a 0 * nth j b 0) (length a).
Proof.
  intros b L. unfold dot. rewrite (list_sum_n _ (length a) (fun j => nth j a 0 * nth j b 0)); [reflexivity|rewrite map_length, combine_length; lia|].
  intros j J. rewrite (nth_indep _ 0 (fst (0, 0) * snd (0, 0))) by (rewrite map_length, combine_length; lia).
  rewrite (map_nth (fun p => fst p * snd p)), combine_nth by exact L. reflexivity.
Qed.

Lemma bins_1d_all xs nb bounds lo hi : (2 <= nb)%Z -> in_bounds xs bounds lo hi ->
  let n := Z.to_nat nb in let delta := spacing lo hi n in
  exists g bins, get_bins_1d true xs nb bounds = Ok (g, bins) /\ length g = n /\ length bins = n /\
    (forall j, (j < n)%nat -> nth j g 0 = point lo delta j /\ nth j bins 0 = density_1d lo delta xs j) /\
    nonnegative bins /\ add_up bins = / delta /\ dot bins g * delta = mean xs.
Proof.
  intros N B n delta. destruct (bins_1d xs nb bounds lo hi N B) as (g & bins & E & LG & LB & H).
  fold n in LG, LB, H. fold delta in H. assert (N2 : (2 <= n)%nat) by (unfold n; lia). destruct B as (NE & W & LT & _).
  exists g, bins. repeat (split; [assumption|]). split; [|split].
  - apply (list_nonneg bins n (density_1d lo delta xs) LB); [apply H|]. intros j. apply density_ge0; assumption.
  - rewrite (list_sum_n bins n (density_1d lo delta xs) LB) by apply H. apply density_mass; assumption.
  - rewrite dot_sum by congruence. rewrite LB.
    rewrite (sum_ext _ (fun j => density_1d lo delta xs j * point lo delta j)) by (intros j J; destruct (H j J) as (-> & ->); reflexivity).
    apply density_mean; assumption.
Qed.

(** ** Errors *)
Lemma bins_1d_few float_index xs nb bounds : (nb < 2)%Z -> get_bins_1d float_index xs nb bounds = Err ValueError.
Proof. intros N. unfold get_bins_1d. rewrite (proj2 (Z.ltb_lt _ _) N). reflexivity. Qed.
Lemma bins_1d_empty float_index nb bounds : get_bins_1d float_index [] nb bounds = Err ValueError.
Proof. unfold get_bins_1d. destruct (nb <? 2)%Z; [reflexivity|]. destruct bounds as [(a & b)|]; reflexivity. Qed.
Lemma bins_1d_bounds float_index xs nb lo hi : ~ within lo hi xs -> get_bins_1d float_index xs nb (Some (lo, hi)) = Err ValueError.
Proof.
  intros NW. unfold get_bins_1d. destruct (nb <? 2)%Z; [reflexivity|]. destruct xs as [|x xs]; [reflexivity|].
  destruct (np_min_ok (x :: xs)) as (mn & EM & SM); [discriminate|]. destruct (np_max_ok (x :: xs)) as (mx & EX & LX); [discriminate|].
  unfold bounds_1d. rewrite EM, EX. cbn [bind]. destruct (Rlt_dec mn lo) as [|N1]; [reflexivity|]. destruct (Rlt_dec hi mx) as [|N2]; [reflexivity|].
  exfalso. apply NW. destruct SM as (_ & F1). destruct LX as (_ & F2). unfold within. rewrite Forall_forall in *.
  intros y I. specialize (F1 y I). specialize (F2 y I). lra.
Qed.
(** Recent versions of numpy. *)
Lemma bins_1d_index xs nb bounds lo hi : (2 <= nb)%Z -> in_bounds xs bounds lo hi -> get_bins_1d false xs nb bounds = Err IndexError.
Proof.
  intros N B. unfold get_bins_1d. replace (nb <? 2)%Z with false by (symmetry; apply Z.ltb_ge; exact N).
  rewrite (bounds_ok _ _ _ _ B). cbn [bind]. destruct B as (NE & _). destruct xs as [|x xs]; [congruence|]. reflexivity.
Qed.
Lemma bins_1d_never xs nb bounds r : get_bins_1d false xs nb bounds <> Ok r.
Proof.
  unfold get_bins_1d. destruct (nb <? 2)%Z; [discriminate|]. destruct xs as [|x xs].
  - destruct bounds as [(a & b)|]; discriminate.
  - destruct (bounds_1d _ _) as [mm|e]; [|discriminate]. cbn. discriminate.
Qed.
