(** * Lemmas on two dimensional binning and on smoothing. *)

From Coq Require Import List ZArith Arith Reals Bool Lia Lra.
Import ListNotations.
From Verif Require Import Py Py_proof hac_model quant_model quant_spec quant_proof kde_model kde_spec kde_proof.
Open Scope py_scope.
Local Open Scope R_scope.

(** ** Two dimensions *)
Definition get2 (m : list (list R)) (i j : nat) : R := nth j (nth i m []) 0.
Definition square (n : nat) (m : list (list R)) : Prop := length m = n /\ forall i, (i < n)%nat -> length (nth i m []) = n.

Lemma add_item2_ok n m a b w : square n m -> (a < n)%nat -> (b < n)%nat ->
  exists m', add_item2 true m (Z.of_nat a) (Z.of_nat b) w = Ok m' /\ square n m' /\
    forall i j, get2 m' i j = get2 m i j + (if Nat.eqb i a then if Nat.eqb j b then w else 0 else 0).
Proof.
  intros (L & LR) A B. unfold add_item2. rewrite (item_in m a []) by lia. cbn [bind].
  destruct (add_item_ok (nth a m []) b w) as (r & Er & Lr & Hr); [rewrite LR; lia|]. rewrite Er. cbn [bind].
  rewrite set_in by lia. eexists. split; [reflexivity|]. split.
  - split; [rewrite list_set_length; exact L|]. intros i I. rewrite nth_list_set.
    destruct (Nat.eqb_spec i a) as [->|N]; cbn [andb]; [|apply LR, I]. rewrite (proj2 (Nat.ltb_lt _ _)) by lia. rewrite Lr. apply LR, A.
  - intros i j. unfold get2. rewrite nth_list_set. destruct (Nat.eqb_spec i a) as [->|N]; cbn [andb]; [|ring].
    rewrite (proj2 (Nat.ltb_lt a (length m))) by lia. apply Hr.
Qed.

Lemma bin_sample2_ok x_lo y_lo dx dy nb w bins s b t b' t' : 0 < dx -> 0 < dy ->
  cell x_lo dx nb (fst s) b t -> cell y_lo dy nb (snd s) b' t' -> square (S nb) bins ->
  exists bins', bin_sample2 true (grid x_lo dx (S nb)) (grid y_lo dy (S nb)) x_lo y_lo dx dy w bins s = Ok bins' /\ square (S nb) bins' /\
    forall i j, get2 bins' i j = get2 bins i j + w * (share dx (point x_lo dx i) (fst s) * share dy (point y_lo dy j) (snd s)).
Proof.
  intros DX DY CX CY SQ. pose proof CX as (B & T & X & _ & F). pose proof CY as (B' & T' & Y & _ & F').
  unfold bin_sample2. rewrite F, F'.
  replace (Z.of_nat b + 1)%Z with (Z.of_nat (S b)) by lia. replace (Z.of_nat b' + 1)%Z with (Z.of_nat (S b')) by lia.
  rewrite (item_in _ (S b) 0), (item_in _ b 0), (item_in _ (S b') 0), (item_in _ b' 0) by (rewrite grid_length; lia). cbn [bind].
  rewrite !grid_nth by lia.
  assert (WL : (point x_lo dx (S b) - fst s) / dx = 1 - t) by (unfold point; rewrite X, S_INR; field; lra).
  assert (WR : (fst s - point x_lo dx b) / dx = t) by (unfold point; rewrite X; field; lra).
  assert (WB : (point y_lo dy (S b') - snd s) / dy = 1 - t') by (unfold point; rewrite Y, S_INR; field; lra).
  assert (WU : (snd s - point y_lo dy b') / dy = t') by (unfold point; rewrite Y; field; lra).
  rewrite WL, WR, WB, WU.
  destruct (add_item2_ok (S nb) bins b b' (w * (1 - t) * (1 - t')) SQ) as (b1 & E1 & S1 & H1); [lia|lia|]. rewrite E1. cbn [bind].
  destruct (add_item2_ok (S nb) b1 b (S b') (w * (1 - t) * t') S1) as (b2 & E2 & S2 & H2); [lia|lia|]. rewrite E2. cbn [bind].
  destruct (add_item2_ok (S nb) b2 (S b) b' (w * t * (1 - t')) S2) as (b3 & E3 & S3 & H3); [lia|lia|]. rewrite E3. cbn [bind].
  destruct (add_item2_ok (S nb) b3 (S b) (S b') (w * t * t') S3) as (b4 & E4 & S4 & H4); [lia|lia|].
  exists b4. split; [exact E4|]. split; [exact S4|]. intros i j. rewrite H4, H3, H2, H1.
  rewrite (share_cell x_lo dx nb (fst s) b t i DX CX), (share_cell y_lo dy nb (snd s) b' t' j DY CY).
  destruct (Nat.eqb_spec i b) as [->|NB].
  - replace (Nat.eqb b (S b)) with false by (symmetry; apply Nat.eqb_neq; lia).
    destruct (Nat.eqb_spec j b') as [->|NB']; [replace (Nat.eqb b' (S b')) with false by (symmetry; apply Nat.eqb_neq; lia); ring|].
    destruct (Nat.eqb_spec j (S b')); ring.
  - destruct (Nat.eqb_spec i (S b)); [|ring].
    destruct (Nat.eqb_spec j b') as [->|NB']; [replace (Nat.eqb b' (S b')) with false by (symmetry; apply Nat.eqb_neq; lia); ring|].
    destruct (Nat.eqb_spec j (S b')); ring.
Qed.

Definition shares_2d x_lo y_lo dx dy (i j : nat) (p : R * R) : R :=
  share dx (point x_lo dx i) (fst p) * share dy (point y_lo dy j) (snd p).

Lemma fold_bins2 x_lo x_hi y_lo y_hi nb w pts : x_lo < x_hi -> y_lo < y_hi -> (2 <= nb)%nat ->
  within x_lo x_hi (map fst pts) -> within y_lo y_hi (map snd pts) ->
  let dx := spacing x_lo x_hi nb in let dy := spacing y_lo y_hi nb in
  forall bins, square (S nb) bins ->
  exists bins', foldM (bin_sample2 true (grid x_lo dx (S nb)) (grid y_lo dy (S nb)) x_lo y_lo dx dy w) pts bins = Ok bins' /\
    square (S nb) bins' /\
    forall i j, get2 bins' i j = get2 bins i j + w * add_up (map (shares_2d x_lo y_lo dx dy i j) pts).
Proof.
  intros LX LY N WX WY dx dy. pose proof (spacing_pos _ _ _ LX N) as DX. pose proof (spacing_pos _ _ _ LY N) as DY.
  induction pts as [|p pts IH]; intros bins SQ.
  - exists bins. split; [reflexivity|]. split; [exact SQ|]. intros i j. cbn. ring.
  - inversion WX as [|? ? PX WX']; subst. inversion WY as [|? ? PY WY']; subst.
    destruct (cell_exists x_lo x_hi nb (fst p) LX N PX) as (b & t & C).
    destruct (cell_exists y_lo y_hi nb (snd p) LY N PY) as (b' & t' & C').
    destruct (bin_sample2_ok x_lo y_lo dx dy nb w bins p b t b' t' DX DY C C' SQ) as (b1 & E1 & S1 & H1).
    destruct (IH WX' WY' b1 S1) as (b2 & E2 & S2 & H2). exists b2. cbn [foldM]. rewrite E1. cbn [bind].
    split; [exact E2|]. split; [exact S2|]. intros i j. rewrite H2, H1. cbn [map add_up]. unfold shares_2d. ring.
Qed.

Lemma zeros_square n : square n (repeat (repeat 0 n) n).
Proof.
  split; [apply repeat_length|]. intros i I. rewrite (nth_indep _ [] (repeat 0 n)) by (rewrite repeat_length; exact I).
  rewrite nth_repeat. apply repeat_length.
Qed.
Lemma zeros_get n i j : get2 (repeat (repeat 0 n) n) i j = 0.
Proof.
  unfold get2. destruct (Nat.lt_ge_cases i n) as [L|G].
  - rewrite (nth_indep _ [] (repeat 0 n)) by (rewrite repeat_length; exact L). rewrite nth_repeat. apply nth_zeros.
  - rewrite (nth_overflow (repeat (repeat 0 n) n)) by (rewrite repeat_length; exact G). destruct j; reflexivity.
Qed.

Lemma pairs_back pts : map pair_of (map (fun p : R * R => [fst p; snd p]) pts) = pts.
Proof. induction pts as [|(a & b) pts IH]; [reflexivity|]. cbn [map]. rewrite IH. reflexivity. Qed.

Lemma crop n m : square (S n) m -> array_2d n n (map (@removelast R) (removelast m)) (get2 m).
Proof.
  intros (L & LR). assert (LL : length (removelast m) = n) by (apply removelast_length, L). split; [rewrite map_length; exact LL|].
  split.
  - apply Forall_forall. intros r I. apply in_map_iff in I. destruct I as (r0 & <- & I). apply (In_nth _ _ []) in I. destruct I as (i & J & <-).
    apply removelast_length. rewrite (removelast_nth m n) by (try exact L; lia). apply LR. lia.
  - intros i j I J. change (@nil R) with (removelast (@nil R)) at 1. rewrite map_nth.
    rewrite (removelast_nth (nth i (removelast m) []) n) by (try lia; rewrite (removelast_nth m n) by (try exact L; lia); apply LR; lia).
    rewrite (removelast_nth m n) by (try exact L; lia). reflexivity.
Qed.

Lemma array_ext n m a f g : (forall i j, (i < n)%nat -> (j < m)%nat -> f i j = g i j) -> array_2d n m a f -> array_2d n m a g.
Proof. intros E (L & F & H). split; [exact L|]. split; [exact F|]. intros i j I J. rewrite H, E; auto. Qed.

Lemma bins_2d samples pts nb bounds x_lo y_lo x_hi y_hi : (2 <= nb)%Z ->
  in_bounds_2d samples pts bounds x_lo y_lo x_hi y_hi ->
  let n := Z.to_nat nb in let dx := spacing x_lo x_hi n in let dy := spacing y_lo y_hi n in
  exists xg yg bins, get_bins_2d true samples nb bounds = Ok (xg, yg, bins) /\
    length xg = n /\ length yg = n /\
    (forall j, (j < n)%nat -> nth j xg 0 = point x_lo dx j /\ nth j yg 0 = point y_lo dy j) /\
    array_2d n n bins (density_2d x_lo y_lo dx dy pts).
Proof.
  intros N (MC & MR & NE & WX & WY & LX & LY & B) n dx dy. assert (N2 : (2 <= n)%nat) by (unfold n; lia).
  unfold get_bins_2d. replace (nb <? 2)%Z with false by (symmetry; apply Z.ltb_ge; exact N).
  rewrite MC, MR, pairs_back. cbn [Nat.eqb negb].
  assert (EB : match bounds with
         | None => x_min <- np_min (map fst pts) ;; x_max <- np_max (map fst pts) ;;
                   y_min <- np_min (map snd pts) ;; y_max <- np_max (map snd pts) ;;
                   Ok ((x_min, y_min), (x_max, y_max))
         | Some b => Ok b
         end = Ok ((x_lo, y_lo), (x_hi, y_hi))).
  { destruct bounds as [b|]; [subst b; reflexivity|]. destruct B as (B1 & B2 & B3 & B4).
    assert (NX : map fst pts <> []) by (destruct pts; [congruence|discriminate]).
    assert (NY : map snd pts <> []) by (destruct pts; [congruence|discriminate]).
    destruct (np_min_ok _ NX) as (a1 & -> & S1). destruct (np_max_ok _ NX) as (a2 & -> & S2).
    destruct (np_min_ok _ NY) as (a3 & -> & S3). destruct (np_max_ok _ NY) as (a4 & -> & S4). cbn [bind].
    rewrite (smallest_unique _ _ _ S1 B1), (largest_unique _ _ _ S2 B2), (smallest_unique _ _ _ S3 B3), (largest_unique _ _ _ S4 B4). reflexivity. }
  rewrite EB. cbn [bind]. rewrite !spacing_z by exact N. fold n. fold dx. fold dy. rewrite Nat.add_1_r.
  destruct (fold_bins2 x_lo x_hi y_lo y_hi n (1 / (INR (length pts) * dx * dy)) pts LX LY N2 WX WY _ (zeros_square (S n)))
    as (bins & E & SQ & H). fold dx in E, H. fold dy in E, H. rewrite E. cbn [bind].
  eexists _, _, _. split; [reflexivity|].
  split; [apply removelast_length, grid_length|]. split; [apply removelast_length, grid_length|]. split.
  - intros j J. rewrite !(removelast_nth _ n) by (try apply grid_length; exact J). rewrite !grid_nth by lia. split; reflexivity.
  - apply (array_ext _ _ _ (get2 bins)); [|apply crop, SQ]. intros i j I J. rewrite H, zeros_get. unfold density_2d, shares_2d, Rdiv. ring.
Qed.

Lemma total_array n m a f : array_2d n m a f -> total a = sum_n (fun i => sum_n (f i) m) n.
Proof.
  intros (L & F & H). unfold total. rewrite (list_sum_n _ n (fun i => sum_n (f i) m)); [reflexivity|rewrite map_length; exact L|].
  intros i I. change 0 with (add_up []) at 1. rewrite map_nth. apply list_sum_n; [|intros j J; apply H; assumption].
  rewrite Forall_forall in F. apply F, nth_In. lia.
Qed.
Lemma nonneg_array n m a f : array_2d n m a f -> (forall i j, 0 <= f i j) -> Forall nonnegative a.
Proof.
  intros (L & F & H) P. apply Forall_forall. intros r I. apply (In_nth _ _ []) in I. destruct I as (i & I & <-).
  apply (list_nonneg _ m (f i)); [rewrite Forall_forall in F; apply F, nth_In, I| |apply P].
  intros j J. apply H; [lia|exact J].
Qed.

Lemma density2_ge0 x_lo x_hi y_lo y_hi nb pts i j : x_lo < x_hi -> y_lo < y_hi -> (2 <= nb)%nat -> pts <> [] ->
  0 <= density_2d x_lo y_lo (spacing x_lo x_hi nb) (spacing y_lo y_hi nb) pts i j.
Proof.
  intros LX LY N NE. pose proof (spacing_pos _ _ _ LX N). pose proof (spacing_pos _ _ _ LY N). pose proof (length_pos pts NE).
  unfold density_2d. apply Rmult_le_pos; [apply add_up_ge0; intros; apply Rmult_le_pos; apply share_ge0|].
  apply Rlt_le, Rinv_0_lt_compat. apply Rmult_lt_0_compat; [apply Rmult_lt_0_compat|]; assumption.
Qed.

Lemma density2_mass x_lo x_hi y_lo y_hi nb pts : x_lo < x_hi -> y_lo < y_hi -> (2 <= nb)%nat -> pts <> [] ->
  within x_lo x_hi (map fst pts) -> within y_lo y_hi (map snd pts) ->
  let dx := spacing x_lo x_hi nb in let dy := spacing y_lo y_hi nb in
  sum_n (fun i => sum_n (density_2d x_lo y_lo dx dy pts i) nb) nb = / (dx * dy).
Proof.
  intros LX LY N NE WX WY dx dy. assert (DX : 0 < dx) by (apply spacing_pos; assumption).
  assert (DY : 0 < dy) by (apply spacing_pos; assumption). pose proof (length_pos pts NE) as LP.
  set (c := / (INR (length pts) * dx * dy)).
  rewrite (sum_ext _ (fun i => c * sum_n (fun j => add_up (map (shares_2d x_lo y_lo dx dy i j) pts)) nb)).
  2:{ intros i _. rewrite <- sum_scale. apply sum_ext. intros j _. unfold density_2d, shares_2d, c, Rdiv. ring. }
  rewrite sum_scale.
  rewrite (sum_ext _ (fun i => add_up (map (fun p => sum_n (fun j => shares_2d x_lo y_lo dx dy i j p) nb) pts))) by (intros; apply sum_list).
  rewrite sum_list. rewrite (map_ext_in _ (fun _ => 1)); [rewrite add_up_const; unfold c; field; repeat split; lra|].
  intros p I. assert (PX : x_lo <= fst p <= x_hi) by (unfold within in WX; rewrite Forall_forall in WX; apply WX, in_map, I).
  assert (PY : y_lo <= snd p <= y_hi) by (unfold within in WY; rewrite Forall_forall in WY; apply WY, in_map, I).
  rewrite (sum_ext _ (fun i => share dx (point x_lo dx i) (fst p))); [apply share_total; assumption|].
  intros i _. unfold shares_2d. rewrite sum_scale. unfold dy. rewrite share_total by assumption. ring.
Qed.

(** ** Errors in two dimensions *)
Lemma bins_2d_few float_index samples nb bounds : (nb < 2)%Z -> get_bins_2d float_index samples nb bounds = Err ValueError.
Proof. intros N. unfold get_bins_2d. rewrite (proj2 (Z.ltb_lt _ _) N). reflexivity. Qed.
Lemma bins_2d_cols float_index samples nb bounds : mcols samples <> 2%nat -> get_bins_2d float_index samples nb bounds = Err ValueError.
Proof. intros N. unfold get_bins_2d. destruct (nb <? 2)%Z; [reflexivity|]. apply Nat.eqb_neq in N. rewrite N. reflexivity. Qed.
Lemma bins_2d_index samples nb bounds r : mrows samples <> [] -> get_bins_2d false samples nb bounds <> Ok r.
Proof.
  intros NE. unfold get_bins_2d. destruct (nb <? 2)%Z; [discriminate|]. destruct (negb _); [discriminate|].
  destruct (mrows samples) as [|s ss]; [congruence|]. cbn [map].
  intros H. apply bind_ok in H. destruct H as (((xa & ya) & (xb & yb)) & _ & H). cbn [foldM] in H. unfold bin_sample2 in H at 1.
  cbn [item bind] in H. discriminate H.
Qed.

(** ** Convolution *)
Lemma sum_shift b : forall k n, (k + length b <= n)%nat -> sum_n (fun i => shifted b i k) n = add_up b.
Proof.
  intros k n L. assert (E : exists r, n = (k + length b + r)%nat) by (exists (n - k - length b)%nat; lia). destruct E as (r & ->).
  induction r as [|r IH].
  - rewrite Nat.add_0_r in *. rewrite <- sum_nth. clear L. generalize (length b). intros m.
    induction m as [|m IH].
    + rewrite Nat.add_0_r. rewrite (sum_ext _ (fun _ => 0)); [apply sum_const0|]. intros j J. unfold shifted.
      rewrite (proj2 (Nat.ltb_lt _ _) J). reflexivity.
    + rewrite Nat.add_succ_r, !sum_S, IH. f_equal. unfold shifted. replace (k + m <? k)%nat with false by (symmetry; apply Nat.ltb_ge; lia).
      f_equal. lia.
  - rewrite Nat.add_succ_r, sum_S, IH by lia. unfold shifted.
    replace (k + length b + r <? k)%nat with false by (symmetry; apply Nat.ltb_ge; lia). rewrite nth_overflow by lia. ring.
Qed.

Lemma sum_seq f n : quant_model.sum (map f (seq 0 n)) = sum_n f n.
Proof. apply add_up_sum. Qed.

Lemma convolve_length a b : length (convolve a b) = (length a + length b - 1)%nat.
Proof. unfold convolve. rewrite map_length, seq_length. reflexivity. Qed.
Lemma convolve_mass a b : a <> [] -> b <> [] -> add_up (convolve a b) = add_up a * add_up b.
Proof.
  intros NA NB. assert (LB : (0 < length b)%nat) by (destruct b; [congruence|cbn; lia]).
  unfold convolve. fold (sum_n (fun n => quant_model.sum (map (fun k => nth k a 0 * shifted b n k) (seq 0 (length a)))) (length a + length b - 1)).
  rewrite (sum_ext _ (fun n => sum_n (fun k => nth k a 0 * shifted b n k) (length a))) by (intros; apply sum_seq).
  rewrite sum_swap. rewrite (sum_ext _ (fun k => add_up b * nth k a 0)); [rewrite sum_scale, sum_nth; ring|].
  intros k K. rewrite sum_scale, sum_shift by lia. ring.
Qed.
Lemma nth_nonneg l i : nonnegative l -> 0 <= nth i l 0.
Proof.
  intros F. destruct (Nat.lt_ge_cases i (length l)) as [L|G]; [|rewrite nth_overflow by exact G; lra].
  unfold nonnegative in F. rewrite Forall_forall in F. apply F, nth_In, L.
Qed.
Lemma shifted_nonneg b n k : nonnegative b -> 0 <= shifted b n k.
Proof. intros F. unfold shifted. destruct (n <? k)%nat; [lra|apply nth_nonneg, F]. Qed.
Lemma convolve_nonneg a b : nonnegative a -> nonnegative b -> nonnegative (convolve a b).
Proof.
  intros FA FB. apply Forall_forall. intros x I. apply in_map_iff in I. destruct I as (n & <- & _). rewrite sum_seq.
  apply sum_ge0. intros j _. apply Rmult_le_pos; [apply nth_nonneg, FA|apply shifted_nonneg, FB].
Qed.

(** ** The kernel *)
Lemma ceil_int n : ceil (IZR n) = n.
Proof.
  unfold ceil. rewrite <- opp_IZR. destruct (base_Int_part (IZR (- n))) as (B1 & B2).
  assert (Int_part (IZR (- n)) = (- n)%Z); [|lia]. apply le_IZR in B1.
  assert (- n - 1 < Int_part (IZR (- n)))%Z; [|lia]. apply lt_IZR. rewrite minus_IZR. lra.
Qed.
Lemma arange_length n delta : 0 < delta -> length (arange (- (INR n * delta) / 2) (INR n * delta / 2) delta) = n.
Proof.
  intros D. unfold arange. rewrite map_length, seq_length.
  replace ((INR n * delta / 2 - - (INR n * delta) / 2) / delta) with (INR n) by (field; lra).
  rewrite INR_IZR_INZ, ceil_int, Nat2Z.id. reflexivity.
Qed.

Lemma normalized l : l <> [] -> Forall (fun x => 0 < x) l ->
  nonnegative (map (fun k => k / quant_model.sum l) l) /\ add_up (map (fun k => k / quant_model.sum l) l) = 1.
Proof.
  intros N F. assert (P : 0 < quant_model.sum l) by (apply sum_pos; [exact N|rewrite Forall_forall in F; exact F]). split.
  - apply Forall_forall. intros x I. apply in_map_iff in I. destruct I as (k & <- & I). rewrite Forall_forall in F. pose proof (F k I).
    apply Rmult_le_pos; [lra|apply Rlt_le, Rinv_0_lt_compat, P].
  - rewrite <- add_up_sum, sum_div. field. lra.
Qed.
Lemma kernel_pos h r d : Forall (fun x => 0 < x) (kernel h r d).
Proof. apply Forall_forall. intros x I. apply in_map_iff in I. destruct I as (y & <- & _). apply exp_pos. Qed.

Lemma py_first {A} (l : list A) d : l <> [] -> py_nth l 0 = Ok (nth 0 l d).
Proof. destruct l as [|a l]; [congruence|]. intros _. unfold py_nth. change 0%Z with (Z.of_nat 0). rewrite norm_index_nonneg. reflexivity. Qed.
Lemma py_at {A} (l : list A) i d : (i < length l)%nat -> py_nth l (Z.of_nat i) = Ok (nth i l d).
Proof. apply item_in. Qed.
Lemma py_last {A} (l : list A) d : l <> [] -> py_nth l (-1) = Ok (nth (length l - 1) l d).
Proof.
  intros N. assert (L : (0 < length l)%nat) by (destruct l; [congruence|cbn; lia]). unfold py_nth, norm_index.
  replace (0 <=? -1)%Z with false by reflexivity. cbn [andb].
  replace (- Z.of_nat (length l) <=? -1)%Z with true by (symmetry; apply Z.leb_le; lia). cbn [andb Z.ltb Z.compare].
  replace (Z.to_nat (-1 + Z.of_nat (length l))) with (length l - 1)%nat by lia. cbn [bind].
  rewrite (nth_error_nth' l d) by lia. reflexivity.
Qed.

Lemma grid_ends g n lo delta : (2 <= n)%nat -> length g = n -> (forall j, (j < n)%nat -> nth j g 0 = point lo delta j) ->
  exists last first second, py_nth g (-1) = Ok last /\ py_nth g 0 = Ok first /\ py_nth g 1 = Ok second /\
    last - first = INR (n - 1) * delta /\ second - first = delta.
Proof.
  intros N L H. assert (NE : g <> []) by (destruct g; [cbn in L; lia|discriminate]).
  exists (nth (n - 1) g 0), (nth 0 g 0), (nth 1 g 0). rewrite <- L at 1. split; [apply py_last, NE|]. split; [apply py_first, NE|].
  split; [apply (py_at g 1 0); lia|]. rewrite !H by lia. unfold point. cbn [INR]. split; ring.
Qed.

Lemma kde_1d xs h nb fft bounds lo hi : (2 <= nb)%Z -> in_bounds xs bounds lo hi -> h <> 0 ->
  let n := Z.to_nat nb in let delta := spacing lo hi n in
  exists g kde, gaussian_kde_1d true xs h nb fft bounds = Ok (g, kde) /\ length g = n /\ length kde = (2 * n - 2)%nat /\
    (forall j, (j < n)%nat -> nth j g 0 = point lo delta j) /\ nonnegative kde /\ add_up kde = / delta.
Proof.
  intros N B H n delta. assert (N2 : (2 <= n)%nat) by (unfold n; lia).
  assert (D : 0 < delta) by (apply spacing_pos; [apply B|exact N2]).
  destruct (bins_1d_all xs nb bounds lo hi N B) as (g & bins & E & LG & LB & V & P & M & _). fold n in LG, LB, V, M. fold delta in V, M.
  destruct (grid_ends g n lo delta N2 LG (fun j J => proj1 (V j J))) as (last & first & second & E1 & E2 & E3 & R1 & R2).
  unfold gaussian_kde_1d. rewrite E. cbn [bind]. rewrite E1. cbn [bind]. rewrite E2. cbn [bind]. rewrite E3. cbn [bind].
  destruct (Req_EM_T h 0) as [Z|_]; [contradiction|]. rewrite R1, R2.
  set (ker := kernel h (INR (n - 1) * delta) delta).
  assert (LK : length ker = (n - 1)%nat).
  { unfold ker, kernel. rewrite map_length. replace (- (INR (n - 1) * delta) / 2) with (- (INR (n - 1) * delta) / 2) by reflexivity. apply arange_length, D. }
  assert (NK : ker <> []) by (destruct ker; [cbn in LK; lia|discriminate]).
  destruct (normalized ker NK (kernel_pos _ _ _)) as (NN & ONE).
  eexists _, _. split; [reflexivity|]. split; [exact LG|]. split; [rewrite convolve_length, map_length, LB, LK; lia|].
  split; [intros j J; apply V, J|]. split; [apply convolve_nonneg; assumption|].
  rewrite convolve_mass, ONE, M; [ring|destruct bins; [cbn in LB; lia|discriminate]|destruct ker; [congruence|discriminate]].
Qed.

(** ** Smoothing in two dimensions *)
Lemma sum_split f n m : sum_n f (n + m) = sum_n f n + sum_n (fun i => f (n + i)%nat) m.
Proof.
  induction m as [|m IH]; [rewrite Nat.add_0_r; unfold sum_n at 3; cbn; ring|]. rewrite Nat.add_succ_r, !sum_S, IH. ring.
Qed.
Lemma sum_part f n o total : (forall i, 0 <= f i) -> (n + o <= total)%nat -> sum_n (fun i => f (i + o)%nat) n <= sum_n f total.
Proof.
  intros P L. replace total with (o + (n + (total - o - n)))%nat by lia. rewrite !sum_split.
  rewrite (sum_ext (fun i => f (i + o)%nat) (fun i => f (o + i)%nat)) by (intros; f_equal; lia).
  pose proof (sum_ge0 f o (fun j _ => P j)). pose proof (sum_ge0 (fun i => f (o + (n + i))%nat) (total - o - n) (fun j _ => P _)). lra.
Qed.

Definition rows_of (w : nat) (m : list (list R)) : Prop := Forall (fun r => length r = w) m.
Lemma rows_nth w m i : rows_of w m -> (i < length m)%nat -> length (nth i m []) = w.
Proof. intros F I. unfold rows_of in F. rewrite Forall_forall in F. apply F, nth_In, I. Qed.

Lemma row_shift b n k m l wb : rows_of wb b -> (l + wb <= m)%nat ->
  sum_n (fun j => if (n <? k)%nat then 0 else shifted (nth (n - k) b []) j l) m = shifted (map add_up b) n k.
Proof.
  intros F L. unfold shifted at 2. destruct (n <? k)%nat; [apply sum_const0|].
  change 0 with (add_up []) at 1. rewrite map_nth. apply sum_shift.
  destruct (Nat.lt_ge_cases (n - k) (length b)) as [I|G]; [rewrite (rows_nth wb) by assumption; exact L|].
  rewrite nth_overflow by exact G. cbn. lia.
Qed.

Lemma full_value a b n m : full_2d a b n m = sum_n (fun k => sum_n (fun l =>
  nth l (nth k a []) 0 * (if (n <? k)%nat then 0 else shifted (nth (n - k) b []) m l)) (width a)) (length a).
Proof. unfold full_2d. rewrite sum_seq. apply sum_ext. intros k _. apply sum_seq. Qed.

Lemma full_mass a b wb : rows_of (width a) a -> rows_of wb b -> a <> [] -> b <> [] ->
  (0 < width a)%nat -> (0 < wb)%nat ->
  sum_n (fun n => sum_n (full_2d a b n) (width a + wb - 1)) (length a + length b - 1) = total a * total b.
Proof.
  intros FA FB NA NB WA WB. assert (LB : (0 < length b)%nat) by (destruct b; [congruence|cbn; lia]).
  rewrite (sum_ext _ (fun n => sum_n (fun k => sum_n (fun l => nth l (nth k a []) 0 * shifted (map add_up b) n k) (width a)) (length a))).
  2:{ intros n _. rewrite (sum_ext _ _ _ (fun m _ => full_value a b n m)). rewrite sum_swap. apply sum_ext. intros k _.
      rewrite sum_swap. apply sum_ext. intros l Ll. rewrite sum_scale. f_equal. apply (row_shift b n k _ l wb FB). lia. }
  rewrite sum_swap. unfold total. rewrite <- (sum_nth (map add_up a)), map_length.
  rewrite (sum_ext _ (fun k => add_up (map add_up b) * nth k (map add_up a) 0)); [rewrite sum_scale; ring|].
  intros k K. rewrite sum_swap.
  rewrite (sum_ext _ (fun l => add_up (map add_up b) * nth l (nth k a []) 0)).
  2:{ intros l _. rewrite sum_scale, sum_shift by (rewrite map_length; lia). ring. }
  rewrite sum_scale. f_equal. change 0 with (add_up []) at 2. rewrite map_nth, <- sum_nth.
  rewrite (rows_nth (width a)) by assumption. reflexivity.
Qed.

Lemma full_nonneg a b n m : Forall nonnegative a -> Forall nonnegative b -> 0 <= full_2d a b n m.
Proof.
  intros FA FB. assert (G : forall (c : list (list R)) i, Forall nonnegative c -> nonnegative (nth i c [])).
  { intros c i F. destruct (Nat.lt_ge_cases i (length c)) as [L|G]; [rewrite Forall_forall in F; apply F, nth_In, L|].
    rewrite nth_overflow by exact G. constructor. }
  rewrite full_value. apply sum_ge0. intros k _. apply sum_ge0. intros l _. apply Rmult_le_pos; [apply nth_nonneg, G, FA|].
  destruct (n <? k)%nat; [lra|]. apply shifted_nonneg, G, FB.
Qed.

Lemma nth_map_seq0 {A} (f : nat -> A) n i d : (i < n)%nat -> nth i (map f (seq 0 n)) d = f i.
Proof.
  intros I. rewrite (nth_indep _ d (f 0%nat)) by (rewrite map_length, seq_length; exact I).
  rewrite map_nth, seq_nth by exact I. reflexivity.
Qed.

Lemma same_array a b : array_2d (length a) (width a) (convolve_same a b)
  (fun i j => full_2d a b (i + (length b - 1) / 2) (j + (width b - 1) / 2)).
Proof.
  unfold convolve_same. split; [rewrite map_length, seq_length; reflexivity|]. split.
  - apply Forall_forall. intros r I. apply in_map_iff in I. destruct I as (n & <- & _). rewrite map_length, seq_length. reflexivity.
  - intros i j I J. rewrite nth_map_seq0 by exact I. rewrite nth_map_seq0 by exact J. reflexivity.
Qed.

Lemma width_rows w m : rows_of w m -> m <> [] -> width m = w.
Proof. intros F N. destruct F as [|r m L F]; [congruence|exact L]. Qed.

Lemma same_mass a b : rows_of (width a) a -> rows_of (width b) b -> a <> [] -> b <> [] ->
  (0 < width a)%nat -> (0 < width b)%nat -> Forall nonnegative a -> Forall nonnegative b ->
  total (convolve_same a b) <= total a * total b.
Proof.
  intros FA FB NA NB WA WB PA PB. rewrite (total_array _ _ _ _ (same_array a b)). rewrite <- (full_mass a b (width b)) by assumption.
  assert (LB : (0 < length b)%nat) by (destruct b; [congruence|cbn; lia]).
  pose proof (Nat.div_le_upper_bound (length b - 1) 2 (length b - 1) ltac:(lia) ltac:(lia)) as O1.
  pose proof (Nat.div_le_upper_bound (width b - 1) 2 (width b - 1) ltac:(lia) ltac:(lia)) as O2.
  eapply Rle_trans; [|apply (sum_part (fun n => sum_n (full_2d a b n) (width a + width b - 1)) (length a) ((length b - 1) / 2))].
  - apply sum_le. intros i _. cbn beta. apply (sum_part (full_2d a b (i + (length b - 1) / 2)) (width a) ((width b - 1) / 2)); [|lia].
    intros m. apply full_nonneg; assumption.
  - intros n. apply sum_ge0. intros m _. apply full_nonneg; assumption.
  - lia.
Qed.

Lemma normalized_2d ker w : rows_of w ker -> (0 < w)%nat -> ker <> [] -> Forall (Forall (fun x => 0 < x)) ker ->
  let s := quant_model.sum (map quant_model.sum ker) in
  Forall nonnegative (map (map (fun k => k / s)) ker) /\ total (map (map (fun k => k / s)) ker) = 1.
Proof.
  intros RW W N F s. assert (P : 0 < s).
  { apply sum_pos; [destruct ker; [congruence|discriminate]|]. intros x I. apply in_map_iff in I. destruct I as (r & <- & I).
    rewrite Forall_forall in F. unfold rows_of in RW. rewrite Forall_forall in RW. pose proof (RW r I) as L.
    apply sum_pos; [destruct r; [cbn in L; lia|discriminate]|]. specialize (F r I). rewrite Forall_forall in F. exact F. }
  split.
  - apply Forall_forall. intros r I. apply in_map_iff in I. destruct I as (r0 & <- & I). rewrite Forall_forall in F. specialize (F r0 I).
    apply Forall_forall. intros x J. apply in_map_iff in J. destruct J as (y & <- & J). rewrite Forall_forall in F. specialize (F y J).
    apply Rmult_le_pos; [lra|apply Rlt_le, Rinv_0_lt_compat, P].
  - unfold total. rewrite map_map. rewrite (map_ext _ (fun r => add_up r / s)).
    + rewrite <- (map_map add_up (fun x => x / s)). rewrite <- add_up_sum, sum_div.
      change (map add_up ker) with (map quant_model.sum ker). fold s. field. lra.
    + intros r. rewrite <- add_up_sum, sum_div. reflexivity.
Qed.

Lemma kde_2d samples pts h_x h_y nb fft bounds x_lo y_lo x_hi y_hi : (2 <= nb)%Z ->
  in_bounds_2d samples pts bounds x_lo y_lo x_hi y_hi -> h_x <> 0 -> h_y <> 0 ->
  let n := Z.to_nat nb in let dx := spacing x_lo x_hi n in let dy := spacing y_lo y_hi n in
  exists xg yg kde, gaussian_kde_2d true samples h_x h_y nb fft bounds = Ok (xg, yg, kde) /\
    length kde = n /\ Forall (fun r => length r = n) kde /\ Forall nonnegative kde /\ total kde <= / (dx * dy).
Proof.
  intros N B HX HY n dx dy. assert (N2 : (2 <= n)%nat) by (unfold n; lia).
  destruct (bins_2d samples pts nb bounds x_lo y_lo x_hi y_hi N B) as (xg & yg & bins & E & LXG & LYG & V & A).
  fold n in LXG, LYG, V, A. fold dx in V, A. fold dy in V, A.
  destruct B as (MC & MR & NE & WX & WY & LX & LY & _).
  assert (DX : 0 < dx) by (apply spacing_pos; assumption). assert (DY : 0 < dy) by (apply spacing_pos; assumption).
  destruct (grid_ends xg n x_lo dx N2 LXG (fun j J => proj1 (V j J))) as (lx & fx & sx & EX1 & EX2 & EX3 & RX1 & RX2).
  destruct (grid_ends yg n y_lo dy N2 LYG (fun j J => proj2 (V j J))) as (ly & fy & sy & EY1 & EY2 & EY3 & RY1 & RY2).
  unfold gaussian_kde_2d. rewrite E. cbn [bind]. rewrite EX1. cbn [bind]. rewrite EX2. cbn [bind]. rewrite EY1. cbn [bind].
  rewrite EY2. cbn [bind]. rewrite EX3. cbn [bind]. rewrite EY3. cbn [bind].
  destruct (Req_EM_T h_x 0) as [Z|_]; [contradiction|]. destruct (Req_EM_T h_y 0) as [Z|_]; [contradiction|].
  rewrite RX1, RX2, RY1, RY2. pose proof (arange_length (n - 1) dx DX) as LKX. pose proof (arange_length (n - 1) dy DY) as LKY.
  set (kx := arange _ _ dx) in *. set (ky := arange _ _ dy) in *.
  set (ker := map (fun x => map (fun y => exp (- (1 / 2) / h_x ^ 2 * x ^ 2 + - (1 / 2) / h_y ^ 2 * y ^ 2)) ky) kx).
  assert (RK : rows_of (n - 1) ker).
  { apply Forall_forall. intros r I. apply in_map_iff in I. destruct I as (x & <- & _). rewrite map_length. exact LKY. }
  assert (NK : ker <> []) by (unfold ker; destruct kx; [cbn in LKX; lia|discriminate]).
  assert (PK : Forall (Forall (fun x => 0 < x)) ker).
  { apply Forall_forall. intros r I. apply in_map_iff in I. destruct I as (x & <- & _).
    apply Forall_forall. intros v I. apply in_map_iff in I. destruct I as (y & <- & _). apply exp_pos. }
  destruct (normalized_2d ker (n - 1) RK ltac:(lia) NK PK) as (NN & ONE). cbn zeta in *.
  set (s := quant_model.sum (map quant_model.sum ker)) in *. set (k' := map (map (fun k => k / s)) ker) in *.
  assert (RK' : rows_of (n - 1) k').
  { apply Forall_forall. intros r I. apply in_map_iff in I. destruct I as (x & <- & I). rewrite map_length.
    unfold rows_of in RK. rewrite Forall_forall in RK. apply RK, I. }
  assert (NK' : k' <> []) by (unfold k'; destruct ker; [congruence|discriminate]).
  assert (WK : width k' = (n - 1)%nat) by (apply width_rows; assumption).
  pose proof A as (LA & FA & _). assert (NA : bins <> []) by (destruct bins; [cbn in LA; lia|discriminate]).
  assert (WA : width bins = n) by (apply width_rows; assumption).
  assert (PA : Forall nonnegative bins) by (apply (nonneg_array _ _ _ _ A); intros; apply density2_ge0; assumption).
  pose proof (same_array bins k') as S. rewrite LA, WA in S.
  eexists _, _, _. split; [reflexivity|]. split; [apply S|]. split; [apply S|].
  split; [apply (nonneg_array _ _ _ _ S); intros; apply full_nonneg; assumption|].
  eapply Rle_trans; [apply same_mass; try assumption; [rewrite WA; exact FA|rewrite WK; exact RK'|lia|lia]|].
  rewrite ONE, Rmult_1_r, (total_array _ _ _ _ A). unfold dx, dy. rewrite density2_mass by assumption. apply Rle_refl.
Qed.
