(** * Proofs on the values of the density estimates. *)

From Coq Require Import List ZArith Reals Bool Lia Lra.
Import ListNotations.
From Verif Require Import Py Py_proof hac_model quant_model quant_spec kde_model kde_spec kde_proof kde_two kdeval_spec.
Local Open Scope R_scope.

Lemma series_ext n f g : (forall i, (i < n)%nat -> f i = g i) -> series n f = series n g.
Proof. intros H. unfold series. f_equal. apply map_ext_in. intros i I. apply in_seq in I. apply H. lia. Qed.
Lemma series_sum n f : series n f = sum_n f n.
Proof. reflexivity. Qed.

(** Points of the kernel. *)
Lemma arange_nth n delta q : 0 < delta -> (q < n)%nat ->
  nth q (arange (- (INR n * delta) / 2) (INR n * delta / 2) delta) 0 = (INR q - INR n / 2) * delta.
Proof.
  intros D Q. pose proof (arange_length n delta D) as L. unfold arange in *. rewrite map_length, seq_length in L.
  rewrite nth_map_seq0 by lia. field.
Qed.
Lemma kernel_nth h n delta q : 0 < delta -> h <> 0 -> (q < n)%nat ->
  nth q (kernel h (INR n * delta) delta) 0 = bell h ((INR q - INR n / 2) * delta).
Proof.
  intros D H Q. unfold kernel.
  rewrite (nth_indep _ 0 (exp (- (1 / 2) / h ^ 2 * 0 ^ 2))) by (rewrite map_length, arange_length; assumption).
  rewrite (map_nth (fun x => exp (- (1 / 2) / h ^ 2 * x ^ 2))), arange_nth by assumption.
  unfold bell. f_equal. field. exact H.
Qed.
Lemma kernel_total h n delta : 0 < delta -> h <> 0 ->
  quant_model.sum (kernel h (INR n * delta) delta) = curve_total h delta n.
Proof.
  intros D H. unfold curve_total, series.
  change quant_model.sum with add_up. f_equal.
  apply (nth_ext _ _ 0 0).
  - unfold kernel. rewrite !map_length, arange_length, seq_length by exact D. reflexivity.
  - unfold kernel at 1. rewrite map_length, arange_length by exact D. intros q Q.
    rewrite kernel_nth, nth_map_seq0 by assumption. reflexivity.
Qed.

Lemma values_1d xs h nb fft bounds lo hi : (2 <= nb)%Z -> in_bounds xs bounds lo hi -> h <> 0 ->
  let n := Z.to_nat nb in let delta := spacing lo hi n in
  exists g kde, gaussian_kde_1d true xs h nb fft bounds = Ok (g, kde) /\ length kde = (2 * n - 2)%nat /\
    forall t, (t < 2 * n - 2)%nat -> nth t kde 0 = smooth_1d h delta (n - 1) n (density_1d lo delta xs) t.
Proof.
  intros N B H n delta. assert (N2 : (2 <= n)%nat) by (unfold n; lia).
  assert (D : 0 < delta) by (apply spacing_pos; [apply B|exact N2]).
  destruct (bins_1d_all xs nb bounds lo hi N B) as (g & bins & E & LG & LB & V & P & M & _). fold n in LG, LB, V, M. fold delta in V, M.
  destruct (grid_ends g n lo delta N2 LG (fun j J => proj1 (V j J))) as (last & first & second & E1 & E2 & E3 & R1 & R2).
  unfold gaussian_kde_1d. rewrite E. cbn [bind]. rewrite E1. cbn [bind]. rewrite E2. cbn [bind]. rewrite E3. cbn [bind].
  destruct (Req_EM_T h 0) as [Z|_]; [contradiction|]. rewrite R1, R2. cbn zeta.
  rewrite kernel_total by assumption. set (ker := kernel h (INR (n - 1) * delta) delta).
  assert (LK : length ker = (n - 1)%nat) by (unfold ker, kernel; rewrite map_length; apply arange_length, D).
  eexists _, _. split; [reflexivity|].
  assert (LC : forall c, length (convolve bins (map (fun k => k / c) ker)) = (2 * n - 2)%nat)
    by (intros c; rewrite convolve_length, map_length, LB, LK; lia).
  split; [apply LC|]. intros t T. unfold convolve.
  rewrite map_length, LB, LK, nth_map_seq0 by lia. rewrite sum_seq. unfold smooth_1d. rewrite series_sum.
  apply sum_ext. intros j J. destruct (V j J) as [_ ->]. unfold shifted.
  destruct (Nat.leb_spec j t) as [A|A]; cbn [andb].
  - replace (t <? j)%nat with false by (symmetry; apply Nat.ltb_ge; exact A).
    destruct (Nat.ltb_spec t (j + (n - 1))) as [C|C].
    + f_equal. rewrite (nth_indep _ 0 (0 / curve_total h delta (n - 1))) by (rewrite map_length; lia).
      rewrite (map_nth (fun k => k / curve_total h delta (n - 1))). unfold ker.
      rewrite kernel_nth by (try assumption; lia). rewrite minus_INR by exact A. reflexivity.
    + rewrite nth_overflow by (rewrite map_length; lia). ring.
  - replace (t <? j)%nat with true by (symmetry; apply Nat.ltb_lt; exact A). ring.
Qed.

Lemma series_scale n c f : series n (fun i => c * f i) = c * series n f.
Proof. rewrite !series_sum. apply sum_scale. Qed.

Lemma late_offset m : (1 <= m)%nat -> INR m / 2 - INR ((m - 1) / 2) = late m.
Proof.
  intros L. unfold late. destruct (Nat.even m) eqn:E.
  - apply Nat.even_spec in E. destruct E as (c & ->).
    replace ((2 * c - 1) / 2)%nat with (c - 1)%nat.
    + rewrite mult_INR, minus_INR by lia. cbn [INR]. field.
    + apply (Nat.div_unique _ 2 _ 1); lia.
  - assert (O : Nat.odd m = true) by (rewrite <- Nat.negb_even, E; reflexivity).
    apply Nat.odd_spec in O. destruct O as (c & ->).
    replace ((2 * c + 1 - 1) / 2)%nat with c.
    + rewrite plus_INR, mult_INR. cbn [INR]. field.
    + apply (Nat.div_unique _ 2 _ 0); lia.
Qed.

Lemma exp_bells h_x h_y x y : h_x <> 0 -> h_y <> 0 ->
  exp (- (1 / 2) / h_x ^ 2 * x ^ 2 + - (1 / 2) / h_y ^ 2 * y ^ 2) = bell h_x x * bell h_y y.
Proof. intros A B. unfold bell. rewrite <- exp_plus. f_equal. field. auto. Qed.

Lemma bell_pos h x : 0 < bell h x.
Proof. apply exp_pos. Qed.
Lemma series_pos n f : (0 < n)%nat -> (forall i, 0 < f i) -> 0 < series n f.
Proof.
  intros L P. destruct n as [|n]; [lia|]. rewrite series_sum. rewrite sum_S.
  pose proof (sum_ge0 f n (fun j _ => Rlt_le _ _ (P j))). specialize (P n). lra.
Qed.
Lemma curve_pos h delta m : (0 < m)%nat -> 0 < curve_total h delta m.
Proof. intros M. apply series_pos; [exact M|]. intros i. apply bell_pos. Qed.

Lemma values_2d samples pts h_x h_y nb fft bounds x_lo y_lo x_hi y_hi : (2 <= nb)%Z ->
  in_bounds_2d samples pts bounds x_lo y_lo x_hi y_hi -> h_x <> 0 -> h_y <> 0 ->
  let n := Z.to_nat nb in let dx := spacing x_lo x_hi n in let dy := spacing y_lo y_hi n in
  exists xg yg kde, gaussian_kde_2d true samples h_x h_y nb fft bounds = Ok (xg, yg, kde) /\
    length xg = n /\ length yg = n /\
    (forall j, (j < n)%nat -> nth j xg 0 = point x_lo dx j /\ nth j yg 0 = point y_lo dy j) /\
    array_2d n n kde (smooth_2d h_x h_y dx dy (n - 1) n (density_2d x_lo y_lo dx dy pts)).
Proof.
  intros N B HX HY n dx dy. assert (N2 : (2 <= n)%nat) by (unfold n; lia).
  destruct (bins_2d samples pts nb bounds x_lo y_lo x_hi y_hi N B) as (xg & yg & bins & E & LXG & LYG & V & A).
  fold n in LXG, LYG, V, A. fold dx in V, A. fold dy in V, A.
  destruct B as (MC & MR & NE & WX & WY & LX & LY & _).
  assert (DX : 0 < dx) by (apply spacing_pos; assumption). assert (DY : 0 < dy) by (apply spacing_pos; assumption).
  destruct (grid_ends xg n x_lo dx N2 LXG (fun j J => proj1 (V j J))) as (lx & fx & sx & EX1 & EX2 & EX3 & RX1 & RX2).
  destruct (grid_ends yg n y_lo dy N2 LYG (fun j J => proj2 (V j J))) as (ly & fy & sy & EY1 & EY2 & EY3 & RY1 & RY2).
  unfold gaussian_kde_2d. rewrite E. cbn [bind]. rewrite EX1. cbn [bind]. rewrite EX2. cbn [bind]. rewrite EY1. cbn [bind].
  rewrite EY2. cbn [bind]. rewrite EX3. cbn [bind]. rewrite EY3. cbn [bind].
  destruct (Req_EM_T h_x 0) as [Z|_]; [contradiction|]. destruct (Req_EM_T h_y 0) as [Z|_]; [contradiction|].
  rewrite RX1, RX2, RY1, RY2. cbn zeta.
  pose proof (arange_length (n - 1) dx DX) as LKX. pose proof (arange_length (n - 1) dy DY) as LKY.
  pose proof (fun q => arange_nth (n - 1) dx q DX) as NX. pose proof (fun q => arange_nth (n - 1) dy q DY) as NY.
  set (kx := arange _ _ dx) in *. set (ky := arange _ _ dy) in *.
  set (ker := map (fun x => map (fun y => exp (- (1 / 2) / h_x ^ 2 * x ^ 2 + - (1 / 2) / h_y ^ 2 * y ^ 2)) ky) kx).
  assert (LK : length ker = (n - 1)%nat) by (unfold ker; rewrite map_length; exact LKX).
  assert (RK : rows_of (n - 1) ker).
  { apply Forall_forall. intros r I. apply in_map_iff in I. destruct I as (x & <- & _). rewrite map_length. exact LKY. }
  assert (VK : forall p q, (p < n - 1)%nat -> (q < n - 1)%nat -> nth q (nth p ker []) 0 =
    bell h_x ((INR p - INR (n - 1) / 2) * dx) * bell h_y ((INR q - INR (n - 1) / 2) * dy)).
  { intros p q Lp Lq. unfold ker.
    set (F := fun x => map (fun y => exp (- (1 / 2) / h_x ^ 2 * x ^ 2 + - (1 / 2) / h_y ^ 2 * y ^ 2)) ky).
    rewrite (nth_indep _ [] (F 0)) by (rewrite map_length, LKX; exact Lp). rewrite (map_nth F), NX by exact Lp.
    unfold F. set (G := fun y => exp (_ + - (1 / 2) / h_y ^ 2 * y ^ 2)).
    rewrite (nth_indep _ 0 (G 0)) by (rewrite map_length, LKY; exact Lq). rewrite (map_nth G), NY by exact Lq.
    unfold G. apply exp_bells; assumption. }
  set (s := quant_model.sum (map quant_model.sum ker)).
  assert (ES : s = curve_total h_x dx (n - 1) * curve_total h_y dy (n - 1)).
  { unfold s. change quant_model.sum with add_up. change (add_up (map add_up ker)) with (total ker).
    rewrite (total_array (n - 1) (n - 1) ker (fun p q => bell h_x ((INR p - INR (n - 1) / 2) * dx) * bell h_y ((INR q - INR (n - 1) / 2) * dy))).
    - rewrite (sum_ext _ (fun p => curve_total h_y dy (n - 1) * bell h_x ((INR p - INR (n - 1) / 2) * dx))).
      + rewrite sum_scale. unfold curve_total at 2. rewrite series_sum. ring.
      + intros p _. rewrite sum_scale. unfold curve_total. rewrite series_sum. ring.
    - split; [exact LK|]. split; [exact RK|]. exact VK. }
  assert (CX : 0 < curve_total h_x dx (n - 1)) by (apply curve_pos; lia).
  assert (CY : 0 < curve_total h_y dy (n - 1)) by (apply curve_pos; lia).
  set (k' := map (map (fun k => k / s)) ker).
  assert (LK' : length k' = (n - 1)%nat) by (unfold k'; rewrite map_length; exact LK).
  assert (VK' : forall p q, (p < n - 1)%nat -> (q < n - 1)%nat -> nth q (nth p k' []) 0 = nth q (nth p ker []) 0 / s).
  { intros p q Lp Lq. unfold k'. change (@nil R) with (map (fun k => k / s) []) at 1. rewrite map_nth.
    rewrite (nth_indep _ 0 (0 / s)) by (rewrite map_length, (rows_nth (n - 1) ker p RK) by lia; exact Lq).
    rewrite (map_nth (fun k => k / s)). reflexivity. }
  assert (RK' : rows_of (n - 1) k').
  { apply Forall_forall. intros r I. apply in_map_iff in I. destruct I as (x & <- & I). rewrite map_length.
    unfold rows_of in RK. rewrite Forall_forall in RK. apply RK, I. }
  assert (NK' : k' <> []) by (destruct k'; [cbn in LK'; lia|discriminate]).
  assert (WK : width k' = (n - 1)%nat) by (apply width_rows; assumption).
  destruct A as (LA & FA & VA). assert (NA : bins <> []) by (destruct bins; [cbn in LA; lia|discriminate]).
  assert (WA : width bins = n) by (apply width_rows; assumption).
  pose proof (same_array bins k') as (S1 & S2 & S3). rewrite LA in S1, S3. rewrite WA in S2, S3.
  eexists _, _, _. split; [reflexivity|]. split; [exact LXG|]. split; [exact LYG|]. split; [exact V|].
  split; [exact S1|]. split; [exact S2|]. intros a b La Lb. rewrite S3 by assumption.
  rewrite full_value, LA, WA, WK, LK'. unfold smooth_2d. rewrite series_sum. apply sum_ext. intros i I.
  rewrite series_sum. apply sum_ext. intros j J. rewrite VA by assumption.
  unfold reached. set (o := ((n - 1 - 1) / 2)%nat).
  assert (OFF : INR (n - 1) / 2 - INR o = late (n - 1)) by (apply late_offset; lia).
  destruct (Nat.leb_spec i (a + o)) as [A1|A1]; cbn [andb].
  2:{ replace (a + o <? i)%nat with true by (symmetry; apply Nat.ltb_lt; exact A1). ring. }
  replace (a + o <? i)%nat with false by (symmetry; apply Nat.ltb_ge; exact A1).
  unfold shifted. destruct (Nat.leb_spec j (b + o)) as [B1|B1]; cbn [andb].
  2:{ rewrite andb_false_r. replace (b + o <? j)%nat with true by (symmetry; apply Nat.ltb_lt; exact B1). ring. }
  replace (b + o <? j)%nat with false by (symmetry; apply Nat.ltb_ge; exact B1).
  destruct (Nat.ltb_spec (a + o) (i + (n - 1))) as [A2|A2]; cbn [andb].
  2:{ rewrite (nth_overflow k') by (rewrite LK'; lia). rewrite nth_overflow by (cbn; lia). ring. }
  destruct (Nat.ltb_spec (b + o) (j + (n - 1))) as [B2|B2].
  2:{ rewrite (nth_overflow (nth _ k' _)) by (rewrite (rows_nth (n - 1) k' _ RK') by lia; lia). ring. }
  rewrite VK', VK, ES by lia. rewrite (minus_INR (a + o) i A1), (minus_INR (b + o) j B1). rewrite !plus_INR.
  replace (INR a + INR o - INR i - INR (n - 1) / 2) with (INR a - INR i - late (n - 1)) by (rewrite <- OFF; ring).
  replace (INR b + INR o - INR j - INR (n - 1) / 2) with (INR b - INR j - late (n - 1)) by (rewrite <- OFF; ring).
  f_equal. field. split; lra.
Qed.
