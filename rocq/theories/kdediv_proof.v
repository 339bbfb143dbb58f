(** * Proofs on divergences in two dimensions. *)

From Coq Require Import List ZArith Arith Reals Bool Lia Lra.
Import ListNotations.
From Verif Require Import Py Py_proof hac_model quant_model quant_spec quant_proof kde_model kde_spec kde_proof kde_two kde_kl kde_cases
  kdediv_model kdediv_spec.
Open Scope py_scope.
Local Open Scope R_scope.

(** ** Integrals *)
Lemma trapz_scale c l dx : trapz (map (Rmult c) l) dx = c * trapz l dx.
Proof. induction l as [|a l IH]; [cbn; ring|]. destruct l as [|b l]; [cbn; ring|]. cbn [map] in *. rewrite !trapz_cons, IH. field. Qed.
Lemma trapz_step l dx : trapz l dx = dx * trapz l 1.
Proof. induction l as [|a l IH]; [cbn; ring|]. destruct l as [|b l]; [cbn; ring|]. rewrite !trapz_cons, IH. field. Qed.
Lemma trapz2_unit a i o : trapz2 a i o = i * o * trapz2 a 1 1.
Proof.
  unfold trapz2. rewrite trapz_step. rewrite (map_ext (fun r => trapz r i) (fun r => i * trapz r 1)) by (intros r; apply trapz_step).
  rewrite <- (map_map (fun r => trapz r 1) (Rmult i)), trapz_scale. ring.
Qed.
Lemma trapz2_swap a i o : trapz2 a i o = trapz2 a o i.
Proof. rewrite (trapz2_unit a i o), (trapz2_unit a o i). ring. Qed.
Lemma trapz2_integral a dx dy : a <> [] -> Forall (fun r => r <> []) a -> trapz2 a dy dx = integral_2d dx dy a.
Proof.
  intros N F. unfold trapz2, integral_2d. rewrite trapz_integral by (destruct a; [congruence|discriminate]). f_equal.
  induction F as [|r a H F IH]; [reflexivity|]. cbn [map]. rewrite trapz_integral by exact H. f_equal.
  destruct a; [reflexivity|]. apply IH. discriminate.
Qed.
Lemma trapz2_opp a i o : trapz2 (map (map Ropp) a) i o = - trapz2 a i o.
Proof.
  unfold trapz2. rewrite map_map, (map_ext (fun r => trapz (map Ropp r) i) (fun r => - trapz r i)) by (intros r; apply trapz_opp).
  rewrite <- (map_map (fun r => trapz r i) Ropp). apply trapz_opp.
Qed.
Lemma trapz_diff e dx : forall p q, length p = length q -> p <> [] ->
  trapz (map (fun pq => snd pq - fst pq + e) (combine p q)) dx = trapz q dx - trapz p dx + dx * (INR (length p) - 1) * e.
Proof.
  induction p as [|a p IH]; intros [|b q] L N; try discriminate; [congruence|]. destruct p as [|a' p], q as [|b' q]; try discriminate; [cbn; ring|].
  change (combine (a :: a' :: p) (b :: b' :: q)) with ((a, b) :: (a', b') :: combine p q). cbn [map fst snd].
  rewrite !trapz_cons. change ((b' - a' + e) :: map (fun pq => snd pq - fst pq + e) (combine p q)) with (map (fun pq => snd pq - fst pq + e) (combine (a' :: p) (b' :: q))).
  rewrite IH by (cbn in *; congruence || lia). change (length (a :: a' :: p)) with (S (length (a' :: p))). rewrite S_INR. field.
Qed.
Lemma trapz2_diff e i o m p q : length p = length q -> p <> [] -> (0 < m)%nat -> Forall (fun r => length r = m) p -> Forall (fun r => length r = m) q ->
  trapz2 (map2 (fun a b => b - a + e) p q) i o = trapz2 q i o - trapz2 p i o + (o * (INR (length p) - 1)) * (i * (INR m - 1)) * e.
Proof.
  intros L N M FP FQ. unfold trapz2, map2. rewrite map_map.
  set (c := i * (INR m - 1) * e).
  assert (E : map (fun x => trapz (map (fun xy => snd xy - fst xy + e) (combine (fst x) (snd x))) i) (combine p q) =
    map (fun pq => snd pq - fst pq + c) (combine (map (fun r => trapz r i) p) (map (fun r => trapz r i) q))).
  { clear N. revert q L FQ. induction FP as [|r p H FP IH]; intros [|s q] L FQ; try discriminate; [reflexivity|].
    inversion FQ as [|? ? H' FQ']; subst. cbn [combine map fst snd]. rewrite trapz_diff; [|congruence|destruct r; [cbn in M; lia|discriminate]].
    rewrite (IH q) by (cbn in L; congruence || lia || assumption). reflexivity. }
  rewrite E, trapz_diff by (rewrite ?map_length; congruence || (destruct p; [congruence|discriminate])). rewrite map_length. unfold c. ring.
Qed.
Lemma trapz2_le a b i o : 0 < i -> 0 < o -> Forall2 (Forall2 (fun x y => x <= y)) a b -> trapz2 a i o <= trapz2 b i o.
Proof. intros I O F. apply trapz_le; [exact O|]. induction F as [|r s a b H F IH]; cbn [map]; constructor; [apply trapz_le; assumption|exact IH]. Qed.
Lemma map2_le (f g : R -> R -> R) p q : (forall x y, 0 <= x -> 0 <= y -> f x y <= g x y) -> Forall nonnegative p -> Forall nonnegative q ->
  Forall2 (Forall2 (fun x y => x <= y)) (map2 f p q) (map2 g p q).
Proof.
  intros H FP. revert q. induction FP as [|r p A FP IH]; intros q FQ; [constructor|]. destruct FQ as [|s q B FQ]; [constructor|].
  unfold map2. cbn [combine map fst snd]. constructor; [|apply IH, FQ]. clear -H A B. revert s B.
  induction A as [|x r X A IH]; intros s B; [constructor|]. destruct B as [|y s Y B]; [constructor|]. cbn [combine map fst snd]. constructor; auto.
Qed.

(** ** The estimates *)
Lemma rows_in m pts b x_lo y_lo x_hi y_hi : rows_are m pts -> within x_lo x_hi (map fst pts) -> within y_lo y_hi (map snd pts) -> x_lo < x_hi -> y_lo < y_hi ->
  b = ((x_lo, y_lo), (x_hi, y_hi)) -> in_bounds_2d m pts (Some b) x_lo y_lo x_hi y_hi.
Proof. intros (A & B & C) WX WY LX LY ->. repeat (split; [assumption|]). reflexivity. Qed.
Lemma columns_of m pts f a b : rows_are m pts -> f (map fst pts) = Ok a -> f (map snd pts) = Ok b -> columns f m = Ok (a, b).
Proof.
  intros (A & B & _) E F. unfold columns. rewrite A. cbn [Nat.eqb negb]. rewrite B, !map_map.
  rewrite (map_ext (fun x : R * R => fst (pair_of [fst x; snd x])) fst) by reflexivity. rewrite (map_ext (fun x : R * R => snd (pair_of [fst x; snd x])) snd) by reflexivity.
  rewrite E. cbn [bind]. rewrite F. reflexivity.
Qed.
Lemma kde_2d_grid m pts h_x h_y nb fft b x_lo y_lo x_hi y_hi : (2 <= nb)%Z -> in_bounds_2d m pts b x_lo y_lo x_hi y_hi -> h_x <> 0 -> h_y <> 0 ->
  let n := Z.to_nat nb in let dx := spacing x_lo x_hi n in let dy := spacing y_lo y_hi n in
  exists xg yg kde, gaussian_kde_2d true m h_x h_y nb fft b = Ok (xg, yg, kde) /\ length xg = n /\ length yg = n /\
    (forall j, (j < n)%nat -> nth j xg 0 = point x_lo dx j /\ nth j yg 0 = point y_lo dy j) /\
    length kde = n /\ Forall (fun r => length r = n) kde /\ Forall nonnegative kde.
Proof.
  intros N B HX HY n dx dy. destruct (kde_2d m pts h_x h_y nb fft b _ _ _ _ N B HX HY) as (xg & yg & kde & E & L & F & P & _).
  destruct (bins_2d_all m pts nb b _ _ _ _ N B) as (xg' & yg' & bins & E' & LX & LY & V & _).
  exists xg, yg, kde. split; [exact E|]. unfold gaussian_kde_2d in E. rewrite E' in E. cbn [bind] in E.
  repeat match type of E with bind ?x _ = _ => destruct x; [cbn [bind] in E|discriminate E] end.
  destruct (Req_EM_T h_x 0); [discriminate|]. destruct (Req_EM_T h_y 0); [discriminate|]. injection E as <- <- _. auto 10.
Qed.

Lemma value_2d x y px py h_x h_y nb fft x_lo y_lo x_hi y_hi : (2 <= nb)%Z -> rows_are x px -> rows_are y py ->
  common_bounds_2d px py x_lo y_lo x_hi y_hi -> h_x <> 0 -> h_y <> 0 ->
  let n := Z.to_nat nb in let dx := spacing x_lo x_hi n in let dy := spacing y_lo y_hi n in
  let b := Some ((x_lo, y_lo), (x_hi, y_hi)) in
  exists xg yg p q v, gaussian_kde_2d true x h_x h_y nb fft b = Ok (xg, yg, p) /\ gaussian_kde_2d true y h_x h_y nb fft b = Ok (xg, yg, q) /\
    length xg = n /\ length yg = n /\ (forall j, (j < n)%nat -> nth j xg 0 = point x_lo dx j /\ nth j yg 0 = point y_lo dy j) /\
    kde_KL_divergence_2d true x y h_x h_y nb fft = Ok v /\ v = - integral_2d dx dy (divergence_terms_2d kde_model.EPSILON p q) /\
    v <= integral_2d dx dy q - integral_2d dx dy p + (x_hi - x_lo) * (y_hi - y_lo) * kde_model.EPSILON.
Proof.
  intros N RX RY (SX & GX & SY & GY & LX & LY) HX HY n dx dy b.
  assert (NX : px <> []) by apply RX. assert (NY : py <> []) by apply RY.
  assert (CX : common_bounds (map fst px) (map fst py) x_lo x_hi).
  { rewrite map_app in SX, GX. split; [destruct px; [congruence|discriminate]|]. split; [destruct py; [congruence|discriminate]|]. auto. }
  assert (CY : common_bounds (map snd px) (map snd py) y_lo y_hi).
  { rewrite map_app in SY, GY. split; [destruct px; [congruence|discriminate]|]. split; [destruct py; [congruence|discriminate]|]. auto. }
  destruct (common_in _ _ _ _ CX) as ((_ & WX1 & _) & (_ & WX2 & _) & a1 & b1 & c1 & d1 & EA1 & EB1 & EC1 & ED1 & M1 & X1).
  destruct (common_in _ _ _ _ CY) as ((_ & WY1 & _) & (_ & WY2 & _) & a2 & b2 & c2 & d2 & EA2 & EB2 & EC2 & ED2 & M2 & X2).
  destruct (kde_2d_grid x px h_x h_y nb fft b _ _ _ _ N (rows_in x px _ _ _ _ _ RX WX1 WY1 LX LY eq_refl) HX HY) as (xg & yg & p & E1 & L1 & L2 & V1 & LP & FP & PP).
  destruct (kde_2d_grid y py h_x h_y nb fft b _ _ _ _ N (rows_in y py _ _ _ _ _ RY WX2 WY2 LX LY eq_refl) HX HY) as (xg2 & yg2 & q & E2 & L3 & L4 & V2 & LQ & FQ & PQ).
  fold n dx dy in L1, L2, V1, LP, FP, L3, L4, V2, LQ, FQ. assert (N2 : (2 <= n)%nat) by (unfold n; lia).
  assert (xg2 = xg) as -> by (apply (nth_ext _ _ 0 0); [congruence|]; intros j J; rewrite (proj1 (V1 j ltac:(lia))), (proj1 (V2 j ltac:(lia))); reflexivity).
  assert (yg2 = yg) as -> by (apply (nth_ext _ _ 0 0); [congruence|]; intros j J; rewrite (proj2 (V1 j ltac:(lia))), (proj2 (V2 j ltac:(lia))); reflexivity).
  assert (LPQ : length p = length q) by congruence.
  assert (NP : p <> []) by (destruct p; [cbn in LP; lia|discriminate]). assert (NQ : q <> []) by (destruct q; [cbn in LQ; lia|discriminate]).
  assert (DX : 0 < dx) by (apply spacing_pos; assumption). assert (DY : 0 < dy) by (apply spacing_pos; assumption).
  set (f := fun a b : R => - a * ln ((a + kde_model.EPSILON) / (b + kde_model.EPSILON))).
  assert (NE : forall a, Forall (fun r : list R => length r = n) a -> Forall (fun r : list R => r <> []) a).
  { intros a F. eapply Forall_impl; [|exact F]. intros r H ->. cbn in H. lia. }
  exists xg, yg, p, q, (trapz2 (map2 f p q) dx dy). split; [exact E1|]. split; [exact E2|]. split; [exact L1|]. split; [exact L2|]. split; [exact V1|]. split; [|split].
  - unfold kde_KL_divergence_2d. rewrite (columns_of x px _ _ _ RX EA1 EA2), (columns_of y py _ _ _ RY EB1 EB2), (columns_of x px _ _ _ RX EC1 EC2), (columns_of y py _ _ _ RY ED1 ED2).
    cbn [bind fst snd]. rewrite M1, M2, X1, X2. fold b. rewrite E1, E2. cbn [bind].
    destruct (grid_ends xg n x_lo dx N2 L1 (fun j J => proj1 (V1 j J))) as (lx & fx & sx & _ & G1 & G2 & _ & R1).
    destruct (grid_ends yg n y_lo dy N2 L2 (fun j J => proj2 (V1 j J))) as (ly & fy & sy & _ & G3 & G4 & _ & R2).
    rewrite G2. cbn [bind]. rewrite G1. cbn [bind]. rewrite G4. cbn [bind]. rewrite G3. cbn [bind]. rewrite R1, R2. reflexivity.
  - rewrite trapz2_swap, <- trapz2_integral.
    + rewrite <- trapz2_opp. f_equal. unfold map2, divergence_terms_2d, divergence_terms. rewrite map_map. apply map_ext. intros rs. rewrite map_map. apply map_ext. intros xy. unfold f. ring.
    + unfold divergence_terms_2d. destruct p, q; congruence || discriminate.
    + unfold divergence_terms_2d. apply Forall_forall. intros r I. apply in_map_iff in I. destruct I as ((u & w) & <- & I). cbn [fst snd].
      pose proof (in_combine_l _ _ _ _ I) as IU. pose proof (in_combine_r _ _ _ _ I) as IW. pose proof (NE p FP) as G1. pose proof (NE q FQ) as G2.
      rewrite Forall_forall in G1, G2. specialize (G1 u IU). specialize (G2 w IW). unfold divergence_terms. destruct u, w; congruence || discriminate.
  - eapply Rle_trans; [apply (trapz2_le _ (map2 (fun a b => b - a + kde_model.EPSILON) p q) dx dy DX DY)|].
    { apply map2_le; [|exact PP|exact PQ]. intros u w U W. apply term_le; [exact U|exact W|apply eps_positive]. }
    rewrite (trapz2_diff _ dx dy n) by (assumption || lia). rewrite !(trapz2_swap _ dx dy), (trapz2_integral q), (trapz2_integral p) by auto. rewrite LP.
    assert (IN : INR n - 1 <> 0) by (pose proof (le_INR 2 n N2) as X; cbn in X; lra).
    replace (dy * (INR n - 1)) with (y_hi - y_lo) by (unfold dy, spacing; field; exact IN). replace (dx * (INR n - 1)) with (x_hi - x_lo) by (unfold dx, spacing; field; exact IN).
    apply Req_le. ring.
Qed.

Lemma integral_0 dx l : Forall (fun x => x = 0) l -> integral dx l = 0.
Proof.
  intros F. assert (A : add_up l = 0) by (induction F as [|x l -> _ IH]; cbn [add_up]; [reflexivity|rewrite IH; ring]).
  assert (B : forall i, nth i l 0 = 0) by (intros i; destruct (nth_in_or_default i l 0) as [I| ->]; [rewrite Forall_forall in F; apply F, I|reflexivity]).
  unfold integral. rewrite A, !B. field.
Qed.
Lemma same_2d x px h_x h_y nb fft x_lo y_lo x_hi y_hi : (2 <= nb)%Z -> in_bounds_2d x px None x_lo y_lo x_hi y_hi -> h_x <> 0 -> h_y <> 0 ->
  kde_KL_divergence_2d true x x h_x h_y nb fft = Ok 0.
Proof.
  intros N (MC & MR & NE & WX & WY & LX & LY & SX & GX & SY & GY) HX HY.
  assert (C : common_bounds_2d px px x_lo y_lo x_hi y_hi).
  { unfold common_bounds_2d. rewrite !map_app. destruct SX, GX, SY, GY. unfold smallest, largest. repeat rewrite Forall_app. repeat rewrite in_app_iff. tauto. }
  destruct (value_2d x x px px h_x h_y nb fft _ _ _ _ N (conj MC (conj MR NE)) (conj MC (conj MR NE)) C HX HY) as (xg & yg & p & q & v & E1 & E2 & _ & _ & _ & V & EV & _).
  rewrite V. f_equal. rewrite E1 in E2. injection E2 as <-. rewrite EV. unfold integral_2d. rewrite integral_0; [ring|].
  apply Forall_forall. intros z I. apply in_map_iff in I. destruct I as (r & <- & I). unfold divergence_terms_2d in I. apply in_map_iff in I. destruct I as ((u & w) & <- & I).
  assert (u = w) as ->. { clear -I. induction p as [|a p IH]; [destruct I|]. destruct I as [E|I]; [congruence|auto]. }
  apply integral_0. unfold divergence_terms. apply Forall_forall. intros t J. apply in_map_iff in J. destruct J as ((a & c) & <- & J). cbn [fst snd].
  assert (a = c /\ In (a, c) (combine w w)) as (-> & J').
  { split; [|exact J]. clear -J. induction w as [|z w IH]; [destruct J|]. destruct J as [E|J]; [congruence|auto]. }
  clear. destruct (Req_dec (c + kde_model.EPSILON) 0) as [->|NZ].
  - unfold Rdiv. rewrite Rmult_0_l. unfold ln. destruct (Rlt_dec 0 0) as [H|_]; [exfalso; lra|]. ring.
  - unfold Rdiv. rewrite Rinv_r by exact NZ. rewrite ln_1. ring.
Qed.

(** ** Failures *)
Lemma two_index x h_x h_y nb fft b r : mrows x <> [] -> gaussian_kde_2d false x h_x h_y nb fft b <> Ok r.
Proof.
  intros N E. unfold gaussian_kde_2d in E. destruct (get_bins_2d false x nb b) as [g|e] eqn:G; [|discriminate]. exact (bins_2d_index x nb b g N G).
Qed.
Lemma columns_nil f m : mrows m = [] -> f [] = Err ValueError -> columns f m = Err ValueError.
Proof. intros E F. unfold columns. destruct (negb _); [reflexivity|]. rewrite E. cbn [map]. rewrite F. reflexivity. Qed.
Lemma columns_ok f m : mcols m = 2%nat -> (forall l, l <> [] -> exists a, f l = Ok a) -> mrows m <> [] -> exists ab, columns f m = Ok ab.
Proof.
  intros C H N. unfold columns. rewrite C. cbn [Nat.eqb negb]. assert (M : forall g : list R -> R, map g (mrows m) <> []) by (intros g; destruct (mrows m); [congruence|discriminate]).
  destruct (H _ (M (fun r => fst (pair_of r)))) as (a & ->). cbn [bind]. destruct (H _ (M (fun r => snd (pair_of r)))) as (b & ->). cbn [bind]. eauto.
Qed.
Lemma np_min_ok l : l <> [] -> exists a, np_min l = Ok a.
Proof. destruct l; [congruence|]. intros _. eexists. reflexivity. Qed.
Lemma np_max_ok l : l <> [] -> exists a, np_max l = Ok a.
Proof. destruct l; [congruence|]. intros _. eexists. reflexivity. Qed.
Lemma errors_2d float_index x y h_x h_y nb fft :
  (nb < 2)%Z \/ mcols x <> 2%nat \/ mcols y <> 2%nat \/ mrows x = [] \/ mrows y = [] ->
  kde_KL_divergence_2d float_index x y h_x h_y nb fft = Err ValueError.
Proof.
  intros H. unfold kde_KL_divergence_2d.
  destruct (Nat.eq_dec (mcols x) 2) as [CX|CX]; [|unfold columns at 1; apply Nat.eqb_neq in CX; rewrite CX; reflexivity].
  destruct (mrows x) as [|r x'] eqn:EX; [rewrite columns_nil by (exact EX || reflexivity); reflexivity|].
  destruct (columns_ok np_min x CX np_min_ok ltac:(congruence)) as (a & ->). cbn [bind].
  destruct (Nat.eq_dec (mcols y) 2) as [CY|CY]; [|unfold columns at 1; apply Nat.eqb_neq in CY; rewrite CY; reflexivity].
  destruct (mrows y) as [|s y'] eqn:EY; [rewrite columns_nil by (exact EY || reflexivity); reflexivity|].
  destruct (columns_ok np_min y CY np_min_ok ltac:(congruence)) as (b & ->). cbn [bind].
  destruct (columns_ok np_max x CX np_max_ok ltac:(congruence)) as (c & ->). cbn [bind].
  destruct (columns_ok np_max y CY np_max_ok ltac:(congruence)) as (d & ->). cbn [bind].
  destruct H as [H|[H|[H|[H|H]]]]; try congruence. unfold gaussian_kde_2d at 1. rewrite bins_2d_errors by (left; exact H). reflexivity.
Qed.
Lemma recent_2d x y h_x h_y nb fft r : kde_KL_divergence_2d false x y h_x h_y nb fft <> Ok r.
Proof.
  intros E. destruct (mrows x) as [|a l] eqn:EX; [rewrite errors_2d in E by auto; discriminate|]. unfold kde_KL_divergence_2d in E.
  repeat match type of E with bind ?c _ = _ => destruct c eqn:?; [cbn [bind] in E|discriminate E] end.
  match goal with H : gaussian_kde_2d false x _ _ _ _ _ = Ok _ |- _ => revert H; apply two_index; congruence end.
Qed.
Lemma entropy_call float_index samples h nb fft : kde_entropy_gaussian_2d float_index samples h nb fft = Err TypeError.
Proof. reflexivity. Qed.

(** ** A negative number *)
Lemma two_bins_2d m pts h_x h_y fft b x_lo y_lo x_hi y_hi : in_bounds_2d m pts b x_lo y_lo x_hi y_hi -> h_x <> 0 -> h_y <> 0 ->
  let d := density_2d x_lo y_lo (x_hi - x_lo) (y_hi - y_lo) pts in
  exists xg yg, gaussian_kde_2d true m h_x h_y 2 fft b = Ok (xg, yg, [[d 0%nat 0%nat; d 0%nat 1%nat]; [d 1%nat 0%nat; d 1%nat 1%nat]]).
Proof.
  intros B HX HY d. destruct (bins_2d_all m pts 2 b _ _ _ _ ltac:(lia) B) as (xg & yg & bins & E & LXG & LYG & V & A & _).
  change (Z.to_nat 2) with 2%nat in *.
  assert (SPX : spacing x_lo x_hi 2 = x_hi - x_lo) by (unfold spacing; cbn; field). assert (SPY : spacing y_lo y_hi 2 = y_hi - y_lo) by (unfold spacing; cbn; field).
  rewrite SPX, SPY in *. fold d in A. destruct B as (_ & _ & _ & _ & _ & LX & LY & _).
  assert (DX : 0 < x_hi - x_lo) by lra. assert (DY : 0 < y_hi - y_lo) by lra.
  destruct (grid_ends xg 2 x_lo _ ltac:(lia) LXG (fun j J => proj1 (V j J))) as (lx & fx & sx & EX1 & EX2 & EX3 & RX1 & RX2).
  destruct (grid_ends yg 2 y_lo _ ltac:(lia) LYG (fun j J => proj2 (V j J))) as (ly & fy & sy & EY1 & EY2 & EY3 & RY1 & RY2).
  exists xg, yg. unfold gaussian_kde_2d. rewrite E. cbn [bind]. rewrite EX1. cbn [bind]. rewrite EX2. cbn [bind]. rewrite EY1. cbn [bind].
  rewrite EY2. cbn [bind]. rewrite EX3. cbn [bind]. rewrite EY3. cbn [bind].
  destruct (Req_EM_T h_x 0) as [Z|_]; [contradiction|]. destruct (Req_EM_T h_y 0) as [Z|_]; [contradiction|].
  rewrite RX1, RX2, RY1, RY2. pose proof (arange_length (2 - 1) _ DX) as LKX. pose proof (arange_length (2 - 1) _ DY) as LKY.
  set (kx := arange _ _ (x_hi - x_lo)) in *. set (ky := arange _ _ (y_hi - y_lo)) in *.
  destruct kx as [|kx1 [|]]; try (cbn in LKX; lia). destruct ky as [|ky1 [|]]; try (cbn in LKY; lia). cbn [map].
  set (e := exp _). assert (EP : 0 < e) by apply exp_pos.
  destruct A as (LA & FA & VA). destruct bins as [|r1 [|r2 [|]]]; try (cbn in LA; lia). inversion FA as [|? ? F1 FA']; subst. inversion FA' as [|? ? F2 _]; subst.
  destruct r1 as [|a1 [|a2 [|]]]; try (cbn in F1; lia). destruct r2 as [|a3 [|a4 [|]]]; try (cbn in F2; lia).
  rewrite <- (VA 0%nat 0%nat), <- (VA 0%nat 1%nat), <- (VA 1%nat 0%nat), <- (VA 1%nat 1%nat) by lia. cbn [nth].
  cbv [convolve_same full_2d shifted quant_model.sum width]. cbn [hd length Nat.add Nat.sub Nat.div Nat.divmod fst seq map Nat.ltb Nat.leb nth fold_right].
  assert (e + 0 + 0 <> 0) by lra. repeat f_equal; field; lra.
Qed.
Lemma share_1 x : share 1 x x = 1.
Proof. unfold share. replace (x - x) with 0 by ring. rewrite Rabs_R0. rewrite Rmax_right; lra. Qed.
Lemma share_01 : share 1 0 1 = 0.
Proof. unfold share. replace (1 - 0) with 1 by ring. rewrite Rabs_R1. rewrite Rmax_left; lra. Qed.
Lemma share_10 : share 1 1 0 = 0.
Proof. unfold share. replace (0 - 1) with (- (1)) by ring. rewrite Rabs_Ropp, Rabs_R1. rewrite Rmax_left; lra. Qed.
Lemma ex_common : common_bounds_2d [(0, 0)] [(1, 1)] 0 0 1 1.
Proof. unfold common_bounds_2d, smallest, largest. cbn. repeat split; try tauto; try lra; repeat constructor; lra. Qed.
Lemma negative_2d : exists x y h_x h_y nb fft v, kde_KL_divergence_2d true x y h_x h_y nb fft = Ok v /\ v < -1.
Proof.
  set (x := Mat 2 [[0; 0]]). set (y := Mat 2 [[1; 1]]).
  assert (RX : rows_are x [(0, 0)]) by (split; [reflexivity|]; split; [reflexivity|discriminate]).
  assert (RY : rows_are y [(1, 1)]) by (split; [reflexivity|]; split; [reflexivity|discriminate]).
  destruct (value_2d x y _ _ 1 1 2 true 0 0 1 1 ltac:(lia) RX RY ex_common ltac:(lra) ltac:(lra)) as (xg & yg & p & q & v & E1 & E2 & _ & _ & _ & V & EV & _).
  destruct (two_bins_2d x [(0, 0)] 1 1 true (Some ((0, 0), (1, 1))) 0 0 1 1) as (xg1 & yg1 & F1); [|lra|lra|].
  { apply rows_in; [exact RX| | |lra|lra|reflexivity]; repeat constructor; cbn; lra. }
  destruct (two_bins_2d y [(1, 1)] 1 1 true (Some ((0, 0), (1, 1))) 0 0 1 1) as (xg2 & yg2 & F2); [|lra|lra|].
  { apply rows_in; [exact RY| | |lra|lra|reflexivity]; repeat constructor; cbn; lra. }
  rewrite F1 in E1. rewrite F2 in E2. injection E1 as _ _ <-. injection E2 as _ _ <-.
  exists x, y, 1, 1, 2%Z, true, v. split; [exact V|]. rewrite EV. clear.
  assert (P0 : point 0 (1 - 0) 0 = 0) by (unfold point; cbn; ring). assert (P1 : point 0 (1 - 0) 1 = 1) by (unfold point; cbn; ring).
  unfold density_2d. rewrite P0, P1. cbn [map fst snd add_up length]. replace (1 - 0) with 1 by ring. rewrite !share_1, share_01, share_10. change (INR 1) with 1.
  replace ((1 * 1 + 0) / (1 * 1 * 1)) with 1 by field. replace ((1 * 0 + 0) / (1 * 1 * 1)) with 0 by field. replace ((0 * 1 + 0) / (1 * 1 * 1)) with 0 by field. replace ((0 * 0 + 0) / (1 * 1 * 1)) with 0 by field.
  unfold integral_2d, divergence_terms_2d, divergence_terms, integral. cbn [combine map fst snd add_up length nth Nat.sub].
  change (Z.to_nat 2) with 2%nat. unfold spacing. cbn [INR].
  set (e := kde_model.EPSILON). assert (E : 0 < e) by apply eps_positive.
  set (L := ln ((1 + e) / (0 + e))). cbn. enough (4 < L) by lra. unfold L.
  rewrite <- (ln_exp 4). apply ln_increasing; [apply exp_pos|].
  assert (EXP : exp 4 < 100).
  { replace 4 with (1 + 1 + (1 + 1)) by ring. rewrite !exp_plus. pose proof exp_le_3 as X. pose proof (exp_pos 1) as Y.
    assert (exp 1 * exp 1 <= 9) by (replace 9 with (3 * 3) by ring; apply Rmult_le_compat; lra).
    assert (0 <= exp 1 * exp 1) by (apply Rmult_le_pos; lra).
    apply Rle_lt_trans with (9 * 9); [apply Rmult_le_compat; assumption|]. lra. }
  enough (100 <= (1 + e) / (0 + e)) by lra. apply Rmult_le_reg_r with e; [exact E|].
  replace ((1 + e) / (0 + e) * e) with (1 + e) by (field; lra).
  assert (e <= / 100); [|lra]. unfold e, kde_model.EPSILON. apply Rinv_le_contravar; [lra|]. apply IZR_le. lia.
Qed.
