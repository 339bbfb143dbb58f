(** * Lemmas on divergences estimated from samples. *)

From Coq Require Import List ZArith Arith Reals Bool Lia Lra.
Import ListNotations.
From Verif Require Import Py Py_proof hac_model quant_model quant_spec quant_proof kde_model kde_spec kde_proof kde_two.
Open Scope py_scope.
Local Open Scope R_scope.

Lemma trapz_cons a b l dx : trapz (a :: b :: l) dx = dx * (a + b) / 2 + trapz (b :: l) dx.
Proof. reflexivity. Qed.
Lemma trapz_integral y dx : y <> [] -> trapz y dx = integral dx y.
Proof.
  intros N. induction y as [|a y IH]; [congruence|]. destruct y as [|b y]; [unfold integral; cbn; field|].
  rewrite trapz_cons, IH by discriminate. unfold integral. cbn [add_up length nth].
  replace (S (length y) - 1)%nat with (length y) by lia. replace (S (S (length y)) - 1)%nat with (S (length y)) by lia.
  cbn [nth]. field.
Qed.

Lemma trapz_opp y dx : trapz (map Ropp y) dx = - trapz y dx.
Proof.
  induction y as [|a y IH]; [cbn; ring|]. destruct y as [|b y]; [cbn; ring|]. cbn [map] in *. rewrite !trapz_cons, IH. field.
Qed.
Lemma trapz_le y z dx : 0 < dx -> Forall2 (fun a b => a <= b) y z -> trapz y dx <= trapz z dx.
Proof.
  intros D F. induction F as [|a b y z H F IH]; [apply Rle_refl|]. destruct F as [|a' b' y z H' F]; [apply Rle_refl|].
  rewrite !trapz_cons. apply Rplus_le_compat; [|exact IH]. unfold Rdiv. apply Rmult_le_compat_r; [lra|]. apply Rmult_le_compat_l; lra.
Qed.

Lemma eps_positive : 0 < kde_model.EPSILON.
Proof. unfold kde_model.EPSILON. apply Rinv_0_lt_compat. apply IZR_lt. reflexivity. Qed.

Lemma ln_le t : 0 < t -> ln t <= t - 1.
Proof.
  intros T. destruct (Rle_lt_dec (ln t) (t - 1)) as [|L]; [assumption|exfalso].
  pose proof (exp_ineq1_le (ln t)) as H. rewrite exp_ln in H by exact T. lra.
Qed.

Lemma term_le p q e : 0 <= p -> 0 <= q -> 0 < e -> - p * ln ((p + e) / (q + e)) <= (q - p) + e.
Proof.
  intros P Q E. replace (ln ((p + e) / (q + e))) with (- ln ((q + e) / (p + e))).
  2:{ rewrite <- ln_Rinv by (apply Rdiv_lt_0_compat; lra). f_equal. field. split; lra. }
  pose proof (ln_le ((q + e) / (p + e)) ltac:(apply Rdiv_lt_0_compat; lra)) as L.
  apply Rle_trans with (p * ((q + e) / (p + e) - 1)).
  - replace (- p * - ln ((q + e) / (p + e))) with (p * ln ((q + e) / (p + e))) by ring. apply Rmult_le_compat_l; assumption.
  - replace (p * ((q + e) / (p + e) - 1)) with ((q - p) + e * ((p - q) / (p + e))) by (field; lra).
    apply Rplus_le_compat_l. apply Rle_trans with (e * 1); [|lra]. apply Rmult_le_compat_l; [lra|].
    apply Rmult_le_reg_r with (p + e); [lra|]. replace ((p - q) / (p + e) * (p + e)) with (p - q) by (field; lra). lra.
Qed.

Lemma common_in x y lo hi : common_bounds x y lo hi ->
  in_bounds x (Some (lo, hi)) lo hi /\ in_bounds y (Some (lo, hi)) lo hi /\
  exists a b c d, np_min x = Ok a /\ np_min y = Ok b /\ np_max x = Ok c /\ np_max y = Ok d /\ Rmin a b = lo /\ Rmax c d = hi.
Proof.
  intros (NX & NY & SM & LG & LT). destruct SM as (IS & FS). destruct LG as (IL & FL).
  apply Forall_app in FS. apply Forall_app in FL. destruct FS as (FS1 & FS2). destruct FL as (FL1 & FL2).
  assert (W : forall l, Forall (fun x => lo <= x) l -> Forall (fun x => x <= hi) l -> within lo hi l).
  { intros l F1 F2. unfold within. rewrite Forall_forall in *. intros z I. split; [apply F1, I|apply F2, I]. }
  split; [split; [exact NX|]; split; [apply W; assumption|]; split; [exact LT|reflexivity]|].
  split; [split; [exact NY|]; split; [apply W; assumption|]; split; [exact LT|reflexivity]|].
  destruct (np_min_ok x NX) as (a & EA & IA & FA). destruct (np_min_ok y NY) as (b & EB & IB & FB).
  destruct (np_max_ok x NX) as (c & EC & IC & FC). destruct (np_max_ok y NY) as (d & ED & ID & FD).
  exists a, b, c, d. repeat (split; [assumption|]). rewrite Forall_forall in *. split.
  - assert (lo <= a) by (apply FS1, IA). assert (lo <= b) by (apply FS2, IB). unfold Rmin.
    apply in_app_or in IS. destruct IS as [I|I].
    + pose proof (FA lo I). destruct (Rle_dec a b); lra.
    + pose proof (FB lo I). destruct (Rle_dec a b); lra.
  - assert (c <= hi) by (apply FL1, IC). assert (d <= hi) by (apply FL2, ID). unfold Rmax.
    apply in_app_or in IL. destruct IL as [I|I].
    + pose proof (FC hi I). destruct (Rle_dec c d); lra.
    + pose proof (FD hi I). destruct (Rle_dec c d); lra.
Qed.

Lemma combine_nil_iff {A B} (p : list A) (q : list B) : p <> [] -> q <> [] -> combine p q <> [].
Proof. destruct p, q; congruence || discriminate. Qed.

Lemma kl_value x y h nb fft lo hi : (2 <= nb)%Z -> common_bounds x y lo hi -> h <> 0 ->
  let delta := spacing lo hi (Z.to_nat nb) in
  exists g p q, gaussian_kde_1d true x h nb fft (Some (lo, hi)) = Ok (g, p) /\
    gaussian_kde_1d true y h nb fft (Some (lo, hi)) = Ok (g, q) /\
    nonnegative p /\ nonnegative q /\ add_up p = add_up q /\ length p = length q /\ p <> [] /\ 
    length p = (2 * Z.to_nat nb - 2)%nat /\
    kde_KL_divergence_1d true x y h nb fft = Ok (- integral delta (divergence_terms kde_model.EPSILON p q)).
Proof.
  intros N C H delta. destruct (common_in x y lo hi C) as (BX & BY & a & b & c & d & EA & EB & EC & ED & EMIN & EMAX).
  destruct (kde_1d x h nb fft _ lo hi N BX H) as (g & p & E1 & L1 & LP & V1 & P1 & M1).
  destruct (kde_1d y h nb fft _ lo hi N BY H) as (g2 & q & E2 & L2 & LQ & V2 & P2 & M2).
  assert (g2 = g) as ->.
  { apply (nth_ext _ _ 0 0); [congruence|]. intros j J. rewrite V1, V2 by lia. reflexivity. }
  assert (NP : p <> []) by (destruct p; [cbn in LP; lia|discriminate]).
  assert (NQ : q <> []) by (destruct q; [cbn in LQ; lia|discriminate]).
  exists g, p, q. split; [exact E1|]. split; [exact E2|]. split; [exact P1|]. split; [exact P2|]. split; [congruence|]. split; [congruence|].
  split; [exact NP|]. split; [exact LP|].
  unfold kde_KL_divergence_1d. rewrite EA, EB, EC, ED. cbn [bind]. rewrite EMIN, EMAX, E1. cbn [bind]. rewrite E2. cbn [bind fst snd].
  destruct (grid_ends g (Z.to_nat nb) lo delta ltac:(lia) L1 V1) as (last & first & second & _ & F2 & F3 & _ & R2).
  rewrite F3. cbn [bind]. rewrite F2. cbn [bind]. rewrite R2. f_equal.
  rewrite <- trapz_integral by (unfold divergence_terms; destruct p, q; congruence || discriminate).
  rewrite <- trapz_opp. f_equal. unfold divergence_terms. rewrite map_map. apply map_ext. intros (u & v). cbn. ring.
Qed.

Lemma nth_combine_map (f : R * R -> R) p q i : length p = length q -> (i < length p)%nat ->
  nth i (map f (combine p q)) 0 = f (nth i p 0, nth i q 0).
Proof.
  intros L I. rewrite (nth_indep _ 0 (f (0, 0))) by (rewrite map_length, combine_length; lia).
  rewrite map_nth, combine_nth by exact L. reflexivity.
Qed.

Lemma add_up_diff p q e : length p = length q ->
  add_up (map (fun pq => snd pq - fst pq + e) (combine p q)) = add_up q - add_up p + INR (length p) * e.
Proof.
  revert q. induction p as [|a p IH]; intros [|b q] L; try discriminate; [cbn; ring|].
  cbn [combine map add_up fst snd length]. rewrite IH by (cbn in L; lia). rewrite S_INR. ring.
Qed.

Lemma kl_upper p q e dx : 0 < dx -> 0 < e -> nonnegative p -> nonnegative q -> add_up p = add_up q -> length p = length q -> p <> [] ->
  - integral dx (divergence_terms e p q) <= dx * (ends p - ends q + (INR (length p) - 1) * e).
Proof.
  intros D E PP PQ M L N.
  assert (NC : combine p q <> []) by (apply combine_nil_iff; [exact N|]; destruct p, q; congruence || discriminate).
  rewrite <- trapz_integral by (unfold divergence_terms; destruct (combine p q); [congruence|discriminate]).
  rewrite <- trapz_opp.
  apply Rle_trans with (trapz (map (fun pq => snd pq - fst pq + e) (combine p q)) dx).
  - apply trapz_le; [exact D|]. unfold divergence_terms. rewrite map_map. clear -PP PQ L E.
    revert q PQ L. induction PP as [|a p PA PP IH]; intros q PQ L; [constructor|]. destruct PQ as [|b q PB PQ]; [constructor|].
    cbn [combine map fst snd]. constructor; [|apply IH; [exact PQ|cbn in L; lia]].
    replace (- (a * ln ((a + e) / (b + e)))) with (- a * ln ((a + e) / (b + e))) by ring. apply term_le; assumption.
  - rewrite trapz_integral by (destruct (combine p q); [congruence|discriminate]). unfold integral, ends.
    assert (LP : (0 < length p)%nat) by (destruct p; [congruence|cbn; lia]).
    rewrite add_up_diff by exact L. rewrite map_length, combine_length, <- L, Nat.min_id.
    rewrite !nth_combine_map by (try exact L; lia). cbn [fst snd]. rewrite M. apply Rmult_le_compat_l; [lra|]. lra.
Qed.

Lemma kl_bound x y h nb fft lo hi : (2 <= nb)%Z -> common_bounds x y lo hi -> h <> 0 ->
  let delta := spacing lo hi (Z.to_nat nb) in
  exists g p q v, gaussian_kde_1d true x h nb fft (Some (lo, hi)) = Ok (g, p) /\
    gaussian_kde_1d true y h nb fft (Some (lo, hi)) = Ok (g, q) /\
    kde_KL_divergence_1d true x y h nb fft = Ok v /\ v = - integral delta (divergence_terms kde_model.EPSILON p q) /\
    v <= delta * (ends p - ends q + (INR (length p) - 1) * kde_model.EPSILON).
Proof.
  intros N C H delta. destruct (kl_value x y h nb fft lo hi N C H) as (g & p & q & E1 & E2 & P & Q & M & L & NP & LP & V).
  exists g, p, q, (- integral delta (divergence_terms kde_model.EPSILON p q)). repeat (split; [assumption|]). split; [reflexivity|].
  apply kl_upper; try assumption; [|apply eps_positive]. destruct C as (_ & _ & _ & _ & LT). apply spacing_pos; [exact LT|lia].
Qed.

Lemma kl_same x h nb fft lo hi : (2 <= nb)%Z -> in_bounds x None lo hi -> h <> 0 -> kde_KL_divergence_1d true x x h nb fft = Ok 0.
Proof.
  intros N (NE & W & LT & S1 & S2) H. assert (C : common_bounds x x lo hi).
  { split; [exact NE|]. split; [exact NE|]. split; [|split; [|exact LT]].
    - destruct S1 as (I & F). split; [apply in_or_app; left; exact I|apply Forall_app; split; exact F].
    - destruct S2 as (I & F). split; [apply in_or_app; left; exact I|apply Forall_app; split; exact F]. }
  destruct (kl_value x x h nb fft lo hi N C H) as (g & p & q & E1 & E2 & P & Q & M & L & NP & _ & V). rewrite V. f_equal.
  assert (q = p) as -> by congruence.
  assert (Z : forall z, In z (divergence_terms kde_model.EPSILON p p) -> z = 0).
  { intros z I. apply in_map_iff in I. destruct I as ((u & v) & <- & I). cbn [fst snd].
    assert (u = v) as -> by (clear -I; induction p as [|a p IH]; [destruct I|]; destruct I as [I|I]; [congruence|auto]).
    assert (0 <= v) by (apply in_combine_r in I; unfold nonnegative in P; rewrite Forall_forall in P; apply P, I).
    pose proof eps_positive. replace ((v + kde_model.EPSILON) / (v + kde_model.EPSILON)) with 1 by (field; lra). rewrite ln_1. ring. }
  rewrite <- trapz_integral by (unfold divergence_terms; destruct p; [congruence|discriminate]).
  generalize dependent (divergence_terms kde_model.EPSILON p p). intros l _ Z. 
  assert (T : trapz l (spacing lo hi (Z.to_nat nb)) = 0); [|rewrite T; ring].
  induction l as [|a l IH]; [reflexivity|]. destruct l as [|b l]; [reflexivity|].
  rewrite trapz_cons, IH by (intros z I; apply Z; right; exact I). rewrite (Z a), (Z b) by (cbn; tauto). field.
Qed.
