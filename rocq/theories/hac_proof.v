(** * Lemmas on co-occurrence counts. *)

From Coq Require Import List ZArith Arith Bool Lia.
Import ListNotations.
From Verif Require Import Py Py_proof hac_model hac_spec.
Local Open Scope nat_scope.

Lemma slice_from_skipn {A} (l : list A) (k : nat) : slice_from l (Z.of_nat k) = skipn k l.
Proof.
  unfold slice_from, clamp_slice. destruct (Z.ltb_spec (Z.of_nat k) 0) as [H|H]; [lia|].
  destruct (Nat.le_gt_cases k (length l)) as [L|L].
  - f_equal. lia.
  - rewrite !skipn_all2 by lia. reflexivity.
Qed.
Lemma slice_to_firstn {A} (l : list A) (k : nat) : 1 <= k ->
  slice_to l (- Z.of_nat k) = firstn (length l - k) l.
Proof.
  intros H. unfold slice_to, clamp_slice. destruct (Z.ltb_spec (- Z.of_nat k) 0) as [_|X]; [|lia].
  f_equal. lia.
Qed.

(** The list of coded pairs. *)
Definition coded (n : Z) (q : list Z) (lag : nat) : list Z :=
  map (fun p => (fst p * n + snd p)%Z) (combine (skipn lag q) (firstn (length q - lag) q)).

Lemma elementwise_pairs (n : Z) (a b : list Z) : length a = length b ->
  elementwise Z.add (map (fun v => v * n)%Z a) b =
  Ok (map (fun p => (fst p * n + snd p)%Z) (combine a b)).
Proof.
  intros H. unfold elementwise. rewrite map_length, (proj2 (Nat.eqb_eq _ _) H). f_equal.
  revert b H. induction a as [|x a IH]; intros [|y b] H; try discriminate; [reflexivity|].
  cbn [map combine fst snd]. f_equal. apply IH. cbn in H. lia.
Qed.

Lemma coded_cons n x q lag : coded n (x :: q) lag =
  match nth_error (x :: q) lag with
  | Some y => (y * n + x)%Z :: coded n q lag
  | None => []
  end.
Proof.
  unfold coded. destruct (nth_error (x :: q) lag) as [y|] eqn:E.
  - assert (L : lag < length (x :: q)) by (apply nth_error_Some; congruence). cbn [length] in *.
    replace (S (length q) - lag) with (S (length q - lag)) by lia. cbn [firstn].
    assert (S : skipn lag (x :: q) = y :: skipn lag q).
    { clear L. revert x q E. induction lag as [|g IH]; intros x q E; cbn in E; [cbn; congruence|].
      destruct q as [|z q]; [destruct g; discriminate|].
      change (skipn (S g) (x :: z :: q)) with (skipn g (z :: q)). rewrite (IH z q E). reflexivity. }
    rewrite S. reflexivity.
  - apply nth_error_None in E. rewrite skipn_all2 by assumption. reflexivity.
Qed.
Lemma coded_none n q lag : length q <= lag -> coded n q lag = [].
Proof. intros H. unfold coded. rewrite skipn_all2 by assumption. reflexivity. Qed.
Lemma pairs_none q lag a b : length q <= lag -> pairs q lag a b = 0.
Proof.
  induction q as [|x q IH]; intros H; [reflexivity|]. cbn [pairs].
  rewrite (proj2 (nth_error_None (x :: q) lag) H). rewrite IH; [reflexivity|]. cbn in H. lia.
Qed.

Lemma code_inj n a b x y : (0 <= a < n)%Z -> (0 <= x < n)%Z ->
  (b * n + a = y * n + x)%Z -> a = x /\ b = y.
Proof. intros A X E. assert (b = y) by nia. split; [nia|assumption]. Qed.

Lemma coded_count n q lag a b : codes n q -> (0 <= a < n)%Z ->
  length (filter (Z.eqb (b * n + a)) (coded n q lag)) = pairs q lag a b.
Proof.
  intros C A. induction C as [|x q X C IH]; [destruct lag; reflexivity|].
  rewrite coded_cons. cbn [pairs]. destruct (nth_error (x :: q) lag) as [y|] eqn:E.
  - cbn [filter]. destruct (Z.eqb_spec (b * n + a) (y * n + x)) as [Q|Q].
    + destruct (code_inj n a b x y A X Q) as [-> ->]. rewrite !Z.eqb_refl. cbn [length andb]. lia.
    + destruct (Z.eqb_spec x a) as [->|N]; cbn [andb]; [|exact IH].
      destruct (Z.eqb_spec y b) as [->|N]; [congruence|exact IH].
  - apply nth_error_None in E. cbn [length] in E.
    rewrite pairs_none by lia. reflexivity.
Qed.

Lemma coded_bounds n q lag : (0 <= n)%Z -> codes n q -> Forall (fun v => (0 <= v < n * n)%Z) (coded n q lag).
Proof.
  intros Hn C. induction C as [|x q X C IH]; [destruct lag; constructor|].
  rewrite coded_cons. destruct (nth_error (x :: q) lag) as [y|] eqn:E; [|constructor].
  constructor; [|exact IH].
  assert (Y : (0 <= y < n)%Z).
  { apply nth_error_In in E. destruct E as [<-|E]; [assumption|].
    unfold codes in C. rewrite Forall_forall in C. apply C, E. }
  nia.
Qed.
Lemma coded_length n q lag : length (coded n q lag) = length q - lag.
Proof. unfold coded. rewrite map_length, combine_length, skipn_length, firstn_length. lia. Qed.

Lemma max_below (l : list Z) m : (0 <= m)%Z -> Forall (fun v => (0 <= v < m)%Z) l ->
  (-1 <= fold_right Z.max (-1) l < m)%Z.
Proof. intros Hm. induction 1 as [|x l X H IH]; cbn [fold_right]; lia. Qed.

Lemma total_app a b : total (a ++ b) = total a + total b.
Proof. induction a as [|x a IH]; unfold total in *; cbn [fold_right app map]; [reflexivity|]; lia. Qed.
Lemma total_add {A} (f g : A -> nat) l : total (map (fun i => f i + g i) l) = total (map f l) + total (map g l).
Proof. induction l as [|x l IH]; unfold total in *; cbn [fold_right app map]; [reflexivity|]; lia. Qed.
Lemma total_one (z : Z) m : (0 <= z)%Z -> Z.to_nat z < m ->
  total (map (fun i => if Z.eqb (Z.of_nat i) z then 1 else 0) (seq 0 m)) = 1.
Proof.
  intros Z0 H.
  assert (N : forall s k, (forall i, s <= i < s + k -> Z.of_nat i <> z) ->
     total (map (fun i => if Z.eqb (Z.of_nat i) z then 1 else 0) (seq s k)) = 0).
  { intros s k. revert s. induction k as [|k IH]; intros s X; [reflexivity|].
    cbn [seq map total fold_right]. destruct (Z.eqb_spec (Z.of_nat s) z) as [E|_].
    - exfalso. apply (X s); [lia|exact E].
    - apply IH. intros i I. apply X. lia. }
  replace m with (Z.to_nat z + (1 + (m - S (Z.to_nat z)))) by lia.
  rewrite seq_app, map_app, total_app, N by (intros; lia).
  cbn [Nat.add seq map total fold_right]. rewrite Z2Nat.id, Z.eqb_refl by lia.
  change (fold_right Init.Nat.add 0 ?l) with (total l). rewrite N by (intros; lia). reflexivity.
Qed.
Lemma total_counts (l : list Z) m : Forall (fun v => (0 <= v < Z.of_nat m)%Z) l ->
  total (map (fun i => length (filter (Z.eqb (Z.of_nat i)) l)) (seq 0 m)) = length l.
Proof.
  induction 1 as [|x l X H IH].
  - cbn. induction (seq 0 m) as [|y s IHs]; [reflexivity|exact IHs].
  - rewrite <- (map_ext (fun i => (if Z.eqb (Z.of_nat i) x then 1 else 0) + length (filter (Z.eqb (Z.of_nat i)) l))).
    + rewrite total_add, IH, total_one by lia. reflexivity.
    + intros i. cbn [filter]. destruct (Z.eqb (Z.of_nat i) x); reflexivity.
Qed.

Lemma bincount_codes l m : Forall (fun v => (0 <= v < m)%Z) l -> (0 <= m)%Z ->
  bincount l m = Ok (map (fun i => length (filter (Z.eqb (Z.of_nat i)) l)) (seq 0 (Z.to_nat m))).
Proof.
  intros H Hm. unfold bincount.
  assert (E : existsb (fun v => (v <? 0)%Z) l = false).
  { induction H as [|x l X H IH]; [reflexivity|]. cbn. rewrite IH.
    destruct (Z.ltb_spec x 0); [lia|reflexivity]. }
  rewrite E. destruct (Z.ltb_spec m 0) as [X|_]; [lia|]. cbn [orb].
  pose proof (max_below l m Hm H) as B. rewrite Z.max_l by lia. reflexivity.
Qed.

Lemma coocurrences_coded q n lag : 1 <= lag ->
  coocurrences q n (Z.of_nat lag) = bincount (coded n q lag) (n * n).
Proof.
  intros H. unfold coocurrences. rewrite slice_from_skipn, slice_to_firstn by assumption.
  rewrite elementwise_pairs; [reflexivity|]. rewrite skipn_length, firstn_length. lia.
Qed.

Lemma counts q n lag : codes n q -> (0 <= n)%Z -> 1 <= lag ->
  exists v, coocurrences q n (Z.of_nat lag) = Ok v /\ counts_pairs q n lag v.
Proof.
  intros C Hn L. rewrite coocurrences_coded by assumption.
  pose proof (coded_bounds n q lag Hn C) as B.
  rewrite bincount_codes by (try assumption; nia).
  eexists. split; [reflexivity|]. split; [rewrite map_length, seq_length; reflexivity|]. split.
  - intros a b A X.
    assert (I : Z.to_nat (b * n + a) < Z.to_nat (n * n)) by nia.
    rewrite nth_indep with (d' := length (filter (Z.eqb (Z.of_nat 0)) (coded n q lag)))
      by (rewrite map_length, seq_length; exact I).
    rewrite map_nth with (f := fun i => length (filter (Z.eqb (Z.of_nat i)) (coded n q lag))).
    rewrite seq_nth by exact I. rewrite Nat.add_0_l, Z2Nat.id by nia.
    apply coded_count; assumption.
  - rewrite total_counts, coded_length; [reflexivity|].
    rewrite Z2Nat.id by nia. exact B.
Qed.

(** The vector of counts is determined by the specification. *)
Lemma counts_unique q n lag v w : (0 <= n)%Z -> counts_pairs q n lag v -> counts_pairs q n lag w -> v = w.
Proof.
  intros Hn (Lv & Nv & _) (Lw & Nw & _). apply nth_ext with (d := 0) (d' := 0); [congruence|].
  intros i I. rewrite Lv in I.
  assert (N : (0 < n)%Z) by nia.
  pose proof (Z.mod_pos_bound (Z.of_nat i) n N) as M.
  assert (D : (0 <= Z.of_nat i / n < n)%Z).
  { split; [apply Z.div_pos; lia|]. apply Z.div_lt_upper_bound; nia. }
  pose proof (Z.div_mod (Z.of_nat i) n ltac:(lia)) as E.
  replace i with (Z.to_nat (Z.of_nat i / n * n + Z.of_nat i mod n)) by nia.
  rewrite Nv, Nw by assumption. reflexivity.
Qed.

(** Lag 0. *)
Lemma lag_zero q n : (2 <= length q)%nat -> coocurrences q n 0 = Err ValueError.
Proof.
  intros H. unfold coocurrences, slice_from, slice_to.
  assert (C : clamp_slice (length q) 0 = 0%nat) by (unfold clamp_slice; cbn; lia).
  change (- 0)%Z with 0%Z. rewrite C. cbn [skipn firstn].
  destruct q as [|x [|y q]]; cbn in H; try lia. reflexivity.
Qed.
Lemma lag_zero_short q n : (length q <= 1)%nat -> (0 <= n)%Z ->
  coocurrences q n 0 = Ok (repeat 0 (Z.to_nat (n * n))).
Proof.
  intros H Hn. unfold coocurrences, slice_from, slice_to.
  assert (C : clamp_slice (length q) 0 = 0%nat) by (unfold clamp_slice; cbn; lia).
  change (- 0)%Z with 0%Z. rewrite C. cbn [skipn firstn].
  assert (E : elementwise Z.add (map (fun v => (v * n)%Z) q) [] = Ok []).
  { destruct q as [|x [|y q]]; cbn in H; try lia; reflexivity. }
  rewrite E. cbn [bind]. rewrite bincount_codes by (try constructor; nia). f_equal.
  cbn [filter length]. generalize 0%nat at 2. induction (Z.to_nat (n * n)) as [|k IH]; intros s; [reflexivity|].
  cbn. f_equal. apply IH.
Qed.

(** A negative lag reads the end of the series against its beginning. *)
Lemma lag_negative q n m : (1 <= m)%nat -> (m < length q)%nat ->
  coocurrences q n (- Z.of_nat m) = coocurrences q n (Z.of_nat (length q - m)).
Proof.
  intros M L. unfold coocurrences. f_equal. f_equal.
  - f_equal. rewrite slice_from_skipn. unfold slice_from, clamp_slice.
    destruct (Z.ltb_spec (- Z.of_nat m) 0) as [_|X]; [|lia]. f_equal. lia.
  - rewrite slice_to_firstn by lia. rewrite Z.opp_involutive. unfold slice_to, clamp_slice.
    destruct (Z.ltb_spec (Z.of_nat m) 0) as [X|_]; [lia|]. f_equal. lia.
Qed.

Section Hac.
Context {F : Type} (zero : F) (vq : mat F -> mat F -> result (list Z)).

Lemma blocks q n lags : codes n q -> (0 <= n)%Z -> Forall (fun l => 1 <= l) lags ->
  exists vs, mapM (fun l => coocurrences q n l) (map Z.of_nat lags) = Ok vs /\
    Forall2 (fun l v => counts_pairs q n l v) lags vs.
Proof.
  intros C Hn. induction 1 as [|l lags L H IH]; [exists []; split; [reflexivity|constructor]|].
  destruct (counts q n l C Hn L) as (v & E & P). destruct IH as (vs & Es & Ps).
  exists (v :: vs). split; [|constructor; assumption].
  cbn [map mapM]. rewrite E. cbn [bind]. rewrite Es. reflexivity.
Qed.

Lemma compute_blocks data cb lags q : vq data cb = Ok q ->
  codes (Z.of_nat (length (mrows cb))) q -> lags <> [] -> Forall (fun l => 1 <= l) lags ->
  exists vs, compute_coocurrences F vq data cb (map Z.of_nat lags) = Ok (concat vs) /\
    Forall2 (fun l v => counts_pairs q (Z.of_nat (length (mrows cb))) l v) lags vs.
Proof.
  intros E C N L. unfold compute_coocurrences. rewrite E. cbn [bind].
  destruct (blocks q _ lags C ltac:(lia) L) as (vs & Ev & P). rewrite Ev. cbn [bind].
  exists vs. split; [|exact P]. inversion P; subst; [congruence|reflexivity].
Qed.

Lemma no_lags data cb q : vq data cb = Ok q -> compute_coocurrences F vq data cb [] = Err ValueError.
Proof. intros E. unfold compute_coocurrences. rewrite E. reflexivity. Qed.

Context {Sound : Type} (mfcc : Sound -> result (mat F)) (delta : mat F -> nat -> result (mat F)).

Lemma hac_blocks sound codebooks lags m d1 d2 qs :
  mfcc sound = Ok m -> delta m 1 = Ok d1 -> delta m 2 = Ok d2 ->
  let used := combine [transpose zero m; transpose zero d1; transpose zero d2] codebooks in
  codebooks <> [] -> lags <> [] -> Forall (fun l => 1 <= l) lags ->
  Forall2 (fun sc q => vq (fst sc) (snd sc) = Ok q /\ codes (Z.of_nat (length (mrows (snd sc)))) q) used qs ->
  exists vss, hac F zero vq Sound mfcc delta sound codebooks (map Z.of_nat lags) =
      Ok (concat (map (@concat nat) vss)) /\
    Forall2 (fun scq vs => Forall2 (fun l v =>
        counts_pairs (snd scq) (Z.of_nat (length (mrows (snd (fst scq))))) l v) lags vs)
      (combine used qs) vss.
Proof.
  intros E0 E1 E2 used NC NL L Q. unfold hac. rewrite E0. cbn [bind]. rewrite E1. cbn [bind].
  rewrite E2. cbn [bind]. fold used.
  assert (X : exists vss, mapM (fun sc => compute_coocurrences F vq (fst sc) (snd sc) (map Z.of_nat lags)) used
      = Ok (map (@concat nat) vss) /\ Forall2 (fun scq vs => Forall2 (fun l v =>
        counts_pairs (snd scq) (Z.of_nat (length (mrows (snd (fst scq))))) l v) lags vs)
      (combine used qs) vss).
  { clear -Q L NL. induction Q as [|[s c] q used qs [V C] Q IH]; [exists []; split; [reflexivity|constructor]|].
    destruct IH as (vss & E & P). cbn [fst snd] in *.
    destruct (compute_blocks s c lags q V C NL L) as (vs & Ev & Pv).
    exists (vs :: vss). split; [|cbn [combine]; constructor; assumption].
    cbn [mapM fst snd map]. rewrite Ev. cbn [bind]. rewrite E. reflexivity. }
  destruct X as (vss & E & P). rewrite E. cbn [bind]. exists vss. split; [|exact P].
  destruct codebooks as [|c cs]; [congruence|]. cbn [combine] in used.
  unfold hstack1. inversion Q; subst qs. subst used. rewrite <- H0 in P. cbn [combine] in P.
  inversion P; subst. reflexivity.
Qed.
End Hac.
