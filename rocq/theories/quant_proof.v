(** * Lemmas on vector quantization. *)

From Coq Require Import List ZArith Arith Reals Bool Lia Lra.
Import ListNotations.
From Verif Require Import Py Py_proof hac_model quant_model quant_spec hac_proof.
Open Scope py_scope.
Local Open Scope R_scope.

Lemma model_dist v c : quant_model.sum (map (fun p => Rsqr (fst p - snd p)) (combine v c)) = sq_dist v c.
Proof.
  revert c. induction v as [|x v IH]; intros [|y c]; try reflexivity.
  cbn [combine map quant_model.sum fold_right fst snd sq_dist].
  change (fold_right Rplus 0 ?l) with (quant_model.sum l). rewrite IH. unfold Rsqr. ring.
Qed.
Lemma sq_dist_nonneg v c : 0 <= sq_dist v c.
Proof.
  revert c. induction v as [|x v IH]; intros [|y c]; cbn [sq_dist]; try lra.
  specialize (IH c). pose proof (pow2_ge_0 (x - y)). lra.
Qed.
Lemma add_up_sum l : quant_model.sum l = add_up l.
Proof. reflexivity. Qed.

Definition dist_rows (vs cs : list (list R)) : list (list R) :=
  map (fun v => map (fun c => sq_dist v c) cs) vs.
Lemma square_ok x cb : mcols x = mcols cb ->
  square_distances x cb = Ok (Mat (length (mrows cb)) (dist_rows (mrows x) (mrows cb))).
Proof.
  intros E. unfold square_distances. rewrite (proj2 (Nat.eqb_eq _ _) E). cbn [py_assert bind].
  f_equal. f_equal. apply map_ext. intros v. apply map_ext. intros c. apply model_dist.
Qed.
Lemma square_bad x cb : mcols x <> mcols cb -> square_distances x cb = Err AssertionError.
Proof.
  intros E. unfold square_distances. rewrite (proj2 (Nat.eqb_neq _ _) E). reflexivity.
Qed.

(** Minimum of a row. *)
Lemma argmin_from_spec l pos best bestv l0 :
  length l0 = pos -> (best < pos)%nat -> nth best l0 0 = bestv ->
  (forall j, (j < pos)%nat -> bestv <= nth j l0 0) -> (forall j, (j < best)%nat -> bestv < nth j l0 0) ->
  let r := argmin_from l pos best bestv in
  (fst r < pos + length l)%nat /\ nth (fst r) (l0 ++ l) 0 = snd r /\
  (forall j, (j < pos + length l)%nat -> snd r <= nth j (l0 ++ l) 0) /\
  (forall j, (j < fst r)%nat -> snd r < nth j (l0 ++ l) 0).
Proof.
  revert pos best bestv l0. induction l as [|x l IH]; intros pos best bestv l0 L B V M F.
  - cbn. rewrite app_nil_r, Nat.add_0_r. auto.
  - cbn [argmin_from]. specialize (IH (S pos)).
    assert (A : l0 ++ x :: l = (l0 ++ [x]) ++ l) by (rewrite <- app_assoc; reflexivity).
    assert (Len : length (l0 ++ [x]) = S pos) by (rewrite app_length; cbn; lia).
    assert (NX : nth pos (l0 ++ [x]) 0 = x) by (rewrite app_nth2 by lia; rewrite L, Nat.sub_diag; reflexivity).
    assert (NO : forall j, (j < pos)%nat -> nth j (l0 ++ [x]) 0 = nth j l0 0) by (intros; apply app_nth1; lia).
    cbn [length]. rewrite A. replace (pos + S (length l))%nat with (S pos + length l)%nat by lia.
    destruct (Rlt_dec x bestv) as [X|X].
    + apply IH; try assumption; try lia.
      * intros j J. destruct (Nat.eq_dec j pos) as [->|N]; [rewrite NX; lra|].
        rewrite NO by lia. specialize (M j ltac:(lia)). lra.
      * intros j J. rewrite NO by lia. specialize (M j ltac:(lia)). lra.
    + apply IH; try assumption; try lia.
      * rewrite NO by lia. exact V.
      * intros j J. destruct (Nat.eq_dec j pos) as [->|N]; [rewrite NX; lra|].
        rewrite NO by lia. apply M. lia.
      * intros j J. rewrite NO by lia. apply F, J.
Qed.
Lemma argmin_spec l : l <> [] -> exists i m, argmin l = Ok (i, m) /\ (i < length l)%nat /\ nth i l 0 = m /\
  (forall j, (j < length l)%nat -> m <= nth j l 0) /\ (forall j, (j < i)%nat -> m < nth j l 0).
Proof.
  destruct l as [|x l]; [congruence|]. intros _.
  destruct (argmin_from l 1 0 x) as [i m] eqn:E. exists i, m.
  pose proof (argmin_from_spec l 1 0 x [x] eq_refl ltac:(lia) eq_refl) as H.
  rewrite E in H. cbn [fst snd app] in H. unfold argmin. rewrite E. split; [reflexivity|].
  apply H.
  - intros j J. replace j with 0%nat by lia. cbn. lra.
  - intros j J. lia.
Qed.

Definition row_min (l : list R) (r : nat * R) : Prop :=
  (fst r < length l)%nat /\ nth (fst r) l 0 = snd r /\
  (forall j, (j < length l)%nat -> snd r <= nth j l 0) /\
  (forall j, (j < fst r)%nat -> snd r < nth j l 0).

Lemma min_rows_ok k rows : (0 < k)%nat -> Forall (fun r => length r = k) rows ->
  exists ms, min_rows (Mat k rows) = Ok ms /\ Forall2 row_min rows ms.
Proof.
  intros K H. unfold min_rows. cbn [mcols mrows].
  rewrite (proj2 (Nat.eqb_neq k 0)) by lia.
  induction H as [|r rows L H IH]; [exists []; split; [reflexivity|constructor]|].
  destruct (argmin_spec r) as (i & m & E & P); [intros ->; cbn in L; lia|].
  destruct IH as (ms & Em & Pm). exists ((i, m) :: ms). split; [|constructor; assumption].
  cbn [mapM]. rewrite E. cbn [bind]. rewrite Em. reflexivity.
Qed.
Lemma dist_rows_len vs cs : Forall (fun r => length r = length cs) (dist_rows vs cs).
Proof. unfold dist_rows. induction vs; cbn; constructor; [apply map_length|assumption]. Qed.

Lemma nth_dist v cs j : (j < length cs)%nat -> nth j (map (fun c => sq_dist v c) cs) 0 = sq_dist v (nth j cs []).
Proof.
  intros J. rewrite nth_indep with (d' := sq_dist v []) by (rewrite map_length; exact J).
  rewrite (map_nth (fun c => sq_dist v c)). reflexivity.
Qed.

Lemma row_min_nearest v cs r : row_min (map (fun c => sq_dist v c) cs) r ->
  first_nearest cs v (fst r) /\ snd r = sq_dist v (nth (fst r) cs []).
Proof.
  intros (L & N & M & F). rewrite map_length in L, M.
  assert (V : snd r = sq_dist v (nth (fst r) cs [])) by (rewrite <- N; apply nth_dist; exact L).
  split; [|exact V]. split; [split; [exact L|]|].
  - intros j J. rewrite <- V. specialize (M j J). rewrite nth_dist in M by exact J. exact M.
  - intros j J. rewrite <- V. specialize (F j J). rewrite nth_dist in F by lia. exact F.
Qed.

Lemma associate_ok x cb : mcols x = mcols cb -> mrows cb <> [] ->
  exists c, associate x cb = Ok c /\ Forall2 (first_nearest (mrows cb)) (mrows x) c.
Proof.
  intros E N. unfold associate. rewrite (square_ok _ _ E). cbn [bind].
  destruct (min_rows_ok (length (mrows cb)) (dist_rows (mrows x) (mrows cb))) as (ms & Em & P).
  - destruct (mrows cb); [congruence|cbn; lia].
  - apply dist_rows_len.
  - rewrite Em. cbn [bind]. eexists. split; [reflexivity|].
    clear Em. unfold dist_rows in P. remember (mrows x) as vs eqn:X. clear X.
    revert ms P. induction vs as [|v vs IH]; intros ms P; inversion P; subst; cbn [map]; constructor.
    + eapply row_min_nearest; eassumption.
    + apply IH. assumption.
Qed.
Lemma associate_empty x cb : mcols x = mcols cb -> mrows cb = [] -> associate x cb = Err ValueError.
Proof.
  intros E N. unfold associate. rewrite (square_ok _ _ E). cbn [bind]. unfold min_rows. cbn [mcols].
  rewrite N. reflexivity.
Qed.

(** Soft association. *)
Lemma sum_div l s : quant_model.sum (map (fun x => x / s) l) = quant_model.sum l / s.
Proof.
  induction l as [|x l IH]; cbn; [unfold Rdiv; ring|].
  change (fold_right Rplus 0 ?l) with (quant_model.sum l). rewrite IH. unfold Rdiv. ring.
Qed.
Lemma sum_pos l : l <> [] -> (forall x, In x l -> 0 < x) -> 0 < quant_model.sum l.
Proof.
  destruct l as [|x l]; [congruence|]. intros _ H. revert x H. induction l as [|y l IH]; intros x H.
  - cbn. specialize (H x (or_introl eq_refl)). lra.
  - cbn. specialize (IH y (fun z Hz => H z (or_intror Hz))). cbn in IH.
    specialize (H x (or_introl eq_refl)). lra.
Qed.
Lemma eps_pos : 0 < EPSILON.
Proof. unfold EPSILON. apply Rinv_0_lt_compat. apply IZR_lt. lia. Qed.

Definition soft_row (alpha m : R) (ds : list R) : list R :=
  let w := map (fun d => exp (- alpha * d / (EPSILON + m))) ds in
  map (fun x => x / quant_model.sum w) w.

Lemma soft_ok x cb alpha : mcols x = mcols cb -> mrows cb <> [] ->
  exists h, soft_associate x cb alpha = Ok h /\ mcols h = length (mrows cb) /\
    Forall2 (fun v w => exists m, 0 <= m /\ w = soft_row alpha m (map (fun c => sq_dist v c) (mrows cb)) /\
       exists i, nearest (mrows cb) v i /\ m = sq_dist v (nth i (mrows cb) []))
      (mrows x) (mrows h).
Proof.
  intros E N. unfold soft_associate. rewrite (square_ok _ _ E). cbn [bind].
  destruct (min_rows_ok (length (mrows cb)) (dist_rows (mrows x) (mrows cb))) as (ms & Em & P).
  - destruct (mrows cb); [congruence|cbn; lia].
  - apply dist_rows_len.
  - rewrite Em. cbn [bind mrows mcols]. eexists. split; [reflexivity|]. split; [reflexivity|]. cbn [mrows].
    clear Em. unfold dist_rows in *. remember (mrows x) as vs eqn:X. clear X.
    revert ms P. induction vs as [|v vs IH]; intros ms P; inversion P; subst; cbn [map combine]; constructor.
    + destruct (row_min_nearest _ _ _ H1) as [[Nr _] V]. exists (snd y). cbn [fst snd]. split; [|split].
      * rewrite V. apply sq_dist_nonneg.
      * reflexivity.
      * exists (fst y). auto.
    + apply IH. assumption.
Qed.

Lemma soft_row_weights alpha m v cs : 0 <= m -> cs <> [] ->
  weights_of cs v (soft_row alpha m (map (fun c => sq_dist v c) cs)).
Proof.
  intros M N. unfold soft_row.
  set (w := map (fun d => exp (- alpha * d / (EPSILON + m))) (map (fun c => sq_dist v c) cs)).
  assert (Pw : forall x, In x w -> 0 < x).
  { intros x H. subst w. apply in_map_iff in H. destruct H as (d & <- & _). apply exp_pos. }
  assert (Nw : w <> []).
  { subst w. destruct cs; [congruence|discriminate]. }
  pose proof (sum_pos w Nw Pw) as S. split; [|split].
  - subst w. rewrite !map_length. reflexivity.
  - intros x H. apply in_map_iff in H. destruct H as (y & <- & H). apply Rdiv_lt_0_compat; auto.
  - change (quant_model.sum (map (fun x => x / quant_model.sum w) w) = 1). rewrite sum_div. field. lra.
Qed.

Lemma nth_soft alpha m ds j : (j < length ds)%nat ->
  nth j (soft_row alpha m ds) 0 =
  exp (- alpha * nth j ds 0 / (EPSILON + m)) /
  quant_model.sum (map (fun d => exp (- alpha * d / (EPSILON + m))) ds).
Proof.
  intros J. unfold soft_row. set (s := quant_model.sum _).
  rewrite nth_indep with (d' := (fun x => x / s) (exp (- alpha * 0 / (EPSILON + m))))
    by (rewrite !map_length; exact J).
  rewrite (map_nth (fun x => x / s)), (map_nth (fun d => exp (- alpha * d / (EPSILON + m)))). reflexivity.
Qed.

Lemma soft_row_order alpha m v cs i j : 0 <= m -> (i < length cs)%nat -> (j < length cs)%nat ->
  let w := soft_row alpha m (map (fun c => sq_dist v c) cs) in
  let d k := sq_dist v (nth k cs []) in
  (0 < alpha -> d i < d j -> nth j w 0 < nth i w 0) /\
  (d i = d j -> nth i w 0 = nth j w 0) /\
  (alpha < 0 -> d i < d j -> nth i w 0 < nth j w 0) /\
  (alpha = 0 -> nth i w 0 = / INR (length cs)).
Proof.
  intros M I J w d. pose proof eps_pos as Ep. unfold w, d.
  rewrite !nth_soft by (rewrite map_length; assumption). rewrite !nth_dist by assumption.
  assert (N : cs <> []) by (intros ->; cbn in I; lia).
  set (s := quant_model.sum _).
  assert (S : 0 < s).
  { apply sum_pos; [destruct cs; [congruence|discriminate]|].
    intros x H. apply in_map_iff in H. destruct H as (y & <- & _). apply exp_pos. }
  assert (IS : 0 < / s) by (apply Rinv_0_lt_compat, S).
  assert (IM : 0 < / (EPSILON + m)) by (apply Rinv_0_lt_compat; lra).
  split; [|split; [|split]].
  - intros A D. unfold Rdiv. apply Rmult_lt_compat_r; [exact IS|]. apply exp_increasing.
    apply Rmult_lt_compat_r; [exact IM|]. nra.
  - intros ->. reflexivity.
  - intros A D. unfold Rdiv. apply Rmult_lt_compat_r; [exact IS|]. apply exp_increasing.
    apply Rmult_lt_compat_r; [exact IM|]. nra.
  - intros ->. unfold s. clear.
    assert (Z : forall d, exp (- 0 * d / (EPSILON + m)) = 1).
    { intros d. replace (- 0 * d / (EPSILON + m)) with 0 by (unfold Rdiv; ring). apply exp_0. }
    rewrite Z. assert (C : quant_model.sum (map (fun d => exp (- 0 * d / (EPSILON + m))) (map (fun c => sq_dist v c) cs)) = INR (length cs)).
    { induction cs as [|c cs IH]; [reflexivity|]. cbn [map quant_model.sum fold_right length].
      change (fold_right Rplus 0 ?l) with (quant_model.sum l). rewrite IH, Z, S_INR. ring. }
    rewrite C. unfold Rdiv. ring.
Qed.

Lemma soft_all x cb alpha : mcols x = mcols cb -> mrows cb <> [] ->
  exists h, soft_associate x cb alpha = Ok h /\ mcols h = length (mrows cb) /\
    Forall2 (fun v w => weights_of (mrows cb) v w /\
      forall i j, (i < length (mrows cb))%nat -> (j < length (mrows cb))%nat ->
        let d k := sq_dist v (nth k (mrows cb) []) in
        (0 < alpha -> d i < d j -> nth j w 0 < nth i w 0) /\
        (d i = d j -> nth i w 0 = nth j w 0) /\
        (alpha < 0 -> d i < d j -> nth i w 0 < nth j w 0) /\
        (alpha = 0 -> nth i w 0 = / INR (length (mrows cb))))
      (mrows x) (mrows h).
Proof.
  intros E N. destruct (soft_ok x cb alpha E N) as (h & Eh & C & F). exists h. split; [exact Eh|].
  split; [exact C|]. clear Eh. induction F as [|v w vs ws (m & M & -> & _) F IH]; constructor; [|exact IH].
  split; [apply soft_row_weights; assumption|]. intros i j I J. apply soft_row_order; assumption.
Qed.

(** The exact weights: w_j is proportional to exp(- alpha d_j / (eps + d_min)). *)
Lemma soft_ratio x cb alpha : mcols x = mcols cb -> mrows cb <> [] ->
  exists h, soft_associate x cb alpha = Ok h /\
    Forall2 (fun v w => exists c, nearest (mrows cb) v c /\
      forall i j, (i < length (mrows cb))%nat -> (j < length (mrows cb))%nat ->
        let d k := sq_dist v (nth k (mrows cb) []) in
        nth i w 0 = nth j w 0 * exp (alpha * (d j - d i) / (/ 10 ^ 9 + d c)))
      (mrows x) (mrows h).
Proof.
  intros E N. destruct (soft_ok x cb alpha E N) as (h & Eh & _ & F). exists h. split; [exact Eh|].
  clear Eh. induction F as [|v w vs ws (m & M & -> & c & Nc & V) F IH]; constructor; [|exact IH].
  exists c. split; [exact Nc|]. intros i j I J d. subst d. cbn beta.
  rewrite !nth_soft by (rewrite map_length; assumption). rewrite !nth_dist by assumption.
  set (s := quant_model.sum _). rewrite <- V. pose proof eps_pos as Ep.
  replace (/ 10 ^ 9) with EPSILON by (unfold EPSILON; f_equal; lra).
  replace (- alpha * sq_dist v (nth i (mrows cb) []) / (EPSILON + m)) with
    (- alpha * sq_dist v (nth j (mrows cb) []) / (EPSILON + m) +
     alpha * (sq_dist v (nth j (mrows cb) []) - sq_dist v (nth i (mrows cb) [])) / (EPSILON + m)) by (field; lra).
  rewrite exp_plus. unfold Rdiv. ring.
Qed.

(** One-hot rows. *)
Lemma eye_row k i : (i < k)%nat -> one_hot k i (map (fun j => if (j =? i)%nat then 1 else 0) (seq 0 k)).
Proof.
  intros I. split; [rewrite map_length, seq_length; reflexivity|]. split; [exact I|]. intros j J.
  rewrite nth_indep with (d' := (fun j => if (j =? i)%nat then 1 else 0) 0%nat)
    by (rewrite map_length, seq_length; exact J).
  rewrite (map_nth (fun j => if (j =? i)%nat then 1 else 0)), seq_nth by exact J. reflexivity.
Qed.
Lemma eye_rows_ok k c : Forall (fun i => (i < k)%nat) c ->
  exists h, eye_rows k c = Ok h /\ mcols h = k /\ Forall2 (one_hot k) c (mrows h).
Proof.
  intros H. unfold eye_rows. induction H as [|i c I H (h & E & C & F)].
  - eexists. split; [reflexivity|]. split; [reflexivity|constructor].
  - cbn [mapM]. rewrite (proj2 (Nat.ltb_lt _ _) I). cbn [bind].
    destruct (mapM _ c) as [rows|e] eqn:X; [|cbn in E; discriminate E]. cbn in E. injection E as E. subst h.
    eexists. split; [reflexivity|]. split; [reflexivity|]. cbn [mrows]. constructor; [apply eye_row, I|exact F].
Qed.

Lemma F2_in_first {A B} (R : A -> B -> Prop) (P : B -> Prop) l l' :
  Forall2 R l l' -> (forall a b, R a b -> P b) -> Forall P l'.
Proof. induction 1; intros H1; constructor; eauto. Qed.

Lemma hard_ok vq x cb : is_vq vq -> rect x -> rect cb -> mcols x = mcols cb -> mrows cb <> [] ->
  exists h, get_histos vq x cb None = Ok h /\ mcols h = length (mrows cb) /\
    Forall2 (fun v w => exists c, nearest (mrows cb) v c /\ one_hot (length (mrows cb)) c w)
      (mrows x) (mrows h).
Proof.
  intros V Rx Rc E N. destruct (V x cb Rx Rc E N) as (c & Ec & F).
  unfold get_histos. rewrite Ec. cbn [bind].
  destruct (eye_rows_ok (length (mrows cb)) c) as (h & Eh & C & G).
  { eapply F2_in_first; [exact F|]. intros a b [L _]. exact L. }
  exists h. split; [exact Eh|]. split; [exact C|]. clear - F G.
  revert G. generalize (mrows h). induction F as [|v i vs is_ P F IH]; intros ws G; inversion G; subst; constructor.
  - exists i. auto.
  - apply IH. assumption.
Qed.

(** A one-hot row adds up to 1. *)
Lemma add_up_hot l i : (i < length l)%nat -> (forall j, (j < length l)%nat -> nth j l 0 = if Nat.eqb j i then 1 else 0) ->
  add_up l = 1.
Proof.
  revert i. induction l as [|x l IH]; intros i I H; [cbn in I; lia|]. cbn [add_up].
  pose proof (H 0%nat ltac:(cbn; lia)) as H0. cbn in H0.
  destruct i as [|i].
  - cbn in H0. assert (Z : add_up l = 0).
    { clear -H. assert (N : forall j, (j < length l)%nat -> nth j l 0 = 0).
      { intros j J. specialize (H (S j) ltac:(cbn; lia)). cbn in H. exact H. }
      clear H. induction l as [|y l IH]; [reflexivity|]. cbn [add_up].
      rewrite (N 0%nat ltac:(cbn; lia) : y = 0), IH; [ring|]. intros j J. exact (N (S j) ltac:(cbn; lia)). }
    rewrite Z, H0. ring.
  - cbn in H0. rewrite (IH i), H0; [ring|cbn in I; lia|].
    intros j J. specialize (H (S j) ltac:(cbn; lia)). cbn in H. exact H.
Qed.
Lemma one_hot_sum k c w : one_hot k c w -> add_up w = 1.
Proof. intros (L & C & H). subst k. eapply add_up_hot; eassumption. Qed.
