(** * Proofs about the coefficients and the success of prepare in experiment.py. *)

From Coq Require Import List ZArith Reals Bool Arith String Permutation Sorted Lia Lra.
Import ListNotations.
From Verif Require Import Py Py_proof ListUtil pairing_model pairing_spec pairing_proof evaluation_model evaluation_spec evaluation_proof
  utils_model utils_spec utils_proof logger_model nd_model nd_spec nd_proof sparse_model nmf_model nmf_spec nmf_laws learner_model learner_spec learner_proof
  experiment_model experiment_spec experiment_proof.
From Coq Require Import QArith Qreals.
Notation Q := QArith_base.Q.
Open Scope py_scope.
Local Open Scope nat_scope.
Notation length := List.length.

(** ** Coefficients. *)
Lemma fits_mshape n d x : fits n d x -> mshape x = [n; d].
Proof. destruct x; cbn; tauto. Qed.
Lemma mshape_value x n d : mshape x = [n; d] -> shape (mvalue x) = [n; d].
Proof. destruct x; auto. Qed.
Lemma row_average_value x n d : mshape x = [n; d] -> row_average x = Ok (mean_row_sum x).
Proof.
  intro S. pose proof (mshape_value _ _ _ S) as Sv. unfold row_average. pose proof (sum_axis_some (mvalue x) 1) as H. rewrite Sv in H. cbn [length] in H.
  change (axis_number 2 1) with (Some 1) in H. cbn beta iota in H. destruct H as (r & -> & Sr & Lr). cbn [bind]. f_equal.
  unfold average, mean_row_sum. change (remove 1 [n; d]) with [n] in Sr. rewrite Sr. unfold rows_of. rewrite S. cbn [nth].
  replace (size [n]) with n by (cbn; lia). f_equal.
  cbn [sum_over]. rewrite rsum_lsum. f_equal. apply map_ext. intro i. rewrite Lr. unfold row, lane. rewrite Sv. reflexivity.
Qed.
Lemma mean_scaled c x n d : fits n d x -> mean_row_sum (mscale c x) = (c * mean_row_sum x)%R.
Proof.
  intro F. destruct (mscale_fits c n d x F) as [F' L]. unfold mean_row_sum. rewrite (rows_fits _ _ _ F), (rows_fits _ _ _ F').
  unfold Rdiv. rewrite <- Rmult_assoc. f_equal.
  assert (Z : forall l, (forall i, In i l -> i < n) -> lsum (map (fun i => lsum (row (mvalue (mscale c x)) i)) l) = (c * lsum (map (fun i => lsum (row (mvalue x) i)) l))%R).
  { induction l as [|i l IH]; intro H; cbn [map lsum]; [lra|]. rewrite IH by (intros; apply H; now right).
    rewrite Rmult_plus_distr_l. f_equal. assert (Hi : i < n) by (apply H; now left).
    unfold row. rewrite (mshape_value _ _ _ (fits_mshape _ _ _ F)), (mshape_value _ _ _ (fits_mshape _ _ _ F')). cbn [nth].
    generalize (seq 0 d). intro js. induction js as [|j js IHj]; cbn [map lsum]; [lra|]. rewrite IHj, (L i j Hi). lra. }
  apply Z. intros i Hi. apply in_seq in Hi. lia.
Qed.
Lemma set_coefs_given x cs : x_coefs x = Some cs -> set_coefs x = Ok (map Q2R cs).
Proof. unfold set_coefs. now intros ->. Qed.
Lemma set_coefs_computed x : x_coefs x = None -> (forall ld, In ld (x_loaders x) -> exists n d, mshape (ld_data ld) = [n; d]) ->
  set_coefs x = Ok (map (fun ld => 1 / mean_row_sum (ld_data ld))%R (x_loaders x)).
Proof.
  intros E H. unfold set_coefs. rewrite E. apply mapM_pure. intros ld I. destruct (H ld I) as (n & d & S). now rewrite (row_average_value _ _ _ S).
Qed.

Lemma lsum_pos l v : Forall (fun a => 0 <= a)%R l -> In v l -> (v <> 0)%R -> (0 < lsum l)%R.
Proof.
  induction l as [|a l IH]; intros F I N; [destruct I|]. inversion F; subst. cbn. destruct I as [->|I].
  - assert (0 <= lsum l)%R. { clear -H2. induction l; cbn; [lra|]. inversion H2; subst. specialize (IHl H3). lra. } lra.
  - specialize (IH H2 I N). lra.
Qed.
Lemma lsum_nonneg' l : Forall (fun a => 0 <= a)%R l -> (0 <= lsum l)%R.
Proof. induction 1; cbn; lra. Qed.
Lemma mean_positive x n d idx : mshape x = [n; d] -> nonneg (mvalue x) -> valid (shape (mvalue x)) idx -> el (mvalue x) idx <> 0%R -> (0 < mean_row_sum x)%R.
Proof.
  intros S N V Nz. pose proof (mshape_value _ _ _ S) as Sv. rewrite Sv in V. destruct idx as [|i [|j [|]]]; cbn in V; try tauto. destruct V as (Hi & Hj & _).
  unfold mean_row_sum, rows_of. rewrite S. cbn [nth]. apply Rdiv_lt_0_compat; [|apply lt_0_INR; lia].
  assert (Nr : forall i, i < n -> Forall (fun a => 0 <= a)%R (row (mvalue x) i)).
  { intros i' H'. apply Forall_forall. intros v Hv. unfold row in Hv. apply in_map_iff in Hv as (j' & <- & H2). apply in_seq in H2. rewrite Sv in H2. cbn in H2.
    apply N. rewrite Sv. cbn. lia. }
  apply (lsum_pos _ (lsum (row (mvalue x) i))).
  - apply Forall_forall. intros v Hv. apply in_map_iff in Hv as (i' & <- & H'). apply in_seq in H'. apply lsum_nonneg'. apply Nr. lia.
  - apply in_map_iff. exists i. split; auto. apply in_seq. lia.
  - apply Rgt_not_eq. apply (lsum_pos _ (el (mvalue x) [i; j])); auto. unfold row. apply in_map_iff. exists j. split; auto. apply in_seq. rewrite Sv. cbn. lia.
Qed.
Lemma balance x n d : fits n d (ld_data x) -> (mean_row_sum (ld_data x) <> 0)%R ->
  mean_row_sum (mscale (1 / mean_row_sum (ld_data x)) (ld_data x)) = 1%R.
Proof. intros F H. rewrite (mean_scaled _ _ _ _ F). now field. Qed.

(** ** Generators. *)
Lemma round64_le a b : (a <= b)%R -> (round64 a <= round64 b)%R.
Proof. intro H. unfold round64. apply Flocq.Core.Generic_fmt.round_le; auto; [apply Flocq.Core.FLT.FLT_exp_valid; reflexivity|apply Flocq.Core.Generic_fmt.valid_rnd_N]. Qed.
Lemma round64_0 : round64 0 = 0%R.
Proof. unfold round64. apply Flocq.Core.Generic_fmt.round_0. apply Flocq.Core.Generic_fmt.valid_rnd_N. Qed.
Lemma round64_bpow e : (-1074 <= e)%Z -> round64 (Flocq.Core.Raux.bpow Flocq.Core.Zaux.radix2 e) = Flocq.Core.Raux.bpow Flocq.Core.Zaux.radix2 e.
Proof.
  intro H. unfold round64. apply Flocq.Core.Generic_fmt.round_generic; [apply Flocq.Core.Generic_fmt.valid_rnd_N|]. apply Flocq.Core.Generic_fmt.generic_format_bpow. unfold Flocq.Core.FLT.FLT_exp. lia.
Qed.
Lemma round64_1 : round64 1 = 1%R.
Proof. exact (round64_bpow 0 ltac:(lia)). Qed.
Lemma round64_ge1 v : (1 <= v)%R -> (1 <= round64 v)%R.
Proof. intro H. rewrite <- round64_1 at 1. now apply round64_le. Qed.
Lemma reps_pos r : (0 < r <= 1)%R -> (1 <= reps_of round64 r)%Z.
Proof.
  intro H. unfold reps_of. assert (1 <= round64 (1 / r))%R. { apply round64_ge1. apply Rmult_le_reg_r with r; [lra|]. unfold Rdiv. rewrite Rmult_assoc, Rinv_l; lra. }
  rewrite Flocq.Core.Raux.Ztrunc_floor by lra. apply Flocq.Core.Raux.Zfloor_lub. lra.
Qed.
Lemma tenth : (0 < round64 (/ 10) <= 1)%R.
Proof.
  split.
  - apply Rlt_le_trans with (Flocq.Core.Raux.bpow Flocq.Core.Zaux.radix2 (-4)); [apply Flocq.Core.Raux.bpow_gt_0|].
    rewrite <- (round64_bpow (-4)) by lia. apply round64_le. cbn. lra.
  - rewrite <- round64_1. apply round64_le. lra.
Qed.
Lemma Q_unit q : (0 < q <= 1)%Q -> (0 < Q2R q <= 1)%R.
Proof.
  intros [A B]. split.
  - replace 0%R with (Q2R 0) by (unfold Q2R; cbn; lra). now apply Qlt_Rlt.
  - replace 1%R with (Q2R 1) by (unfold Q2R; cbn; lra). now apply Qle_Rle.
Qed.

Lemma leave_one_out_good n : good_splits LeaveOneOut n (leave_one_out n).
Proof.
  destruct (leave_one_out_spec n) as [L H]. split; [cbn; now rewrite L|]. split.
  - intros s I. destruct (In_nth_error _ _ I) as [i Ei]. assert (Hi : i < n) by (rewrite <- L; apply nth_error_Some; congruence).
    destruct (H i Hi) as (tr & E & S & M). rewrite E in Ei. injection Ei as <-. unfold is_split. cbn.
    apply NoDup_Permutation.
    + apply NoDup_app_intro; [now apply StronglySorted_lt_NoDup|repeat constructor; auto|]. intros j Hj [->|[]]. apply M in Hj. lia.
    + apply seq_NoDup.
    + intro j. rewrite in_app_iff, in_seq, M. cbn. lia.
  - intros i j si sj N Ei Ej. assert (Hi : i < n) by (rewrite <- L; apply nth_error_Some; congruence). assert (Hj : j < n) by (rewrite <- L; apply nth_error_Some; congruence).
    destruct (H i Hi) as (a & E & _). destruct (H j Hj) as (b & E' & _). rewrite E in Ei. rewrite E' in Ej. injection Ei as <-. injection Ej as <-.
    intros k [->|[]] [->|[]]. auto.
Qed.
Lemma split_nonneg n r : (0 < r <= 1)%R -> (0 <= nb_test_of round64 n r)%Z.
Proof.
  intro H. unfold nb_test_of.
  assert (M : forall a, (0 <= a)%R -> (0 <= round64 a)%R) by (intros a Ha; rewrite <- round64_0; now apply round64_le).
  assert (P : (0 <= round64 (r * round64 (IZR (Z.of_nat n))))%R). { apply M. apply Rmult_le_pos; [lra|]. apply M. apply IZR_le. lia. }
  rewrite Flocq.Core.Raux.Ztrunc_floor by auto. apply Flocq.Core.Raux.Zfloor_lub. auto.
Qed.

(** When get_generator and the first call of next succeed. *)
Lemma generator_good rd m n : (forall l, Permutation (r_split rd l) l) -> (Z.of_nat n <= 2 ^ 51)%Z ->
  match m with Ratio q => (0 < q <= 1)%Q | _ => True end ->
  forall g l, get_generator rd m n = Ok g -> g = Ok l -> good_splits m n l.
Proof.
  intros Sh Hn Hm g l E ->. destruct m as [| |q]; cbn [get_generator] in E.
  - injection E as <-. apply leave_one_out_good.
  - apply bind_ok in E as (ls & E & E2). destruct ls as [|s ls]; [discriminate|]. injection E2 as <-.
    destruct (random_split_spec (r_split rd) n (round64 (/ 10)) Hn tenth Sh) as [A B]. pose proof (split_nonneg n _ tenth) as P.
    assert (D : (1 <= nb_test_of round64 n (round64 (/ 10)))%Z). { destruct (Z.eq_dec (nb_test_of round64 n (round64 (/ 10))) 0) as [Z|Z]; [rewrite (B Z) in E; discriminate|lia]. }
    destruct (A D) as (l' & E' & _ & Is & _). rewrite E in E'. injection E' as <-. split; [reflexivity|]. split.
    + intros s' [<-|[]]. apply Is. now left.
    + intros i j si sj N. destruct i as [|[|i]], j as [|[|j]]; cbn; try congruence; discriminate.
  - injection E as E. pose proof (Q_unit q Hm) as Hq.
    destruct (random_split_spec (r_split rd) n (Q2R q) Hn Hq Sh) as [A B]. pose proof (split_nonneg n _ Hq) as P.
    assert (D : (1 <= nb_test_of round64 n (Q2R q))%Z). { destruct (Z.eq_dec (nb_test_of round64 n (Q2R q)) 0) as [Z|Z]; [rewrite (B Z) in E; discriminate|lia]. }
    destruct (A D) as (l' & E' & L & Is & Dj). rewrite E in E'. injection E' as <-. split; [exact L|]. split; auto. intros s Hs. now apply Is.
Qed.
Lemma can_split_generator rd m n : (forall l, Permutation (r_split rd l) l) -> can_split m n ->
  exists l, get_generator rd m n = Ok (Ok l) /\ l <> [] /\ forall s, In s l -> is_split n s /\ fst s <> [] /\ snd s <> [].
Proof.
  intros Sh [Hn H]. destruct m as [| |q]; cbn [get_generator].
  - exists (leave_one_out n). split; auto. destruct (leave_one_out_good n) as (L & I & _). split; [intro X; rewrite X in L; cbn in L; lia|].
    intros s Hs. split; [now apply I|]. destruct (leave_one_out_spec n) as [Ln K]. destruct (In_nth_error _ _ Hs) as [i Ei].
    assert (Hi : i < n) by (rewrite <- Ln; apply nth_error_Some; congruence). destruct (K i Hi) as (tr & E & _ & M). rewrite E in Ei. injection Ei as <-. cbn.
    split; [|discriminate]. intros ->. assert (X : In (if i =? 0 then 1 else 0) []); [|destruct X]. apply M. destruct (Nat.eqb_spec i 0); lia.
  - destruct (random_split_spec (r_split rd) n (round64 (/ 10)) Hn tenth Sh) as [A _]. destruct A as (l & -> & L & Is & _); [lia|]. cbn [bind].
    pose proof (reps_pos _ tenth). destruct l as [|s l]; [cbn in L; lia|]. exists [s]. split; auto. split; [discriminate|].
    intros s' [<-|[]]. destruct (Is s (or_introl eq_refl)) as [P Lt]. split; auto. pose proof (Permutation_length P) as X. rewrite app_length, seq_length in X.
    split; intro Y; rewrite Y in *; cbn in *; lia.
  - destruct H as [Hq H]. apply Q_unit in Hq.
    destruct (random_split_spec (r_split rd) n (Q2R q) Hn Hq Sh) as [A _]. destruct A as (l & -> & L & Is & _); [lia|].
    pose proof (reps_pos _ Hq). exists l. split; auto. split; [intro X; rewrite X in L; cbn in L; lia|].
    intros s' Hs. destruct (Is s' Hs) as [P Lt]. split; auto. pose proof (Permutation_length P) as X. rewrite app_length, seq_length in X.
    split; intro Y; rewrite Y in *; cbn in *; lia.
Qed.
