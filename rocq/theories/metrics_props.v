(** * C46-C51 and C74: multimodal/lib/metrics.py. *)

From Coq Require Import List ZArith Reals Bool Permutation Lra Lia.
Import ListNotations.
From Verif Require Import Py nd_model nd_spec metrics_model metrics_spec nd_proof metrics_real metrics_proof metrics_more metrics_checks.
Local Open Scope R_scope.

(** ** C46 *)

(** What is computed, over all elements and along an axis. *)
Theorem C46_value : forall (x y : nd) (eps : R), 0 < eps -> nonneg x -> nonneg y -> shape x = shape y ->
  exists r, generalized_KL x y eps None = Ok r /\ shape r = [] /\ el r [] = KL eps (entries x) (entries y).
Proof. exact (fun x y eps _ _ _ => gKL_total x y eps). Qed.
Print Assumptions C46_value.

Theorem C46_value_axis : forall (x y : nd) (eps : R) (z : Z),
  0 < eps -> nonneg x -> nonneg y -> shape x = shape y ->
  match axis_number (length (shape x)) z with
  | None => generalized_KL x y eps (Some z) = Err ValueError
  | Some _ => exists r, generalized_KL x y eps (Some z) = Ok r /\
      reduced x z r (fun k idx => KL eps (lane x k idx) (lane y k idx))
  end.
Proof. exact (fun x y eps z _ _ _ => gKL_axis x y eps z). Qed.
Print Assumptions C46_value_axis.

Theorem C46_lower_bound : forall (x y : nd) (eps : R) (r : nd),
  0 < eps -> shape x = shape y -> nonneg x -> nonneg y ->
  generalized_KL x y eps None = Ok r -> - (INR (size (shape x)) * eps) <= el r [].
Proof. exact kl_total_bound. Qed.
Print Assumptions C46_lower_bound.

Theorem C46_lower_bound_axis : forall (x y : nd) (eps : R) (z : Z) (r : nd) (idx : list nat),
  0 < eps -> shape x = shape y -> nonneg x -> nonneg y ->
  generalized_KL x y eps (Some z) = Ok r -> valid (shape r) idx ->
  exists n, py_nth (shape x) z = Ok n /\ - (INR n * eps) <= el r idx.
Proof. exact kl_axis_bound. Qed.
Print Assumptions C46_lower_bound_axis.

Theorem C46_self : forall (x : nd) (eps : R) (z : Z) (r : nd) (idx : list nat),
  0 < eps -> nonneg x -> generalized_KL x x eps (Some z) = Ok r -> valid (shape r) idx -> el r idx = 0.
Proof. exact kl_self_axis. Qed.
Print Assumptions C46_self.

Theorem C46_zero_first : forall (x y : nd) (eps : R) (z : Z) (r : nd) (idx : list nat),
  0 < eps -> nonneg y -> shape x = shape y -> (forall j, valid (shape x) j -> el x j = 0) ->
  generalized_KL x y eps (Some z) = Ok r -> valid (shape r) idx ->
  exists k, axis_number (length (shape x)) z = Some k /\ el r idx = lsum (lane y k idx).
Proof. exact (fun x y eps z r idx _ _ => kl_zero_axis x y eps z r idx). Qed.
Print Assumptions C46_zero_first.

(** It can be negative, whatever the smoothing. *)
Theorem C46_nonnegative_refuted : forall eps : R, 0 < eps < 1 ->
  exists x y, shape x = shape y /\ nonneg x /\ nonneg y /\
  exists r, generalized_KL x y eps None = Ok r /\ el r [] < 0.
Proof. exact kl_negative. Qed.
Print Assumptions C46_nonnegative_refuted.

(** kl_div does not use its argument eps. *)
Theorem C46_eps_ignored : forall (a b : nd) (z : Z) (eps eps' : R) (n : bool),
  kl_div a b z eps n = kl_div a b z eps' n.
Proof. exact (fun _ _ _ _ _ _ => eq_refl). Qed.
Print Assumptions C46_eps_ignored.

(** With normalize=True both arguments of the caller are replaced by their
    normalised values, of which the divergence is taken. *)
Theorem C46_normalize : forall (a b : nd) (z : Z) (eps : R) (k : nat),
  nonneg a -> nonneg b -> shape a = shape b -> axis_number (length (shape a)) z = Some k ->
  (forall idx, valid (firstn k (shape a) ++ skipn (S k) (shape a)) idx -> lsum (lane a k idx) <> 0 /\ lsum (lane b k idx) <> 0) ->
  exists r a' b', kl_div a b z eps true = Ok (r, a', b') /\ shape a' = shape a /\ shape b' = shape b /\
    (forall idx, valid (firstn k (shape a) ++ skipn (S k) (shape a)) idx ->
       lane a' k idx = map (fun v => v / lsum (lane a k idx)) (lane a k idx) /\
       lane b' k idx = map (fun v => v / lsum (lane b k idx)) (lane b k idx)) /\
    reduced a z r (fun k idx => KL EPSILON (map (fun v => v / lsum (lane a k idx)) (lane a k idx))
                                           (map (fun v => v / lsum (lane b k idx)) (lane b k idx))).
Proof. exact (fun a b z eps k _ _ S E _ => kl_div_normalized a b z eps k S E). Qed.
Print Assumptions C46_normalize.

(** The symmetrised divergence is the mean of both directions, without and with
    normalisation. *)
Theorem C46_symmetrised : forall (a b : nd) (z : Z) (eps : R), nonneg a -> nonneg b -> shape a = shape b ->
  match axis_number (length (shape a)) z with
  | None => sym_kl_div a b z eps false = Err ValueError
  | Some _ => exists r, sym_kl_div a b z eps false = Ok (r, a, b) /\
      reduced a z r (fun k idx => / 2 * (KL EPSILON (lane a k idx) (lane b k idx) + KL EPSILON (lane b k idx) (lane a k idx)))
  end.
Proof. exact (fun a b z eps _ _ => sym_plain_value a b z eps). Qed.
Print Assumptions C46_symmetrised.

(** The reversed one swaps its arguments. *)
Theorem C46_reversed : forall (a b : nd) (z : Z) (eps : R), nonneg a -> nonneg b -> shape a = shape b ->
  match axis_number (length (shape a)) z with
  | None => rev_kl_div a b z eps false = Err ValueError
  | Some _ => exists r, rev_kl_div a b z eps false = Ok (r, a, b) /\
      reduced a z r (fun k idx => KL EPSILON (lane b k idx) (lane a k idx))
  end.
Proof. exact (fun a b z eps _ _ => rev_plain_value a b z eps). Qed.
Print Assumptions C46_reversed.

Theorem C46_symmetrised_normalize : forall (a b : nd) (z : Z) (eps : R) (k : nat),
  nonneg a -> nonneg b -> shape a = shape b -> axis_number (length (shape a)) z = Some k ->
  (forall idx, valid (firstn k (shape a) ++ skipn (S k) (shape a)) idx -> lsum (lane a k idx) <> 0 /\ lsum (lane b k idx) <> 0) ->
  exists r a' b', sym_kl_div a b z eps true = Ok (r, a', b') /\
    let share l := map (fun v => v / lsum l) l in
    reduced a z r (fun k idx => / 2 * (KL EPSILON (share (lane a k idx)) (share (lane b k idx)) +
                                       KL EPSILON (share (lane b k idx)) (share (lane a k idx)))).
Proof. exact (fun a b z eps k _ _ => sym_normalized_value a b z eps k). Qed.
Print Assumptions C46_symmetrised_normalize.

(** ** C47 *)
Theorem C47_bounds : forall v : nd, probability (entries v) -> 0 <= entropy v <= ln (INR (size (shape v))).
Proof. exact entropy_bounds. Qed.
Print Assumptions C47_bounds.

Theorem C47_zero_iff_deterministic : forall v : nd, probability (entries v) ->
  (entropy v = 0 <-> exists l1 l2, entries v = l1 ++ 1 :: l2 /\ Forall (fun p => p = 0) (l1 ++ l2)).
Proof. exact entropy_zero. Qed.
Print Assumptions C47_zero_iff_deterministic.

Theorem C47_max_iff_uniform : forall v : nd, probability (entries v) ->
  (entropy v = ln (INR (size (shape v))) <-> Forall (fun p => p = / INR (size (shape v))) (entries v)).
Proof. exact entropy_max. Qed.
Print Assumptions C47_max_iff_uniform.

(** Reordering the elements and adding zeros changes nothing. *)
Theorem C47_invariant : forall (v w : nd) (n : nat), Forall (fun p => 0 <= p) (entries v) ->
  Permutation (entries w) (entries v ++ repeat 0 n) -> entropy w = entropy v.
Proof. exact (fun v w n _ => entropy_invariant v w n). Qed.
Print Assumptions C47_invariant.

(** ** C48 *)
Theorem C48_value : forall (h : nd) (n m : nat), shape h = [n; m] -> nonneg h -> total h = 1 ->
  mutual_information h = Ok (shannon (row_sums h) + shannon (col_sums h) - shannon (entries h)).
Proof. exact mi_entropies. Qed.
Print Assumptions C48_value.

(** It is never negative, and 0 exactly for independent variables. *)
Theorem C48_nonneg_zero : forall (h : nd) (n m : nat), shape h = [n; m] -> nonneg h -> total h = 1 ->
  exists v, mutual_information h = Ok v /\ 0 <= v /\
    (v = 0 <-> (forall i j, (i < n)%nat -> (j < m)%nat -> el h [i; j] = lsum (row h i) * lsum (col h j))).
Proof. exact mi_facts. Qed.
Print Assumptions C48_nonneg_zero.

Theorem C48_transpose : forall (h : nd) (n m : nat), shape h = [n; m] -> nonneg h -> total h = 1 ->
  mutual_information (transpose h) = mutual_information h.
Proof. exact mi_transpose. Qed.
Print Assumptions C48_transpose.

(** Anything that has not two axes, or whose elements do not sum to 1 (up to
    1e-8 + 1e-5), is refused with AssertionError; every other matrix is accepted. *)
Theorem C48_refused : forall h : nd,
  length (shape h) <> 2%nat \/ 1001 / 100000000 < Rabs (total h - 1) -> mutual_information h = Err AssertionError.
Proof. exact mi_refused. Qed.
Print Assumptions C48_refused.

Theorem C48_accepted : forall (h : nd) (n m : nat), shape h = [n; m] -> Rabs (total h - 1) <= 1001 / 100000000 ->
  exists v, mutual_information h = Ok v.
Proof. exact mi_accepted. Qed.
Print Assumptions C48_accepted.

(** ** C49, for any number of axes. *)
Theorem C49_value_and_bounds : forall (h : nd) (z : Z) (k : nat),
  axis_number (length (shape h)) z = Some k -> (2 <= length (shape h))%nat -> nonneg h -> total h = 1 ->
  conditional_entropy h z = Ok (shannon (entries h) - shannon (marginal h k)) /\
  probability (marginal h k) /\ probability (rest_marginal h k) /\
  0 <= shannon (entries h) - shannon (marginal h k) <= shannon (rest_marginal h k).
Proof. exact ce_main. Qed.
Print Assumptions C49_value_and_bounds.

(** For matrices the two marginals are the sums of rows and of columns. *)
Theorem C49_matrix_marginals : forall (h : nd) (n m : nat), shape h = [n; m] ->
  marginal h 0 = row_sums h /\ rest_marginal h 0 = col_sums h /\
  marginal h 1 = col_sums h /\ rest_marginal h 1 = row_sums h.
Proof. exact marginal_matrix. Qed.
Print Assumptions C49_matrix_marginals.

(** A distribution of one variable is rejected with TypeError. *)
Theorem C49_one_axis : forall (h : nd) (z : Z), length (shape h) = 1%nat -> total h = 1 ->
  axis_number 1 z <> None -> conditional_entropy h z = Err TypeError.
Proof. exact ce_one_axis. Qed.
Print Assumptions C49_one_axis.

(** Elements that do not sum to 1 are refused with AssertionError, whatever the axis. *)
Theorem C49_refused : forall (h : nd) (z : Z), 1001 / 100000000 < Rabs (total h - 1) ->
  conditional_entropy h z = Err AssertionError.
Proof. exact ce_refused. Qed.
Print Assumptions C49_refused.

(** An axis that the array does not have raises ValueError. *)
Theorem C49_bad_axis : forall (h : nd) (z : Z), axis_number (length (shape h)) z = None -> Rabs (total h - 1) <= 1001 / 100000000 ->
  conditional_entropy h z = Err ValueError.
Proof. exact ce_bad_axis. Qed.
Print Assumptions C49_bad_axis.

(** ** C50 *)
Theorem C50_cosine_value : forall (a b : nd) (z : Z), shape a = shape b ->
  match axis_number (length (shape a)) z with
  | None => cosine_similarity a b z = Err ValueError
  | Some _ => exists r, cosine_similarity a b z = Ok r /\ reduced a z r (fun k idx => cosine (lane a k idx) (lane b k idx))
  end.
Proof. exact cos_axis. Qed.
Print Assumptions C50_cosine_value.

(** Bounds, symmetry, sign, and the values for zero and equal vectors. *)
Theorem C50_cosine_laws : forall (a b : nd) (z : Z) (r r' : nd) (idx : list nat),
  shape a = shape b -> cosine_similarity a b z = Ok r -> cosine_similarity b a z = Ok r' -> valid (shape r) idx ->
  -1 <= el r idx <= 1 /\ el r' idx = el r idx /\
  (nonneg a -> nonneg b -> 0 <= el r idx) /\
  exists k, axis_number (length (shape a)) z = Some k /\
    (Forall (fun v => v = 0) (lane a k idx) \/ Forall (fun v => v = 0) (lane b k idx) -> el r idx = 0) /\
    (lane a k idx = lane b k idx -> Exists (fun v => v <> 0) (lane a k idx) -> el r idx = 1).
Proof. exact cos_facts. Qed.
Print Assumptions C50_cosine_laws.
Theorem C50_cosine_scale : forall (a b : nd) (z : Z) (r r' : nd) (c : R) (idx : list nat),
  shape a = shape b -> 0 < c -> cosine_similarity a b z = Ok r ->
  cosine_similarity (map1 (Rmult c) a) b z = Ok r' -> valid (shape r) idx -> el r' idx = el r idx.
Proof. exact cos_scale. Qed.
Print Assumptions C50_cosine_scale.

Theorem C50_frobenius_value : forall (a b : nd) (z : Z), shape a = shape b ->
  match axis_number (length (shape a)) z with
  | None => frobenius a b z = Err ValueError
  | Some _ => exists r, frobenius a b z = Ok r /\ reduced a z r (fun k idx => distance (lane a k idx) (lane b k idx))
  end.
Proof. exact frob_axis. Qed.
Print Assumptions C50_frobenius_value.

(** It is a metric. *)
Theorem C50_frobenius_metric : forall (a b : nd) (z : Z) (r r' : nd) (idx : list nat),
  shape a = shape b -> frobenius a b z = Ok r -> frobenius b a z = Ok r' -> valid (shape r) idx ->
  0 <= el r idx /\ el r' idx = el r idx /\
  exists k, axis_number (length (shape a)) z = Some k /\ (el r idx = 0 <-> lane a k idx = lane b k idx).
Proof. exact frob_metric. Qed.
Print Assumptions C50_frobenius_metric.
Theorem C50_frobenius_triangle : forall (a b c : nd) (z : Z) (r s t : nd) (idx : list nat),
  shape a = shape b -> shape b = shape c ->
  frobenius a b z = Ok r -> frobenius b c z = Ok s -> frobenius a c z = Ok t -> valid (shape t) idx ->
  el t idx <= el r idx + el s idx.
Proof. exact frob_triangle. Qed.
Print Assumptions C50_frobenius_triangle.

(** ** C51 *)
Theorem C51_bounds : forall (x : nd) (z : Z) (eps : R) (k : nat), axis_number (length (shape x)) z = Some k ->
  (2 <= nth k (shape x) 0)%nat -> (0 < size (shape x))%nat -> 0 < eps ->
  exists v, hoyer_sparseness x z eps = Ok v /\ 0 <= v <= 1.
Proof. exact hoyer_bounds. Qed.
Print Assumptions C51_bounds.

(** One-hot and zero lanes give 1; lanes of one constant c give a number that
    tends to 0 with eps. *)
Theorem C51_one_hot : forall (x : nd) (z : Z) (eps : R) (k : nat), axis_number (length (shape x)) z = Some k ->
  (2 <= nth k (shape x) 0)%nat -> (0 < size (shape x))%nat -> 0 < eps ->
  (forall idx, valid (firstn k (shape x) ++ skipn (S k) (shape x)) idx -> one_hot (lane x k idx)) ->
  hoyer_sparseness x z eps = Ok 1.
Proof.
  exact (fun x z eps k E H2 Hs He H => hoyer_is x z eps k 1 E H2 Hs
    (fun idx V => hoyer_one_hot eps _ (eq_ind_r (fun n => (2 <= n)%nat) H2 (length_lane x k idx)) He (H idx V))).
Qed.
Print Assumptions C51_one_hot.

Theorem C51_constant : forall (x : nd) (z : Z) (eps c : R) (k n : nat), axis_number (length (shape x)) z = Some k ->
  (2 <= nth k (shape x) 0)%nat -> (0 < size (shape x))%nat -> 0 < eps ->
  (forall idx, valid (firstn k (shape x) ++ skipn (S k) (shape x)) idx -> lane x k idx = repeat c n) -> (2 <= n)%nat ->
  hoyer_sparseness x z eps = Ok (eps / (sqrt (INR n) * Rabs c + eps)).
Proof.
  exact (fun x z eps c k n E H2 Hs He H Hn => hoyer_is x z eps k _ E H2 Hs
    (fun idx V => eq_ind_r (fun l => hoyer eps l = _) (hoyer_const eps c n Hn He) (H idx V))).
Qed.
Print Assumptions C51_constant.

Theorem C51_real_sparsity : forall x : nd, (0 < size (shape x))%nat ->
  real_sparsity x = 1 - lsum (map (fun v => if Req_EM_T v 0 then 0 else 1) (entries x)) / INR (size (shape x)) /\
  0 <= real_sparsity x <= 1.
Proof. exact (fun x H => conj (real_sparsity_count x) (real_sparsity_bounds x H)). Qed.
Print Assumptions C51_real_sparsity.

(** ** C74: all_distances compares each row of the first matrix with each row of
    the second one. *)
Theorem C74_frobenius : forall (reco ex : nd) (n m d : nat), shape reco = [n; d] -> shape ex = [m; d] ->
  exists r, all_distances_nd reco ex frobenius = Ok r /\ shape r = [n; m] /\
    forall i j, (i < n)%nat -> (j < m)%nat -> el r [i; j] = distance (row reco i) (row ex j).
Proof. exact all_frobenius. Qed.
Print Assumptions C74_frobenius.
Theorem C74_kl : forall (reco ex : nd) (n m d : nat) (eps : R),
  0 < eps -> nonneg reco -> nonneg ex -> shape reco = [n; d] -> shape ex = [m; d] ->
  exists r, all_distances_nd reco ex (fun a b z => generalized_KL a b eps (Some z)) = Ok r /\ shape r = [n; m] /\
    forall i j, (i < n)%nat -> (j < m)%nat -> el r [i; j] = KL eps (row reco i) (row ex j).
Proof. exact (fun reco ex n m d eps _ _ _ => all_kl reco ex n m d eps). Qed.
Print Assumptions C74_kl.
Theorem C74_cosine : forall (reco ex : nd) (n m d : nat), shape reco = [n; d] -> shape ex = [m; d] ->
  exists r, all_distances_nd reco ex cosine_diff = Ok r /\ shape r = [n; m] /\
    forall i j, (i < n)%nat -> (j < m)%nat -> el r [i; j] = - cosine (row reco i) (row ex j).
Proof. exact all_cosine. Qed.
Print Assumptions C74_cosine.

(** Rows of different lengths are not always rejected: a matrix with one column
    is compared with each column of the other one. *)
Theorem C74_lengths_checked_refuted : exists reco ex : nd, shape reco = [1; 1]%nat /\ shape ex = [1; 2]%nat /\
  exists r, all_distances_nd reco ex frobenius = Ok r.
Proof.
  exists (mat 1 [[1]]), (mat 2 [[1; 2]]). split; [reflexivity|]. split; [reflexivity|]. eexists. reflexivity.
Qed.
Print Assumptions C74_lengths_checked_refuted.

(** ** Examples *)
Example ex_p : nd := mat 2 [[1/2; 0]; [1/4; 1/4]].
Example ex_p_ok : shape ex_p = [2; 2]%nat /\ nonneg ex_p /\ total ex_p = 1 /\ probability (entries ex_p).
Proof.
  split; [reflexivity|]. assert (T : total ex_p = 1) by (unfold total, entries; cbn; lra).
  assert (F : Forall (fun p => 0 <= p) (entries ex_p)) by (unfold entries; cbn; repeat constructor; lra).
  split; [|split; [exact T|split; [exact F|exact T]]].
  intros [|i [|j [|]]]; cbn; try tauto. intros (Hi & Hj & _).
  destruct i as [|[|]]; destruct j as [|[|]]; cbn; lra || lia.
Qed.
Example ex_mi : exists v, mutual_information ex_p = Ok v /\ 0 < v.
Proof.
  destruct ex_p_ok as (S & N & T & _). destruct (C48_nonneg_zero ex_p 2 2 S N T) as (v & E & P & Z). exists v. split; auto.
  destruct (Req_dec v 0) as [Hv|]; [|lra]. apply proj1 in Z. specialize (Z Hv 0%nat 1%nat ltac:(lia) ltac:(lia)). exfalso. revert Z. unfold row, col. cbn. lra.
Qed.
Example ex_ce : exists v, conditional_entropy ex_p 0 = Ok v /\ 0 <= v <= shannon (col_sums ex_p).
Proof.
  destruct ex_p_ok as (S & N & T & _). destruct (C49_value_and_bounds ex_p 0 0 eq_refl ltac:(cbn; lia) N T) as (E & _ & _ & B).
  eexists. split; [exact E|]. rewrite <- (proj1 (proj2 (C49_matrix_marginals ex_p 2 2 S))). exact B.
Qed.
Example ex_kl_zero : exists r, generalized_KL (vec [0; 0]) (vec [1; 2]) (/ 2) (Some 0%Z) = Ok r /\ el r [] = 3.
Proof.
  destruct (gKL_axis (vec [0; 0]) (vec [1; 2]) (/ 2) 0 eq_refl) as (r & H & (k & K & S & L)). exists r. split; auto.
  injection K as <-. rewrite L by (rewrite S; cbn; auto). unfold KL, sum2, lane. cbn. rewrite !Rmult_0_l. lra.
Qed.
Example ex_hoyer : hoyer_sparseness (mat 2 [[0; 3]; [5; 0]]) (-1) (/ 8) = Ok 1.
Proof.
  apply (C51_one_hot _ (-1) (/ 8) 1); try reflexivity; try (cbn; lia); try lra. intros [|i [|]]; cbn; try tauto. intros (Hi & _).
  destruct i as [|[|]]; [| |lia].
  - exists [0], 3, []. split; [reflexivity|repeat constructor].
  - exists [], 5, [0]. split; [reflexivity|repeat constructor].
Qed.
Example ex_distance : exists r, all_distances_nd (mat 2 [[0; 0]; [3; 4]]) (mat 2 [[3; 4]]) frobenius = Ok r /\
  el r [0; 0]%nat = 5 /\ el r [1; 0]%nat = 0.
Proof.
  destruct (C74_frobenius (mat 2 [[0; 0]; [3; 4]]) (mat 2 [[3; 4]]) 2 1 2 eq_refl eq_refl) as (r & H & _ & L). exists r. split; auto.
  rewrite !L by lia. split.
  - unfold distance, norm, inner, sum2, row. cbn. replace (_ + _) with (5 * 5) by ring. apply sqrt_square. lra.
  - unfold row. cbn. apply distance_zero; reflexivity.
Qed.

(** An array of two axes with sum 2 is refused; one with sum 1 is accepted. *)
Example ex_refused : shape (Nd [1%nat; 1%nat] (fun _ => 2)) = [1%nat; 1%nat] /\
  1001 / 100000000 < Rabs (total (Nd [1%nat; 1%nat] (fun _ => 2)) - 1) /\
  Rabs (total (Nd [1%nat; 1%nat] (fun _ => 1)) - 1) <= 1001 / 100000000.
Proof.
  split; [reflexivity|]. unfold total, entries, lsum. cbn. split.
  - rewrite Rabs_pos_eq; lra.
  - replace (1 + 0 - 1) with 0 by lra. rewrite Rabs_R0. lra.
Qed.
Example ex_bad_axis : axis_number (length (shape (Nd [1%nat; 1%nat] (fun _ => 1)))) 2 = None /\
  Rabs (total (Nd [1%nat; 1%nat] (fun _ => 1)) - 1) <= 1001 / 100000000.
Proof. split; [reflexivity|exact (proj2 (proj2 ex_refused))]. Qed.
