(** * C40-C45, C75, C76: the matrix factorisation of multimodal/lib/nmf.py.

    [proper x n m]: the data [x] is a dense n x m matrix, or a sparse one whose rows
    are sorted by column.  [number o m] is the number of components of the
    object for data with [m] columns. *)

From Coq Require Import List ZArith Reals Bool Sorted Lra Lia.
Import ListNotations.
From Verif Require Import Py nd_model nd_spec sparse_model nmf_model nmf_spec nmf_proof nmf_laws nmf_fit nmf_stop.
Local Open Scope R_scope.

(** ** C43: what a call does.  From non-negative data, and an initial dictionary (and
    components, for transform) of fitting shape, it makes updates until the
    divergence falls by less than tol * n * m or max_iter is reached; the errors
    are the divergences before the updates. *)
Theorem C43_run : forall rnd (o : nmf) (x : matrix) (weights : R) (scale_W fit : bool) (n m : nat),
  proper x n m -> nonneg (mvalue x) ->
  let k := number o m in
  (forall d, init_dictionary o = Some d -> shape d = [k; m]) ->
  (fit = false -> exists c, components o = Some c /\ shape c = [k; m]) ->
  (1 <= max_iter o)%Z ->
  exists o' w errs warn x' w0 h0 h,
    fit_transform rnd o x weights scale_W fit = (o', Ok (w, errs, warn, x')) /\
    first_dictionary rnd o k m h0 /\ shape h0 = [k; m] /\ first_coefficients n k m (mvalue x) h0 w0 /\
    runs x n k m fit w0 (if fit then h0 else match components o with Some c => c | None => h0 end) errs w h /\
    errs <> [] /\ (length errs <= Z.to_nat (max_iter o))%nat /\ spaced (tol o * INR n * INR m) errs /\
    alike x x' n m /\
    components o' = (if fit then Some h else components o) /\ init_dictionary o' = init_dictionary o /\ n_components o' = Some k /\
    tol o' = tol o /\ max_iter o' = max_iter o.
Proof. exact fit_transform_value. Qed.
Print Assumptions C43_run.

(** It ends only for one of these reasons: all iterations were made, or the
    divergence that is reached is less than tol * n * m below the last one of the list.
    The warning is written if the last iteration was started and tol is positive. *)
Theorem C43_end : forall rnd (o : nmf) (x : matrix) (weights : R) (scale_W fit : bool) (n m : nat) o' w errs warn x' c,
  proper x n m -> nonneg (mvalue x) ->
  (forall d, init_dictionary o = Some d -> shape d = [number o m; m]) ->
  (fit = false -> exists d, components o = Some d /\ shape d = [number o m; m]) ->
  fit_transform rnd o x weights scale_W fit = (o', Ok (w, errs, warn, x')) -> components o' = Some c ->
  (length errs = Z.to_nat (max_iter o) \/
   exists e, ends_with errs e /\ e - divergence (/ 100000000) n (number o m) m (mvalue x) w c < tol o * INR n * INR m) /\
  (warn = true <-> 0 < tol o * INR n * INR m /\ (max_iter o <= Z.of_nat (S (length errs)))%Z).
Proof. exact fit_transform_stop. Qed.
Print Assumptions C43_end.

Theorem C43_arguments_ignored : forall rnd (o : nmf) (x : matrix) (weights weights' : R) (scale_W scale_W' fit : bool),
  fit_transform rnd o x weights scale_W fit = fit_transform rnd o x weights' scale_W' fit.
Proof. exact (fun _ _ _ _ _ _ _ _ => eq_refl). Qed.
Print Assumptions C43_arguments_ignored.

Theorem C43_no_iteration : forall rnd (o : nmf) (x : matrix) (weights : R) (scale_W fit : bool) (n m : nat),
  proper x n m -> nonneg (mvalue x) ->
  (forall d, init_dictionary o = Some d -> shape d = [number o m; m]) -> (max_iter o <= 0)%Z ->
  snd (fit_transform rnd o x weights scale_W fit) = Err UnboundLocalError.
Proof. exact fit_transform_no_iteration. Qed.
Print Assumptions C43_no_iteration.

Theorem C43_negative_data : forall rnd (o : nmf) (x : matrix) (weights : R) (scale_W fit : bool) (n m i j : nat),
  proper x n m -> (i < n)%nat -> (j < m)%nat -> el (mvalue x) [i; j] < 0 ->
  fit_transform rnd o x weights scale_W fit = (o, Err ValueError).
Proof. exact fit_transform_negative. Qed.
Print Assumptions C43_negative_data.

(** ** C40 *)
Theorem C40_update : forall (eps : R) (x : matrix) (n k m : nat) (w h : nd) (fit : bool), 0 < eps ->
  proper x n m -> nonneg (mvalue x) -> shape w = [n; k] -> shape h = [k; m] -> nonneg w -> nonneg h ->
  exists w' h', update eps x w h fit = Ok (w', h') /\ shape w' = [n; k] /\ shape h' = [k; m] /\ nonneg w' /\ nonneg h' /\
    (forall i l, (i < n)%nat -> (l < k)%nat -> el w [i; l] = 0 -> el w' [i; l] = 0) /\
    (forall l j, (l < k)%nat -> (j < m)%nat -> el h [l; j] = 0 -> el h' [l; j] = 0).
Proof. exact update_signs. Qed.
Print Assumptions C40_update.

Theorem C40_call : forall rnd (o : nmf) (x : matrix) (weights : R) (scale_W fit : bool) (n m : nat),
  proper x n m -> nonneg (mvalue x) ->
  (forall d, init_dictionary o = Some d -> shape d = [number o m; m] /\ nonneg d) ->
  (fit = false -> exists c, components o = Some c /\ shape c = [number o m; m] /\ nonneg c) ->
  (1 <= max_iter o)%Z ->
  forall o' w errs warn x', fit_transform rnd o x weights scale_W fit = (o', Ok (w, errs, warn, x')) ->
  shape w = [n; number o m] /\ nonneg w /\ exists h, components o' = Some h /\ shape h = [number o m; m] /\ nonneg h.
Proof. exact call_signs. Qed.
Print Assumptions C40_call.

(** With an initial dictionary, its zeros stay; a coefficient that is zero at the
    start (the sample and the atom share no feature) stays zero. *)
Theorem C40_zeros : forall rnd (o : nmf) (x : matrix) (weights : R) (scale_W fit : bool) (n m : nat),
  proper x n m -> nonneg (mvalue x) ->
  (forall d, init_dictionary o = Some d -> shape d = [number o m; m] /\ nonneg d) ->
  (fit = false -> exists c, components o = Some c /\ shape c = [number o m; m] /\ nonneg c) ->
  (1 <= max_iter o)%Z ->
  forall o' w errs warn x', fit_transform rnd o x weights scale_W fit = (o', Ok (w, errs, warn, x')) ->
  forall d, init_dictionary o = Some d ->
  (forall i l, (i < n)%nat -> (l < number o m)%nat ->
     sum_to m (fun j => el (mvalue x) [i; j] * el d [l; j]) = 0 -> el w [i; l] = 0) /\
  (fit = true -> forall h, components o' = Some h ->
     forall l j, (l < number o m)%nat -> (j < m)%nat -> el d [l; j] = 0 -> el h [l; j] = 0).
Proof. exact call_zeros. Qed.
Print Assumptions C40_zeros.

(** ** C41: [objective] is [smoothed] for dense data; for sparse data the logarithm
    is taken at the elements that are not zero only. *)
Theorem C41_update : forall (eps : R) (x : matrix) (n k m : nat) (w h : nd), 0 < eps ->
  proper x n m -> nonneg (mvalue x) -> shape w = [n; k] -> shape h = [k; m] -> nonneg w -> nonneg h ->
  (forall l, (l < k)%nat -> lsum (row h l) = 1) ->
  exists w', update eps x w h false = Ok (w', h) /\
    objective x eps n k m (mvalue x) w' h <= objective x eps n k m (mvalue x) w h.
Proof. exact update_objective. Qed.
Print Assumptions C41_update.

(** For other dictionaries the increase is bounded: dictionary rows that sum to
    s/(s+1e-16), as fit leaves them, make the bound tiny. *)
Theorem C41_update_bound : forall (eps : R) (x : matrix) (n k m : nat) (w h : nd), 0 < eps ->
  proper x n m -> nonneg (mvalue x) -> shape w = [n; k] -> shape h = [k; m] -> nonneg w -> nonneg h ->
  exists w', update eps x w h false = Ok (w', h) /\
    objective x eps n k m (mvalue x) w' h <= objective x eps n k m (mvalue x) w h +
      cells n k (fun i l => el w [i; l] * (exp (lsum (row h l) - 1) - lsum (row h l))).
Proof. exact update_objective_bound. Qed.
Print Assumptions C41_update_bound.

(** The whole transform: compared with the first coefficients. *)
Theorem C41_transform : forall rnd (o : nmf) (x : matrix) (weights : R) (scale_W fit : bool) (n m : nat),
  proper x n m -> nonneg (mvalue x) ->
  (forall d, init_dictionary o = Some d -> shape d = [number o m; m] /\ nonneg d) ->
  (fit = false -> exists c, components o = Some c /\ shape c = [number o m; m] /\ nonneg c) ->
  (1 <= max_iter o)%Z ->
  forall o' w errs warn x', fit_transform rnd o x weights scale_W fit = (o', Ok (w, errs, warn, x')) ->
  fit = false -> forall c, components o = Some c -> (forall l, (l < number o m)%nat -> lsum (row c l) = 1) ->
  exists w0 h0, first_dictionary rnd o (number o m) m h0 /\ first_coefficients n (number o m) m (mvalue x) h0 w0 /\
    objective x (/ 100000000) n (number o m) m (mvalue x) w c <= objective x (/ 100000000) n (number o m) m (mvalue x) w0 c.
Proof. exact call_objective. Qed.
Print Assumptions C41_transform.

(** Without normalised rows the objective can increase. *)
Theorem C41_unnormalised_refuted : exists x w h w', shape x = [1; 1]%nat /\ shape w = [1; 1]%nat /\ shape h = [1; 1]%nat /\
  nonneg x /\ nonneg w /\ nonneg h /\ update EPS (Dense x) w h false = Ok (w', h) /\
  smoothed EPS 1 1 1 x w h < smoothed EPS 1 1 1 x w' h.
Proof. exact unnormalised_increases. Qed.
Print Assumptions C41_unnormalised_refuted.

(** ** C42 *)
Theorem C42_update : forall (eps : R) (x : matrix) (n k m : nat) (w h : nd), 0 < eps ->
  proper x n m -> nonneg (mvalue x) -> shape w = [n; k] -> shape h = [k; m] -> nonneg w -> nonneg h ->
  exists w' h', update eps x w h true = Ok (w', h') /\ forall l, (l < k)%nat ->
    let s := sum_to m (raw_atom (ratio_of x eps k (mvalue x) w h) n w' h l) in
    0 <= s /\ lsum (row h' l) = s / (s + / 10000000000000000) /\ 0 <= lsum (row h' l) < 1 /\
    (0 < s -> 1 - lsum (row h' l) <= / 10000000000000000 / s) /\
    (s = 0 -> forall j, (j < m)%nat -> el h' [l; j] = 0).
Proof. exact update_rows. Qed.
Print Assumptions C42_update.

Theorem C42_fit : forall rnd (o : nmf) (x : matrix) (weights : R) (scale_W fit : bool) (n m : nat),
  proper x n m -> nonneg (mvalue x) ->
  (forall d, init_dictionary o = Some d -> shape d = [number o m; m] /\ nonneg d) ->
  (fit = false -> exists c, components o = Some c /\ shape c = [number o m; m] /\ nonneg c) ->
  (1 <= max_iter o)%Z ->
  forall o' w errs warn x', fit_transform rnd o x weights scale_W fit = (o', Ok (w, errs, warn, x')) -> fit = true ->
  exists h, components o' = Some h /\ forall l, (l < number o m)%nat ->
    exists s, 0 <= s /\ lsum (row h l) = s / (s + / 10000000000000000) /\ 0 <= lsum (row h l) < 1 /\
      (s = 0 -> forall j, (j < m)%nat -> el h [l; j] = 0).
Proof. exact call_rows. Qed.
Print Assumptions C42_fit.

(** ** C44: sorted rows; both errors are the divergence. *)
Theorem C44_error : forall (s : csr) (w h : nd) (n k m : nat), csr_shape s = [n; m] -> canonical s ->
  shape w = [n; k] -> shape h = [k; m] ->
  error EPS (Sparse s) w h = Ok (divergence (/ 100000000) n k m (toarray s) w h, Sparse (eliminate_zeros s)) /\
  error EPS (Dense (toarray s)) w h = Ok (divergence (/ 100000000) n k m (toarray s) w h, Dense (toarray s)).
Proof. exact error_agrees. Qed.
Print Assumptions C44_error.

Theorem C44_masked_product : forall (s : csr) (w h : nd) (n k m : nat), csr_shape s = [n; m] -> canonical s ->
  shape w = [n; k] -> shape h = [k; m] ->
  exists c, special_sparse_dot w h (eliminate_zeros s) = Ok c /\ csr_shape c = [n; m] /\ canonical c /\
    forall i j, (i < n)%nat -> (j < m)%nat ->
      el (toarray c) [i; j] = if Req_EM_T (el (toarray s) [i; j]) 0 then 0 else prod k w h i j.
Proof. exact special_masked. Qed.
Print Assumptions C44_masked_product.

Theorem C44_Q : forall (eps : R) (s : csr) (w h : nd) (n k m : nat), 0 < eps -> csr_shape s = [n; m] -> canonical s ->
  shape w = [n; k] -> shape h = [k; m] -> nonneg w -> nonneg h ->
  exists qs qd, Q eps (Sparse s) w h = Ok (Sparse qs) /\ Q eps (Dense (toarray s)) w h = Ok (Dense qd) /\
    forall i j, (i < n)%nat -> (j < m)%nat ->
      el qd [i; j] = (el (toarray s) [i; j] + eps) / (prod k w h i j + eps) /\
      el (toarray qs) [i; j] = if Req_EM_T (el (toarray s) [i; j]) 0 then 0 else el qd [i; j].
Proof. exact Q_agrees. Qed.
Print Assumptions C44_Q.

(** Rows that are not sorted by column: the sparse error pairs the wrong
    elements. *)
Theorem C44_unsorted_refuted : exists s w h v v', in_range s /\ csr_shape s = [1; 2]%nat /\ shape w = [1; 1]%nat /\ shape h = [1; 2]%nat /\
  error EPS (Sparse s) w h = Ok (v, Sparse (eliminate_zeros s)) /\
  error EPS (Dense (toarray s)) w h = Ok (v', Dense (toarray s)) /\ v <> v'.
Proof. exact unsorted_differs. Qed.
Print Assumptions C44_unsorted_refuted.

(** ** C45 *)
Theorem C45_transform_keeps : forall rnd (o : nmf) (x : matrix) (s : bool),
  components (perform rnd o (CTransform x s)) = components o.
Proof. exact perform_transform. Qed.
Print Assumptions C45_transform_keeps.

(** After the last transform of any history, the initial dictionary of all fits is
    the one the transform used. *)
Theorem C45_after_transform : forall rnd (o : nmf) cs1 (x : matrix) (s : bool) cs2 (d : nd),
  components (history rnd o cs1) = Some d -> Forall is_fit cs2 ->
  init_dictionary (history rnd o (cs1 ++ CTransform x s :: cs2)) = Some d.
Proof. exact history_transform. Qed.
Print Assumptions C45_after_transform.
Theorem C45_without_transform : forall rnd cs (o : nmf), Forall is_fit cs ->
  init_dictionary (history rnd o cs) = init_dictionary o.
Proof. exact history_fits. Qed.
Print Assumptions C45_without_transform.

(** Such a fit does not depend on the random numbers, and starts from that
    dictionary ([first_dictionary] in C43_run), or raises when it does not fit. *)
Theorem C45_not_random : forall rnd rnd' (o : nmf) (x : matrix) (weights : R) (scale_W fit : bool) (d : nd),
  init_dictionary o = Some d ->
  fit_transform rnd o x weights scale_W fit = fit_transform rnd' o x weights scale_W fit.
Proof. exact fit_not_random. Qed.
Print Assumptions C45_not_random.
Theorem C45_features_differ : forall rnd (o : nmf) (x : matrix) (weights : R) (scale_W fit : bool) (n m : nat) (d : nd),
  proper x n m -> nonneg (mvalue x) -> init_dictionary o = Some d -> shape d <> [number o m; m] ->
  fit_transform rnd o x weights scale_W fit = (set_n (number o m) o, Err AssertionError).
Proof. exact fit_transform_mismatch. Qed.
Print Assumptions C45_features_differ.

(** ** C75: the coefficients of a sample sum to no more than its data plus
    1e-8 for each feature, whatever the dictionary. *)
Theorem C75_mass : forall rnd (o : nmf) (x : matrix) (weights : R) (scale_W fit : bool) (n m : nat),
  proper x n m -> nonneg (mvalue x) ->
  (forall d, init_dictionary o = Some d -> shape d = [number o m; m] /\ nonneg d) ->
  (fit = false -> exists c, components o = Some c /\ shape c = [number o m; m] /\ nonneg c) ->
  (1 <= max_iter o)%Z ->
  forall o' w errs warn x', fit_transform rnd o x weights scale_W fit = (o', Ok (w, errs, warn, x')) ->
  forall i, (i < n)%nat -> lsum (row w i) <= lsum (row (mvalue x) i) + INR m * / 100000000.
Proof. exact call_mass. Qed.
Print Assumptions C75_mass.

(** So with a dictionary whose rows sum to at most [c], the approximation of a sample
    sums to at most [c] times that: data that is exactly a multiple of an atom is
    not recovered when c < 1. *)
Theorem C75_reconstruction : forall rnd (o : nmf) (x : matrix) (weights : R) (scale_W fit : bool) (n m : nat),
  proper x n m -> nonneg (mvalue x) ->
  (forall d, init_dictionary o = Some d -> shape d = [number o m; m] /\ nonneg d) ->
  (fit = false -> exists c, components o = Some c /\ shape c = [number o m; m] /\ nonneg c) ->
  (1 <= max_iter o)%Z ->
  forall o' w errs warn x', fit_transform rnd o x weights scale_W fit = (o', Ok (w, errs, warn, x')) ->
  forall (h : nd) (c : R), components o' = Some h -> (forall l, (l < number o m)%nat -> lsum (row h l) <= c) -> 0 <= c ->
  forall i, (i < n)%nat ->
    sum_to m (fun j => prod (number o m) w h i j) <= c * (lsum (row (mvalue x) i) + INR m * / 100000000).
Proof. exact call_reconstruction. Qed.
Print Assumptions C75_reconstruction.

(** ** C76: scale keeps the product, but raises when there is one component. *)
Theorem C76_scale : forall (o : nmf) (w h f : nd) (n k m : nat), shape w = [n; k] -> shape h = [k; m] -> shape f = [k] -> k <> 1%nat ->
  (forall l, (l < k)%nat -> el f [l] + self_eps o <> 0) ->
  exists w' h', scale o w h f = Ok (w', h') /\ shape w' = [n; k] /\ shape h' = [k; m] /\
    (forall i l, (i < n)%nat -> (l < k)%nat -> el w' [i; l] = el w [i; l] * (el f [l] + self_eps o)) /\
    (forall i j, (i < n)%nat -> (j < m)%nat -> prod k w' h' i j = prod k w h i j).
Proof. exact scale_product. Qed.
Print Assumptions C76_scale.
Theorem C76_one_component_refuted : forall (o : nmf) (w h f : nd) (n m : nat), shape w = [n; 1%nat] -> shape h = [1%nat; m] -> shape f = [1%nat] ->
  scale o w h f = Err IndexError.
Proof. exact scale_one. Qed.
Print Assumptions C76_one_component_refuted.

(** ** Examples *)
Lemma nonneg_mat m rows : Forall (Forall (fun v => 0 <= v)) rows -> nonneg (mat m rows).
Proof.
  intros F. apply (nonneg2 (mat m rows) (length rows) m eq_refl). intros i j Hi Hj. cbn.
  rewrite Forall_forall in F. specialize (F (nth i rows []) (nth_In _ _ Hi)). rewrite Forall_forall in F.
  destruct (Nat.lt_ge_cases j (length (nth i rows []))) as [L|L]; [apply F; now apply nth_In|rewrite nth_overflow by auto; lra].
Qed.
Definition ex_x := mat 2 [[1; 2]; [0; 3]].
Definition ex_d := mat 2 [[/ 2; / 2]; [1; 0]].
Definition ex_o := Nmf (Some 2%nat) (Some ex_d) (Some ex_d) (/ 10) 50 EPS 0.

(** The hypotheses of the theorems about calls, for dense data. *)
Example ex_call : forall rnd, proper (Dense ex_x) 2 2 /\ nonneg ex_x /\ number ex_o 2 = 2%nat /\
  (forall d, init_dictionary ex_o = Some d -> shape d = [2; 2]%nat /\ nonneg d) /\
  (exists c, components ex_o = Some c /\ shape c = [2; 2]%nat /\ nonneg c) /\ (1 <= max_iter ex_o)%Z /\
  (forall l, (l < 2)%nat -> lsum (row ex_d l) = 1) /\
  exists o' w errs warn x', fit_transform rnd ex_o (Dense ex_x) 1 false false = (o', Ok (w, errs, warn, x')) /\ el w [1; 1]%nat = 0 /\
    lsum (row w 0) <= 3 + 2 * / 100000000.
Proof.
  intro rnd. assert (N : nonneg ex_x) by (apply nonneg_mat; repeat constructor; lra).
  assert (D : nonneg ex_d) by (apply nonneg_mat; repeat constructor; lra).
  assert (I : forall d, init_dictionary ex_o = Some d -> shape d = [2; 2]%nat /\ nonneg d) by (intros d E; injection E as <-; auto).
  assert (C : exists c, components ex_o = Some c /\ shape c = [2; 2]%nat /\ nonneg c) by (exists ex_d; auto).
  assert (M : (1 <= max_iter ex_o)%Z) by (cbn; lia).
  split; [reflexivity|]. split; auto. split; auto. split; auto. split; auto. split; auto. split.
  { intros [|[|l]] Hl; try lia; unfold row; cbn; lra. }
  destruct (C43_run rnd ex_o (Dense ex_x) 1 false false 2 2 eq_refl N (fun d E => proj1 (I d E))
    (fun _ => let '(ex_intro _ c (conj A (conj B _))) := C in ex_intro _ c (conj A B)) M)
    as (o' & w & errs & warn & x' & w0 & h0 & h & E & _).
  exists o', w, errs, warn, x'. split; auto. split.
  - apply (proj1 (C40_zeros rnd ex_o (Dense ex_x) 1 false false 2 2 eq_refl N I (fun _ => C) M o' w errs warn x' E ex_d eq_refl)); cbn; try lia. lra.
  - pose proof (C75_mass rnd ex_o (Dense ex_x) 1 false false 2 2 eq_refl N I (fun _ => C) M o' w errs warn x' E 0 ltac:(lia)) as L.
    unfold row at 2 in L. cbn in L. cbn. lra.
Qed.
(** With one iteration and a positive tol the warning is written. *)
Example ex_end : forall rnd, exists o' w e x', fit_transform rnd (Nmf (Some 2%nat) (Some ex_d) (Some ex_d) (/ 10) 1 EPS 0) (Dense ex_x) 1 false false = (o', Ok (w, [e], true, x')).
Proof.
  intro rnd. set (o := Nmf _ _ _ _ _ _ _). assert (N : nonneg ex_x) by (apply nonneg_mat; repeat constructor; lra).
  assert (I : forall d, init_dictionary o = Some d -> shape d = [2; 2]%nat) by (intros d E; injection E as <-; auto).
  assert (C : false = false -> exists c, components o = Some c /\ shape c = [2; 2]%nat) by (exists ex_d; auto).
  destruct (C43_run rnd o (Dense ex_x) 1 false false 2 2 eq_refl N I C ltac:(cbn; lia)) as (o' & w & errs & warn & x' & w0 & h0 & h & E & _ & _ & _ & _ & Ne & L & _ & _ & Co & _).
  destruct (C43_end rnd o (Dense ex_x) 1 false false 2 2 o' w errs warn x' ex_d eq_refl N I C E Co) as [_ [_ W]].
  rewrite W in E by (cbn; split; [lra|lia]). destruct errs as [|e [|e' r]]; [contradiction| |cbn in L; lia]. now exists o', w, e, x'.
Qed.
(** A canonical sparse matrix with a stored zero, and one update on it. *)
Definition ex_s := Csr 2 [[(0%nat, 1); (1%nat, 0)]; [(1%nat, 3)]].
Example ex_sparse_hyps : csr_shape ex_s = [2; 2]%nat /\ canonical ex_s /\ nonneg (toarray ex_s).
Proof.
  split; [reflexivity|]. split.
  - repeat constructor; cbn; lia.
  - apply (nonneg2 (toarray ex_s) 2 2 eq_refl). intros [|[|i]] [|[|j]] Hi Hj; try lia; cbn; lra.
Qed.
Example ex_update : exists w' h', update EPS (Sparse ex_s) ex_x ex_d true = Ok (w', h') /\ el h' [1; 1]%nat = 0 /\ lsum (row h' 0) < 1.
Proof.
  assert (N : nonneg ex_x) by (apply nonneg_mat; repeat constructor; lra).
  assert (D : nonneg ex_d) by (apply nonneg_mat; repeat constructor; lra).
  assert (He : 0 < EPS) by (apply Rinv_0_lt_compat; lra). destruct ex_sparse_hyps as (A & B & C).
  destruct (C40_update EPS (Sparse ex_s) 2 2 2 ex_x ex_d true He (conj A B) C eq_refl eq_refl N D) as (w' & h' & E & _ & _ & _ & _ & _ & Z).
  destruct (C42_update EPS (Sparse ex_s) 2 2 2 ex_x ex_d He (conj A B) C eq_refl eq_refl N D) as (w1 & h1 & E1 & L).
  rewrite E in E1. injection E1 as <- <-. exists w', h'. split; auto. split; [apply Z; auto|]. apply L. lia.
Qed.
(** A history: fit, transform, then a fit with other features raises. *)
Example ex_history : forall rnd, exists d, init_dictionary (history rnd (set_init None ex_o) [CFit (Dense ex_x) false; CTransform (Dense ex_x) false]) = Some d.
Proof.
  intro rnd. assert (N : nonneg ex_x) by (apply nonneg_mat; repeat constructor; lra).
  destruct (C43_run rnd (set_init None ex_o) (Dense ex_x) 1 false true 2 2 eq_refl N) as (o' & w & errs & warn & x' & w0 & h0 & h & E & _ & _ & _ & _ & _ & _ & _ & _ & C & _);
    [discriminate|discriminate|cbn; lia|]. exists h.
  apply (C45_after_transform rnd (set_init None ex_o) [CFit (Dense ex_x) false] (Dense ex_x) false [] h); [|constructor].
  cbn [history fold_left perform]. rewrite E. exact C.
Qed.
Example ex_features_differ : forall rnd, snd (fit_transform rnd ex_o (Dense (mat 3 [[1; 2; 3]])) 1 false true) = Err AssertionError.
Proof.
  intro rnd. rewrite (C45_features_differ rnd ex_o (Dense (mat 3 [[1; 2; 3]])) 1 false true 1 3 ex_d); auto; try reflexivity.
  - apply nonneg_mat; repeat constructor; lra.
  - discriminate.
Qed.
Example ex_scale : exists w' h', scale ex_o ex_x ex_d (vec [1; 2]) = Ok (w', h') /\ prod 2 w' h' 0 0 = prod 2 ex_x ex_d 0 0.
Proof.
  destruct (C76_scale ex_o ex_x ex_d (vec [1; 2]) 2 2 2) as (w' & h' & E & _ & _ & _ & P); auto.
  - intros [|[|l]] Hl; try lia; cbn; pose proof (Rinv_0_lt_compat 100000000); unfold EPS; lra.
  - exists w', h'. split; auto.
Qed.
