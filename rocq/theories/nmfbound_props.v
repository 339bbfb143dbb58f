(** * C139: with a positive tolerance the first error bounds the number of iterations. *)

From Coq Require Import List ZArith Reals Bool Lra Lia.
Import ListNotations.
From Verif Require Import Py nd_model nd_spec nd_proof sparse_model nmf_model nmf_spec nmf_proof nmf_laws nmf_fit nmfbound_proof.
Local Open Scope R_scope.

(** No error that is reported is below - n * m * 1e-8. *)
Theorem C139_errors : forall rnd (o : nmf) (x : matrix) (weights : R) (scale_W fit : bool) (n m : nat),
  proper x n m -> nonneg (mvalue x) ->
  (forall d, init_dictionary o = Some d -> shape d = [number o m; m] /\ nonneg d) ->
  (fit = false -> exists c, components o = Some c /\ shape c = [number o m; m] /\ nonneg c) ->
  (1 <= max_iter o)%Z ->
  forall o' w errs warn x', fit_transform rnd o x weights scale_W fit = (o', Ok (w, errs, warn, x')) ->
  Forall (fun e => - (INR n * INR m * / 100000000) <= e) errs.
Proof.
  intros rnd o x weights scale_W fit n m P N Hi Hc Hm o' w errs warn x' E.
  exact (proj1 (call_bound rnd o x weights scale_W fit n m P N Hi Hc Hm o' w errs warn x' E)).
Qed.
(** The iterations after the first one: at most the first error per element, over the
    tolerance, however large max_iter is. *)
Theorem C139_iterations : forall rnd (o : nmf) (x : matrix) (weights : R) (scale_W fit : bool) (n m : nat),
  proper x n m -> nonneg (mvalue x) ->
  (forall d, init_dictionary o = Some d -> shape d = [number o m; m] /\ nonneg d) ->
  (fit = false -> exists c, components o = Some c /\ shape c = [number o m; m] /\ nonneg c) ->
  (1 <= max_iter o)%Z ->
  forall o' w errs warn x', fit_transform rnd o x weights scale_W fit = (o', Ok (w, errs, warn, x')) ->
  0 < tol o -> (0 < n)%nat -> (0 < m)%nat -> exists e0 l, errs = e0 :: l /\
  INR (length l) <= (e0 / (INR n * INR m) + / 100000000) / tol o.
Proof. exact call_iterations. Qed.
(** The warning is not written if max_iter is more than 2 above that. *)
Theorem C139_no_warning : forall rnd (o : nmf) (x : matrix) (weights : R) (scale_W fit : bool) (n m : nat),
  proper x n m -> nonneg (mvalue x) ->
  (forall d, init_dictionary o = Some d -> shape d = [number o m; m] /\ nonneg d) ->
  (fit = false -> exists c, components o = Some c /\ shape c = [number o m; m] /\ nonneg c) ->
  (1 <= max_iter o)%Z ->
  forall o' w errs warn x', fit_transform rnd o x weights scale_W fit = (o', Ok (w, errs, warn, x')) ->
  0 < tol o -> (0 < n)%nat -> (0 < m)%nat -> forall e0 l, errs = e0 :: l ->
  (e0 / (INR n * INR m) + / 100000000) / tol o + 2 < IZR (max_iter o) -> warn = false.
Proof. exact call_no_warning. Qed.

Print Assumptions C139_errors.
Print Assumptions C139_iterations.
Print Assumptions C139_no_warning.

(** A fit of two samples with a tolerance of 1/2: the hypotheses hold. *)
Definition bound_x : nd := mat 2 [[1; 2]; [3; 0]].
Definition bound_o : nmf := nmf_new (Some 1%nat) (/ 2) 1000 0.
Example bound_hyps : proper (Dense bound_x) 2 2 /\ nonneg bound_x /\ init_dictionary bound_o = None /\ (1 <= max_iter bound_o)%Z /\ 0 < tol bound_o.
Proof.
  split; [reflexivity|]. split; [|cbn; repeat split; lia || lra].
  apply (nonneg2 bound_x 2 2 eq_refl). intros [|[|a]] [|[|b]] Ha Hb; try lia; cbn; lra.
Qed.
Example bound_fit : forall rnd o' w errs warn x', fit_transform rnd bound_o (Dense bound_x) 1 false true = (o', Ok (w, errs, warn, x')) ->
  exists e0 l, errs = e0 :: l /\ INR (length l) <= (e0 / (INR 2 * INR 2) + / 100000000) / / 2.
Proof.
  intros rnd o' w errs warn x' E. destruct bound_hyps as (P & N & I & M & T).
  apply (C139_iterations rnd bound_o (Dense bound_x) 1 false true 2 2 P N) with (o' := o') (w := w) (warn := warn) (x' := x');
    auto; try lia; intros; discriminate.
Qed.
