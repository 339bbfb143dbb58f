(** * C138: a fit can end with a worse factorisation than the one it began with.

    [divergence] is the error that fit_transform computes and compares (nmf_spec). *)

From Coq Require Import List ZArith Reals Bool Lra Lia.
Import ListNotations.
From Verif Require Import Py nd_model nd_spec nd_proof sparse_model nmf_model nmf_spec nmf_proof nmf_laws nmf_fit nmfworse_proof.
Local Open Scope R_scope.

(** "Every update of a fit lowers the error" is false: there are data and random numbers in
    [0, 1) such that, for every tolerance and every number of iterations, the fit of a new
    object makes one update only, which raises the error by 4 at least, stops because the error
    did not fall, and keeps these coefficients and components.  The components are updated with
    the new coefficients but with the ratio of the old ones (_update passes Q to _updated_H). *)
Theorem C138_fit_raises_error_refuted : exists (x : nd) (n m : nat) (rnd : nat -> list nat -> R),
  shape x = [n; m] /\ nonneg x /\ (forall c idx, 0 <= rnd c idx < 1) /\
  forall t i weights scale_W, 0 <= t -> (1 <= i)%Z ->
  exists o' w e warn x' c,
    fit_transform rnd (nmf_new (Some 1%nat) t i 0) (Dense x) weights scale_W true = (o', Ok (w, [e], warn, x')) /\
    components o' = Some c /\ e + 4 <= divergence (/ 100000000) n 1 m x w c.
Proof.
  exists bad_data, 2%nat, 2%nat, bad_random. split; [reflexivity|]. split; [|split].
  - apply (nonneg2 bad_data 2 2 eq_refl). intros [|[|a]] [|[|b]] Ha Hb; try lia; cbn; lra.
  - intros c idx. unfold bad_random. destruct (nth 1 idx 0%nat); lra.
  - exact fit_worse.
Qed.
(** An exact factorisation with dictionary rows of sum 1 is not moved, except that a row of the
    dictionary whose coefficients have the sum s is multiplied by s / (s + 1e-16). *)
Theorem C138_exact_stays : forall eps (x w h : nd) n k m, 0 < eps ->
  shape x = [n; m] -> shape w = [n; k] -> shape h = [k; m] ->
  nonneg x -> (forall i j, (i < n)%nat -> (j < m)%nat -> el x [i; j] = prod k w h i j) ->
  (forall l, (l < k)%nat -> lsum (row h l) = 1) ->
  exists w' h', update eps (Dense x) w h true = Ok (w', h') /\
    (forall i l, (i < n)%nat -> (l < k)%nat -> el w' [i; l] = el w [i; l]) /\
    (forall l j, (l < k)%nat -> (j < m)%nat ->
       el h' [l; j] = el h [l; j] * (lsum (col w l) / (lsum (col w l) + / 10000000000000000))).
Proof. exact exact_stays. Qed.

Print Assumptions C138_fit_raises_error_refuted.
Print Assumptions C138_exact_stays.

(** A product of two columns and two rows. *)
Definition exact_w : nd := mat 2 [[1; 2]; [3; 0]].
Definition exact_h : nd := mat 2 [[/ 2; / 2]; [/ 4; 3 / 4]].
Definition exact_x : nd := mat 2 [[1; 2]; [3 / 2; 3 / 2]].
Example exact_hyps : nonneg exact_x /\ (forall i j, (i < 2)%nat -> (j < 2)%nat -> el exact_x [i; j] = prod 2 exact_w exact_h i j) /\
  (forall l, (l < 2)%nat -> lsum (row exact_h l) = 1).
Proof.
  split; [|split].
  - apply (nonneg2 exact_x 2 2 eq_refl). intros [|[|a]] [|[|b]] Ha Hb; try lia; cbn; lra.
  - intros [|[|a]] [|[|b]] Ha Hb; try lia; unfold prod, sum_to; cbn; lra.
  - intros [|[|a]] Ha; try lia; cbn; lra.
Qed.
