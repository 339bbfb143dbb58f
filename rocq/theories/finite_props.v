(** * C116: what the factorisation accepts as data. *)

From Coq Require Import List ZArith Reals Permutation Sorted.
From Flocq Require Import Core BinarySingleNaN.
Import ListNotations.
From Verif Require Import Py finite_model finite_spec finite_proof.

(** assert_all_finite raises if and only if an element is NaN or infinite, in any
    floating-point format and whatever the order of the additions: a sum that overflows
    does not make it raise, infinities that cancel out do not hide. *)
Theorem C116_refused : forall (prec emax : Z) (Hp : Prec_gt_0 prec) (Hm : Prec_lt_emax prec emax)
    order (l : list (binary_float prec emax)), adds_each order ->
  (assert_all_finite order (Floats l) = Err ValueError <-> exists x, In x l /\ ~ ordinary x) /\
  (assert_all_finite order (Floats l) = Ok tt <-> forall x, In x l -> ordinary x).
Proof. intros prec emax Hp Hm order l Ho. split; [now apply assert_err|now apply assert_ok]. Qed.

(** An array goes through the checks of fit_transform if and only if it has at most two
    axes and its elements are finite and not negative; it is then a matrix with the
    same elements: one row for a list of numbers. *)
Theorem C116_array : forall (prec emax : Z) (Hp : Prec_gt_0 prec) (Hm : Prec_lt_emax prec emax)
    order shape (v : @values prec emax) r, adds_each order ->
  (checked order (Array shape v) = Ok r <->
   all_usable v /\ exists n m, r = (Array [n; m] v, n, m) /\
     (shape = [] /\ n = 1%nat /\ m = 1%nat \/ shape = [m] /\ n = 1%nat \/ shape = [n; m])).
Proof. intros prec emax Hp Hm. exact (@checked_array prec emax Hp Hm). Qed.

(** Data that is refused raises ValueError, whatever is wrong with it. *)
Theorem C116_error : forall (prec emax : Z) (Hp : Prec_gt_0 prec) (Hm : Prec_lt_emax prec emax)
    order (x : @data prec emax) e, checked order x = Err e -> e = ValueError.
Proof. intros prec emax Hp Hm. exact (@checked_error prec emax Hp Hm). Qed.

(** A csr_matrix goes through if and only if the values that it stores are finite and
    not negative; it is left as it is. *)
Theorem C116_csr : forall (prec emax : Z) (Hp : Prec_gt_0 prec) (Hm : Prec_lt_emax prec emax)
    order n m (l : list (@entry prec emax)) r, adds_each order ->
  (checked order (Csr n m l) = Ok r <-> (forall x, In x (map snd l) -> usable x) /\ r = (Csr n m l, n, m)).
Proof. intros prec emax Hp Hm. exact (@checked_csr prec emax Hp Hm). Qed.

(** For a coo_matrix the sums of the values stored at one place count: it goes through
    if and only if all of them are finite and not negative, and the csr_matrix then
    holds these sums, row by row. *)
Theorem C116_coo : forall (prec emax : Z) (Hp : Prec_gt_0 prec) (Hm : Prec_lt_emax prec emax)
    order n m (l : list (@entry prec emax)), adds_each order ->
  ((exists r, checked order (Coo n m l) = Ok r) <-> forall i j s, sum_is (stored_at l i j) s -> usable s) /\
  (forall y n' m', checked order (Coo n m l) = Ok (y, n', m') ->
   n' = n /\ m' = m /\ exists l', y = Csr n m l' /\ StronglySorted before l' /\
     (forall i j v, In (i, j, v) l' <-> sum_is (stored_at l i j) v)).
Proof.
  intros prec emax Hp Hm order n m l Ho. split.
  - split.
    + intros (r & H). now apply checked_coo in H.
    + intros H. eexists. apply checked_coo; [exact Ho|]. split; [exact H|reflexivity].
  - intros y n' m'. now apply checked_coo_result.
Qed.

(** When no place is stored twice, a coo_matrix goes through if and only if the values
    that it stores are finite and not negative, and the same entries come out. *)
Theorem C116_coo_once : forall (prec emax : Z) (Hp : Prec_gt_0 prec) (Hm : Prec_lt_emax prec emax)
    order n m (l : list (@entry prec emax)), adds_each order -> places_once l ->
  ((forall x, In x (map snd l) -> usable x) ->
   exists l', checked order (Coo n m l) = Ok (Csr n m l', n, m) /\ Permutation l l') /\
  (forall x, In x (map snd l) -> ~ usable x -> checked order (Coo n m l) = Err ValueError).
Proof.
  intros prec emax Hp Hm order n m l Ho H. split.
  - now apply checked_coo_once.
  - intros x. now apply checked_coo_refused.
Qed.

(** Without this, finite values that are not negative may be refused: their sum
    overflows. *)
Theorem C116_coo_finite_refuted : exists (order : nat -> additions) (l : list (@entry 53 1024)),
  adds_each order /\ (forall x, In x (map snd l) -> usable x) /\
  checked (Hprec := double_prec) (Hmax := double_max) order (Coo 1 1 l) = Err ValueError.
Proof. exact coo_overflow. Qed.

(** And a csr_matrix whose elements are finite and not negative, one of them 1, may be
    refused: the parts of an element are looked at one by one. *)
Theorem C116_csr_elements_refuted : exists (order : nat -> additions) (l : list (@entry 53 1024)),
  adds_each order /\
  (forall i j s, sum_is (Hprec := double_prec) (Hmax := double_max) (stored_at l i j) s -> usable s) /\
  (exists s, sum_is (Hprec := double_prec) (Hmax := double_max) (stored_at l 0 0) s /\ B2R s = 1%R) /\
  checked (Hprec := double_prec) (Hmax := double_max) order (Csr 1 1 l) = Err ValueError.
Proof. exact csr_parts. Qed.

Print Assumptions C116_refused.
Print Assumptions C116_array.
Print Assumptions C116_error.
Print Assumptions C116_csr.
Print Assumptions C116_coo.
Print Assumptions C116_coo_once.
Print Assumptions C116_coo_finite_refuted.
Print Assumptions C116_csr_elements_refuted.

(** An order of addition that meets the hypothesis: one element after the other. *)
Example C116_case_order : adds_each one_by_one.
Proof. exact one_by_one_ok. Qed.

(** A sum that overflows, of numbers that are finite. *)
Example C116_case_overflow :
  is_finite (added (Hprec := double_prec) (Hmax := double_max) (one_by_one 2) [double 1 1023; double 1 1023]) = false /\
  checked (Hprec := double_prec) (Hmax := double_max) one_by_one (Array [2] (Floats [double 1 1023; double 1 1023])) =
  Ok (Array [1; 2] (Floats [double 1 1023; double 1 1023]), 1, 2)%nat.
Proof. split; [vm_compute; reflexivity|exact overflow_accepted]. Qed.

(** NaN is not below zero: only assert_all_finite refuses it. *)
Example C116_case_nan :
  check_non_negative (Array [1] (@Floats 53 1024 [B754_nan])) = Ok tt /\
  checked (Hprec := double_prec) (Hmax := double_max) one_by_one (Array [1] (Floats [B754_nan])) = Err ValueError /\
  checked (Hprec := double_prec) (Hmax := double_max) one_by_one (Array [1] (Floats [B754_zero true])) =
  Ok (Array [1; 1] (Floats [B754_zero true]), 1, 1)%nat.
Proof. repeat split; vm_compute; reflexivity. Qed.

(** A coo_matrix whose stored values are not all positive but whose elements are. *)
Example C116_case_coo :
  exists l', checked (Hprec := double_prec) (Hmax := double_max) one_by_one
    (Coo 2 2 [(1, 1, double 1 0); (0, 1, double 3 0); (1, 1, double (-1) (-1))]%nat) = Ok (Csr 2 2 l', 2, 2)%nat /\
  map fst l' = [(0, 1); (1, 1)]%nat.
Proof. exact coo_case. Qed.

(** Places stored once. *)
Example C116_case_once : places_once [(1, 1, double 1 0); (0, 1, double 3 0)]%nat.
Proof. unfold places_once. cbn [map fst]. repeat constructor; cbn; intuition congruence. Qed.
