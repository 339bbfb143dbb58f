(** * C01-C05: the assignment solver of multimodal/lib/munkres.py. *)

From Coq Require Import List Arith ZArith QArith Permutation Lia.
Import ListNotations.
From Verif Require Import Py munkres_model munkres_spec munkres_proof munkres_more.
Local Open Scope nat_scope.

(** C01.  On every non-empty square matrix the solver stops and returns a
    permutation of minimal total weight.  The bound on the number of loop
    iterations is linear in n, and the answer does not depend on it. *)
Theorem C01_square_optimal : forall (m : Qmatrix) (n : nat),
  wf_matrix m -> nrows m = n -> mcols m = n -> 0 < n ->
  exists s,
    (forall fuel, 2 * n < fuel -> min_weight_perm fuel m = Ok (map Some s)) /\
    optimal_permutation n (entry (mrows m)) s.
Proof. exact square_uniform. Qed.
Print Assumptions C01_square_optimal.

Definition ex_square : Qmatrix := @Matrix Qarith [[4; 1; 3]; [2; 0; 5]; [3; 2; 2]]%Q 3.
Example C01_example :
  wf_matrix ex_square /\ nrows ex_square = 3 /\ mcols ex_square = 3 /\
  min_weight_perm 7 ex_square = Ok [Some 1; Some 0; Some 2].
Proof. repeat split; repeat constructor. Qed.

(** An empty array has no maximum: the call raises ValueError. *)
Theorem C01_empty_raises : forall fuel (m : Qmatrix),
  wf_matrix m -> nrows m = 0 \/ mcols m = 0 -> min_weight_perm fuel m = Err ValueError.
Proof. exact empty_matrix_error. Qed.
Print Assumptions C01_empty_raises.
Example C01_empty_example :
  min_weight_perm 7 (@Matrix Qarith [] 3) = Err ValueError.
Proof. reflexivity. Qed.

(** C02.  Fewer rows than columns (or as many): a cheapest injective choice. *)
Theorem C02_wide_optimal : forall (m : Qmatrix) (n1 n2 : nat),
  wf_matrix m -> nrows m = n1 -> mcols m = n2 -> 0 < n1 -> n1 <= n2 ->
  exists s,
    (forall fuel, 2 * n2 < fuel -> min_weight_perm fuel m = Ok (map Some s)) /\
    optimal_injection n1 n2 (entry (mrows m)) s.
Proof. exact wide_uniform. Qed.
Print Assumptions C02_wide_optimal.

(** More rows than columns: every column is given to exactly one row, at
    minimal total weight. *)
Theorem C02_tall_optimal : forall (m : Qmatrix) (n1 n2 : nat),
  wf_matrix m -> nrows m = n1 -> mcols m = n2 -> 0 < n2 -> n2 < n1 ->
  exists r,
    (forall fuel, 2 * n1 < fuel -> min_weight_perm fuel m = Ok r) /\
    optimal_partial n1 n2 (entry (mrows m)) r.
Proof. exact tall_uniform. Qed.
Print Assumptions C02_tall_optimal.

Definition ex_wide : Qmatrix := @Matrix Qarith [[4; 1; 3; 0]; [2; 0; 5; 1]]%Q 4.
Example C02_example :
  wf_matrix ex_wide /\ nrows ex_wide = 2 /\ mcols ex_wide = 4 /\
  min_weight_perm 9 ex_wide = Ok [Some 3; Some 1] /\
  wf_matrix (transpose ex_wide) /\
  min_weight_perm 9 (transpose ex_wide) = Ok [None; Some 1; None; Some 0].
Proof. repeat split; repeat constructor. Qed.

(** C03.  For any arithmetic in which the minimum of two numbers is one of them
    and every number equals itself (no NaN), however sums and differences are
    rounded, the solver stops and the result has the right shape. *)
Theorem C03_shape_any_rounding : forall (A : arith),
  (forall a b, nmin A a b = a \/ nmin A a b = b) ->
  (forall a, neqb A a a = true) ->
  forall (m : matrix A) (n1 n2 : nat), wf_matrix m ->
  nrows m = n1 -> mcols m = n2 -> 0 < n1 -> 0 < n2 ->
  exists r,
    (forall fuel, 2 * Nat.max n1 n2 < fuel -> min_weight_perm fuel m = Ok r) /\
    (n1 <= n2 -> exists s, r = map Some s /\ is_injection n1 n2 s) /\
    (n2 <= n1 -> covers_columns n1 n2 r).
Proof. exact any_shape. Qed.
Print Assumptions C03_shape_any_rounding.

(** Integers with sums and differences rounded down to a multiple of 4. *)
Definition coarse : arith :=
  Arith Z (fun a b => (a + b) / 4 * 4)%Z (fun a b => (a - b) / 4 * 4)%Z
    Z.max Z.min Z.eqb 0%Z 1%Z.
Example C03_example :
  (forall a b, nmin coarse a b = a \/ nmin coarse a b = b) /\
  (forall a, neqb coarse a a = true) /\
  min_weight_perm 20 (@Matrix coarse [[9; 6; 3]; [5; 5; 1]; [7; 2; 2]]%Z 3)
    = Ok [Some 0; Some 2; Some 1].
Proof.
  split; [intros a b; simpl; lia|]. split; [apply Z.eqb_refl|reflexivity].
Qed.

(** A NaN anywhere in the matrix: no number of loop iterations suffices. *)
Theorem C03_nan_diverges : forall fuel (m : matrix NaNarith),
  wf_matrix m -> In None (all_entries m) -> min_weight_perm fuel m = Err Timeout.
Proof. exact nan_diverges. Qed.
Print Assumptions C03_nan_diverges.
Example C03_nan_example :
  wf_matrix (@Matrix NaNarith [[Some 1; None]; [Some 2; Some 3]]%Q 2) /\
  In None (all_entries (@Matrix NaNarith [[Some 1; None]; [Some 2; Some 3]]%Q 2)) /\
  min_weight_perm 50 (@Matrix NaNarith [[Some 1; Some 1]; [Some 2; Some 3]]%Q 2)
    = Ok [Some 1; Some 0].
Proof.
  split; [repeat constructor|]. split; [simpl; auto|reflexivity].
Qed.

(** C04.  all_perms yields exactly the rearrangements of its argument. *)
Theorem C04_all_perms_complete : forall (X : Type) (l p : list X),
  In p (all_perms l) <-> Permutation p l.
Proof. exact @all_perms_spec. Qed.
Print Assumptions C04_all_perms_complete.

Theorem C04_all_perms_once : forall (l : list nat),
  NoDup l -> NoDup (all_perms l).
Proof. exact (all_perms_NoDup Nat.eq_dec). Qed.
Print Assumptions C04_all_perms_once.

(** The brute force oracle is optimal and the three ways of obtaining the
    minimal weight agree. *)
Theorem C04_brute_force_agrees : forall (w : Qmatrix) n fuel,
  wf_matrix w -> nrows w = n -> mcols w = n -> 0 < n -> 2 * n < fuel ->
  exists s b qs qb qm,
    min_weight_perm fuel w = Ok (map Some s) /\
    min_weight_perm_brute_force w = Ok b /\
    weight s w = Ok qs /\ weight b w = Ok qb /\ min_weight fuel w = Ok qm /\
    (qs == qb)%Q /\ (qm == qb)%Q /\
    (qb == cost (entry (mrows w)) b)%Q /\
    optimal_permutation n (entry (mrows w)) b.
Proof. exact min_weight_agree. Qed.
Print Assumptions C04_brute_force_agrees.
Example C04_example :
  wf_matrix ex_square /\
  all_perms [0; 1; 2] =
    [[0; 1; 2]; [1; 0; 2]; [1; 2; 0]; [0; 2; 1]; [2; 0; 1]; [2; 1; 0]] /\
  min_weight_perm_brute_force ex_square = Ok [1; 0; 2] /\
  min_weight 7 ex_square = Ok 5%Q.
Proof. repeat split; repeat constructor. Qed.

(** C05. *)
Theorem C05_reverse_inverts : forall s size,
  NoDup s -> (forall j, In j s -> j < size) ->
  exists r, reverse_function s (Some size) = Ok r /\ inverse_of s size r.
Proof. exact reverse_function_inverse. Qed.
Print Assumptions C05_reverse_inverts.
Example C05_example :
  NoDup [2; 0] /\ reverse_function [2; 0] (Some 4) = Ok [Some 1; None; Some 0; None].
Proof. split; [repeat constructor; simpl; lia|reflexivity]. Qed.

(** Without an explicit size the call always fails. *)
Theorem C05_default_size_fails : forall s,
  s <> [] -> reverse_function s None = Err IndexError.
Proof. exact reverse_function_default. Qed.
Print Assumptions C05_default_size_fails.
Example C05_default_example : reverse_function [1; 0] None = Err IndexError.
Proof. reflexivity. Qed.
