(** * C52 and C53: multimodal/lib/array_utils.py. *)

From Coq Require Import List ZArith Reals Bool Sorted Lra Lia.
Import ListNotations.
From Verif Require Import Py nd_model nd_spec sparse_model array_utils_model array_utils_spec array_utils_proof.
Local Open Scope R_scope.

(** ** C52: after any non-empty sequence of add_row. *)
Theorem C52_rows_padded : forall rows : list (list R), rows <> [] ->
  padded rows (lil_toarray (fold_left add_row rows lil_new)).
Proof. exact growing_value. Qed.
Print Assumptions C52_rows_padded.

(** ** C53 *)
Theorem C53_dense : forall (x : nd) (n m : nat), shape x = [n; m] ->
  exists r, normalize_features_dense x = Ok r /\ features_of x r.
Proof. exact dense_features. Qed.
Print Assumptions C53_dense.

(** For any csr_matrix, whatever the order of its elements; the argument may lose
    stored zeros but keeps its value. *)
Theorem C53_sparse : forall x : csr, let '(y, x') := normalize_features_sparse x in
  features_of (toarray x) (csc_toarray y) /\ same (toarray x') (toarray x).
Proof. exact sparse_features. Qed.
Print Assumptions C53_sparse.

(** [features_of] leaves no choice, so both give the same matrix; its columns sum
    to 1. *)
Theorem C53_determined : forall x r r' : nd, features_of x r -> features_of x r' -> same r r'.
Proof. exact features_unique. Qed.
Print Assumptions C53_determined.
Theorem C53_sums : forall (x : nd) (n m : nat) (r : nd) (q : nat), shape x = [n; m] -> features_of x r ->
  (q < nth 1 (shape r) 0)%nat -> lsum (col r q) = 1.
Proof. exact features_sum. Qed.
Print Assumptions C53_sums.

(** normalize_sum; for a lane of sum -eps numpy divides by zero. *)
Theorem C53_normalize_sum : forall (a : nd) (z : Z) (eps : R) (k : nat), axis_number (length (shape a)) z = Some k ->
  (forall idx, valid (firstn k (shape a) ++ skipn (S k) (shape a)) idx -> eps + lsum (lane a k idx) <> 0) ->
  exists c, normalize_sum a z eps = Ok c /\ shape c = shape a /\
    forall idx, valid (firstn k (shape a) ++ skipn (S k) (shape a)) idx ->
      lane c k idx = map (fun v => v / (eps + lsum (lane a k idx))) (lane a k idx) /\
      lsum (lane c k idx) = lsum (lane a k idx) / (eps + lsum (lane a k idx)).
Proof. exact (fun a z eps k H _ => normalize_sum_lane a z eps k H). Qed.
Print Assumptions C53_normalize_sum.
Theorem C53_normalize_sum_axis : forall (a : nd) (z : Z) (eps : R), axis_number (length (shape a)) z = None ->
  normalize_sum a z eps = Err ValueError.
Proof. exact normalize_sum_bad. Qed.
Print Assumptions C53_normalize_sum_axis.

(** ** Examples *)
Example ex_lil : let r := lil_toarray (fold_left add_row [[1]; []; [0; 2; 3]] lil_new) in
  shape r = [3; 3]%nat /\ el r [0; 0]%nat = 1 /\ el r [0; 2]%nat = 0 /\ el r [1; 1]%nat = 0 /\ el r [2; 0]%nat = 0 /\ el r [2; 2]%nat = 3.
Proof.
  assert (N : [[1]; []; [0; 2; 3]] <> []) by discriminate. destruct (C52_rows_padded _ N) as [S L]. cbv zeta. split; [exact S|].
  refine (conj _ (conj _ (conj _ (conj _ _)))).
  - apply (L 0%nat [1] 0%nat); cbn; auto; lia.
  - apply (L 0%nat [1] 2%nat); cbn; auto; lia.
  - apply (L 1%nat [] 1%nat); cbn; auto; lia.
  - apply (L 2%nat [0; 2; 3] 0%nat); cbn; auto; lia.
  - apply (L 2%nat [0; 2; 3] 2%nat); cbn; auto; lia.
Qed.
(** A matrix with unsorted elements, a stored zero and an empty column. *)
Example ex_sparse : let y := fst (normalize_features_sparse (Csr 3 [[(2%nat, 1); (0%nat, 3)]; [(0%nat, 1); (1%nat, 0)]])) in
  shape (csc_toarray y) = [2; 2]%nat /\ el (csc_toarray y) [0; 0]%nat = 3 / 4 /\ el (csc_toarray y) [1; 1]%nat = 0.
Proof.
  set (x := Csr 3 [[(2%nat, 1); (0%nat, 3)]; [(0%nat, 1); (1%nat, 0)]]).
  pose proof (C53_sparse x) as H. destruct (normalize_features_sparse x) as [y x'] eqn:E. destruct H as [(ks & S & I & Sh & L) _]. cbn [fst].
  assert (K : ks = [0; 2]%nat).
  { apply sorted_unique; auto; [repeat constructor; lia|]. intro k. rewrite I. unfold col. cbn. split.
    - intros [Hk H]. destruct k as [|[|[|]]]; auto; [|lia]. exfalso. apply H. cbn. lra.
    - intros [<-|[<-|[]]]; (split; [lia|cbn; lra]). }
  subst ks. split; [exact Sh|]. split.
  - rewrite (L 0%nat 0%nat 0%nat); cbn; auto; try lia. unfold Rdiv. do 2 f_equal; lra.
  - rewrite (L 1%nat 1%nat 2%nat); cbn; auto; try lia. unfold Rdiv. lra.
Qed.
Example ex_normalize_sum : exists c, normalize_sum (mat 2 [[1; 2]; [0; 0]]) 1 (/ 2) = Ok c /\ lsum (lane c 1 [0%nat]) = 6 / 7.
Proof.
  destruct (C53_normalize_sum (mat 2 [[1; 2]; [0; 0]]) 1 (/ 2) 1 eq_refl) as (c & E & _ & L).
  - intros [|i [|]]; cbn; try tauto. intros [Hi _]. unfold lane. cbn. destruct i as [|[|]]; cbn; lra || lia.
  - exists c. split; auto. destruct (L [0%nat]) as [_ ->]; [cbn; lia|]. unfold lane. cbn. field.
Qed.
