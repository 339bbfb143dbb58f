(** * C117: rows are stacked and matrices multiplied whatever their storage. *)

From Coq Require Import List Reals Arith Bool Lia Lra.
Import ListNotations.
From Verif Require Import Py nd_model sparse_model learner_model stack_model stack_spec stack_proof.
Local Open Scope R_scope.

(** Blocks with m columns, dense or sparse, are put one under the other: the rows of the
    result are the rows of the blocks in their order, and the result is sparse if
    and only if one of the blocks is. *)
Theorem C117_vstack : forall m bs rs, bs <> [] -> Forall2 (gives m) bs rs ->
  exists x f, safe_vstack bs = Ok x /\ is_matrix x (list_sum (map fst rs)) m f /\
    (is_sparse x <-> exists b, In b bs /\ is_sparse b) /\
    (forall k r i j, nth_error rs k = Some r -> (i < fst r)%nat -> (j < m)%nat ->
      f (rows_before k (map fst rs) + i)%nat j = snd r i j) /\
    forall p, (p < list_sum (map fst rs))%nat ->
      exists k r i, nth_error rs k = Some r /\ (i < fst r)%nat /\ p = (rows_before k (map fst rs) + i)%nat.
Proof.
  intros m bs rs N H. destruct (vstack_ok m bs rs N H) as (x & f & E & M & K & V). exists x, f.
  split; [exact E|]. split; [exact M|]. split; [|split; [exact V|exact (rows_covered rs)]].
  assert (B : forall y, is_sparse_matrix y = true <-> is_sparse y).
  { intros [a|s]; cbn; split; intros C; try discriminate; [now destruct C|now exists s|reflexivity]. }
  rewrite <- B, K, existsb_exists. split; intros (b & Hb & Sb); exists b; (split; [exact Hb|now apply B]).
Qed.

(** No block, or blocks with different numbers of columns, raise ValueError. *)
Theorem C117_vstack_refused : safe_vstack [] = Err ValueError /\
  forall bs b b' n m f n' m' f', (forall b, In b bs -> exists n m f, reads b n m f) ->
    In b bs -> In b' bs -> reads b n m f -> reads b' n' m' f' -> m <> m' -> safe_vstack bs = Err ValueError.
Proof.
  split; [apply vstack_none|]. intros bs b b' n m f n' m' f' A Hb Hb' R R' D.
  apply vstack_widths; [intros ->; contradiction|exact A|]. exists b, b', n, m, f, n', m', f'. auto.
Qed.

(** The product of two matrices, each dense or sparse, is the product of their elements;
    it is sparse if and only if both are and no dense output is asked for. *)
Theorem C117_dot : forall a b n k m f g dense_output, two_axes a -> two_axes b -> reads a n k f -> reads b k m g ->
  exists r, safe_sparse_dot a b dense_output = Ok r /\
    is_matrix r n m (fun i j => sum_to k (fun l => f i l * g l j)) /\
    (is_sparse r <-> is_sparse a /\ is_sparse b /\ dense_output = false).
Proof. exact dot_ok. Qed.

(** Numbers of columns and rows that differ raise ValueError. *)
Theorem C117_dot_refused : forall a b n k k' m f g dense_output, two_axes a -> two_axes b ->
  reads a n k f -> reads b k' m g -> k <> k' -> safe_sparse_dot a b dense_output = Err ValueError.
Proof. exact dot_refused. Qed.

Print Assumptions C117_vstack.
Print Assumptions C117_vstack_refused.
Print Assumptions C117_dot.
Print Assumptions C117_dot_refused.

(** A list of two numbers over a sparse matrix with a place stored twice. *)
Definition case_row : matrix := Dense (vec [1; 2]).
Definition case_sparse : matrix := Sparse (Csr 2 [[(1%nat, 3); (0%nat, 4); (1%nat, 5)]; []]).
Example C117_case_blocks : exists rs, Forall2 (gives 2) [case_row; case_sparse] rs /\ map fst rs = [1; 2]%nat /\
  (forall r, nth_error rs 1 = Some r -> snd r 0%nat 1%nat = 8) /\ (forall r, nth_error rs 0 = Some r -> snd r 0%nat 1%nat = 2).
Proof.
  eexists. split; [|split].
  - apply Forall2_cons; [|apply Forall2_cons; [|apply Forall2_nil]].
    + exact (reads_row (vec [1; 2]) 2 eq_refl : gives 2 case_row (1%nat, _)).
    + refine (reads_sparse (Csr 2 [[(1%nat, 3); (0%nat, 4); (1%nat, 5)]; []]) _ : gives 2 case_sparse (2%nat, _)).
      intros l c v [<-|[<-|[]]] H; cbn in H |- *; [|contradiction]. destruct H as [H|[H|[H|[]]]]; injection H as <- _; lia.
  - reflexivity.
  - split; intros r E; injection E as <-; cbn; unfold at_column; cbn; lra.
Qed.

(** The same sparse matrix times itself. *)
Example C117_case_dot : exists f, two_axes case_sparse /\ reads case_sparse 2 2 f /\ sum_to 2 (fun l => f 0%nat l * f l 1%nat) = 32.
Proof.
  eexists. split; [exact I|]. split.
  - refine (reads_sparse (Csr 2 [[(1%nat, 3); (0%nat, 4); (1%nat, 5)]; []]) _).
    intros l c v [<-|[<-|[]]] H; cbn in H |- *; [|contradiction]. destruct H as [H|[H|[H|[]]]]; injection H as <- _; lia.
  - unfold sum_to, at_column. cbn. lra.
Qed.
