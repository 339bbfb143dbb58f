(** * The rows of features in samples/image_sound_eval_sliding.py. *)

From Coq Require Import List ZArith Reals Lra Bool Arith String QArith Lia.
Import ListNotations.
From Verif Require Import Py Py_proof nd_model nd_spec nd_proof sparse_model nmf_model nmf_spec learner_model learner_spec learner_proof array_utils_proof
  nmf_laws experiment_coefs window_model evalslide_model evalslide_spec.
From Verif Require stack_model stack_spec stack_proof metrics_proof experiment_proof.
Open Scope py_scope.
Local Open Scope nat_scope.
Notation length := List.length.

Lemma at_col_dense (g : nat -> R) j : forall n a, at_col j (map (fun k => (k, g k)) (seq a n)) = if (a <=? j) && (j <? a + n) then g j else 0%R.
Proof.
  induction n as [|n IH]; intro a; cbn [seq map at_col].
  - destruct (a <=? j) eqn:E1, (j <? a + 0) eqn:E2; cbn; auto. apply Nat.leb_le in E1. apply Nat.ltb_lt in E2. lia.
  - rewrite IH. cbn [fst snd]. destruct (Nat.eqb_spec a j) as [->|N].
    + rewrite (proj2 (Nat.leb_gt (S j) j)), (proj2 (Nat.leb_le j j)), (proj2 (Nat.ltb_lt j (j + S n))) by lia. cbn. lra.
    + destruct (S a <=? j) eqn:E1, (j <? S a + n) eqn:E2, (a <=? j) eqn:E3, (j <? a + S n) eqn:E4; cbn; auto; try lra;
      rewrite ?Nat.leb_le, ?Nat.leb_gt, ?Nat.ltb_lt, ?Nat.ltb_ge in *; lia.
Qed.
Lemma row_at v j : j < length v -> at_col j (nth 0 (lines (of_dense 1 (length v) (Nd [1; length v] (fun idx => INR (nth (nth 1 idx 0) v 0))))) []) = INR (nth j v 0).
Proof.
  intro H. cbn [of_dense lines seq map nth]. rewrite at_col_filter.
  - cbn [el nth]. rewrite (at_col_dense (fun k => INR (nth k v 0))). rewrite Nat.add_0_l, (proj2 (Nat.ltb_lt _ _) H). reflexivity.
  - intros c x E. apply negb_false_iff in E. cbn in E. unfold Req_bool in E. destruct (Req_EM_T x 0); [auto|discriminate].
Qed.
Lemma row_reads v : stack_spec.gives (length v) (row_matrix v)
  (1, fun i j => stack_spec.at_column j (nth i (lines (of_dense 1 (length v) (Nd [1; length v] (fun idx => INR (nth (nth 1 idx 0) v 0))))) [])).
Proof.
  unfold stack_spec.gives, row_matrix. cbn [fst snd]. set (s := of_dense _ _ _). assert (H : length (lines s) = 1) by reflexivity. rewrite <- H at 1.
  change (length v) with (ncol s) at 1. apply stack_spec.reads_sparse. intros l c x Hl Hc. cbn [s of_dense lines seq map In] in Hl. destruct Hl as [<-|[]].
  apply filter_In in Hc as [Hc _]. apply in_map_iff in Hc as (k & [= <- _] & Hk). apply in_seq in Hk. cbn. lia.
Qed.

Lemma rows_stacked vs D : vs <> [] -> (forall v, In v vs -> length v = D) ->
  exists X, stack_model.sp_vstack (map row_matrix vs) = Ok X /\ fits (length vs) D X /\
    forall i v, nth_error vs i = Some v -> forall j, j < D -> el (mvalue X) [i; j] = INR (nth j v 0).
Proof.
  intros N H.
  set (blk := fun v : list nat => (1, fun i j => stack_spec.at_column j (nth i (lines (of_dense 1 (length v) (Nd [1; length v] (fun idx => INR (nth (nth 1 idx 0) v 0))))) [])) : stack_spec.block).
  assert (F : Forall2 (stack_spec.gives D) (map row_matrix vs) (map blk vs)).
  { clear N. induction vs as [|v vs IH]; cbn [map]; constructor; [rewrite <- (H v (or_introl eq_refl)); apply row_reads|apply IH; intros; apply H; now right]. }
  destruct (stack_proof.vstack_ok D (map row_matrix vs) (map blk vs)) as (X & f & E & M & K & V); [destruct vs; [congruence|discriminate]|exact F|].
  assert (S1 : existsb is_sparse_matrix (map row_matrix vs) = true) by (destruct vs; [congruence|reflexivity]).
  unfold stack_model.safe_vstack in E. rewrite S1 in E. replace (map stack_model.as_block (map row_matrix vs)) with (map row_matrix vs) in E by (rewrite map_map; reflexivity).
  exists X. split; [exact E|]. rewrite S1 in K. destruct X as [a|s]; [discriminate|]. cbn [stack_spec.is_matrix] in M. destruct M as (M1 & M2 & M3 & M4).
  assert (Ln : list_sum (map fst (map blk vs)) = length vs). { rewrite map_map. clear. induction vs; cbn; auto. }
  rewrite Ln in *.
  assert (B : forall k, k <= length vs -> stack_spec.rows_before k (map fst (map blk vs)) = k).
  { rewrite map_map. cbn [blk fst]. clear. unfold stack_spec.rows_before. induction vs as [|v vs IH]; intros [|k] Hk; cbn in *; try lia. rewrite IH; lia. }
  split.
  - cbn [fits]. unfold csr_shape. rewrite M1, M2. split; [reflexivity|]. unfold in_range. apply Forall_forall. intros l Hl. apply Forall_forall. intros c Hc. apply in_map_iff in Hc as ((c' & v) & <- & Hc).
    rewrite M2. exact (M3 l c' v Hl Hc).
  - intros i v Ev j Hj. assert (Hi : i < length vs) by (apply nth_error_Some; congruence).
    unfold mvalue, toarray. cbn [el nth]. rewrite <- stack_proof.at_column_eq, M4 by assumption.
    specialize (V i (blk v) 0 j). rewrite nth_error_map, Ev in V. rewrite B, Nat.add_0_r in V by lia. rewrite V; [|reflexivity|cbn; lia|exact Hj].
    cbn [blk snd]. rewrite stack_proof.at_column_eq. apply row_at. rewrite (H v); [exact Hj|eapply nth_error_In; eauto].
Qed.

Lemma first_cols_fits n D m X : fits n D X -> fits n (Nat.min m D) (first_cols m X) /\
  forall i j, i < n -> j < Nat.min m D -> el (mvalue (first_cols m X)) [i; j] = el (mvalue X) [i; j].
Proof.
  intro F. destruct X as [a|s]; cbn [first_cols fits mvalue] in *.
  - unfold rows_of, cols_of. cbn [mshape]. rewrite F. cbn. auto.
  - destruct F as [Sh Rg]. unfold csr_shape in *. injection Sh as L C. split.
    + split; [cbn [lines ncol]; rewrite map_length, L, C; reflexivity|]. unfold in_range in *. cbn [lines ncol]. apply Forall_forall. intros l Hl. apply in_map_iff in Hl as (l0 & <- & Hl).
      rewrite Forall_forall in Rg. specialize (Rg l0 Hl). apply Forall_forall. intros c Hc. apply in_map_iff in Hc as ((c' & v) & <- & Hc). apply filter_In in Hc as [Hc Hm]. cbn in *.
      apply Nat.ltb_lt in Hm. rewrite Forall_forall in Rg. specialize (Rg c' (in_map fst _ _ Hc)). cbn in Rg. lia.
    + intros i j Hi Hj. unfold toarray. cbn [el nth lines]. rewrite (nth_indep _ [] (filter (fun p : nat * R => fst p <? m) [])) by (rewrite map_length; lia). rewrite (map_nth (filter (fun p : nat * R => fst p <? m))).
      generalize (nth i (lines s) []). intro l. induction l as [|[c v] l IH]; cbn [filter at_col fst snd]; auto.
      destruct (Nat.ltb_spec c m); cbn [at_col fst snd]; rewrite IH; auto. destruct (Nat.eqb_spec c j); [lia|lra].
Qed.

Lemma window_nonneg n D X (g : nat -> nat -> nat) : fits n D X -> (forall i j, i < n -> j < D -> el (mvalue X) [i; j] = INR (g i j)) -> nonneg (mvalue X).
Proof.
  intros F H. apply (proj2 (nonneg2 _ n D (mshape_value _ _ _ (fits_shape _ _ _ F)))). intros i j Hi Hj. rewrite H by assumption. apply pos_INR.
Qed.
