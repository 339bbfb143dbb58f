(** * Proofs about stacks and products. *)

From Coq Require Import List Reals Arith Bool Lia Lra Sorted.
Import ListNotations.
From Verif Require Import Py Py_proof nd_model nd_proof sparse_model nmf_model array_utils_proof learner_model nmf_spec learner_spec nmf_proof learner_proof stack_model stack_spec.
Open Scope py_scope.
Local Open Scope R_scope.

Lemma at_column_eq j l : at_column j l = at_col j l.
Proof.
  unfold at_column. induction l as [|[c v] l IH]; cbn; [reflexivity|]. destruct (Nat.eqb c j); cbn; now rewrite IH.
Qed.

Lemma sum_to_eq n f : sum_to n f = rsum n f.
Proof.
  unfold sum_to. induction n as [|n IH]; [reflexivity|]. rewrite seq_S, map_app, fold_right_app. cbn.
  rewrite Rplus_0_r. rewrite <- IH. clear IH. generalize (f n) as c. intros c.
  induction (map f (seq 0 n)) as [|x l IH]; cbn; lra.
Qed.

(** ** Stacks *)

Lemma reads_block b n m f : reads b n m f ->
  mshape (as_block b) = [n; m] /\ rows_of (as_block b) = n /\ cols_of (as_block b) = m /\
  is_sparse_matrix (as_block b) = is_sparse_matrix b /\ fit_in n (as_block b) /\
  forall i j, (i < n)%nat -> (j < m)%nat -> el (mvalue (as_block b)) [i; j] = f i j.
Proof.
  intros H. destruct H as [a E|a m E|a n m E|s E]; unfold fit_in, rows_of, cols_of; cbn [as_block mshape mvalue is_sparse_matrix fits].
  - unfold atleast2d. rewrite E. cbn. repeat split; reflexivity.
  - unfold atleast2d. rewrite E. cbn. repeat split; reflexivity.
  - unfold atleast2d. rewrite E. cbn. rewrite E. repeat split; reflexivity.
  - unfold csr_shape. cbn. repeat split.
    + unfold in_range. apply Forall_forall. intros l Hl. apply Forall_forall. intros c Hc. apply in_map_iff in Hc.
      destruct Hc as ([c' v] & <- & Hc). exact (E l c' v Hl Hc).
    + intros i j Hi Hj. symmetry. apply at_column_eq.
Qed.


Lemma stack_same_cols m bs rs : Forall2 (gives m) bs rs -> same_cols m (map as_block bs) = true.
Proof.
  induction 1 as [|b r bs rs H _ IH]; [reflexivity|]. cbn [map same_cols forallb]. unfold same_cols in IH. rewrite IH.
  destruct (reads_block _ _ _ _ H) as (S & _ & C & _). rewrite S, C. cbn [length Nat.eqb andb]. rewrite Nat.eqb_refl. reflexivity.
Qed.
Lemma stack_rows m bs rs : Forall2 (gives m) bs rs -> map rows_of (map as_block bs) = map fst rs.
Proof.
  induction 1 as [|b r bs rs H _ IH]; [reflexivity|]. cbn [map]. destruct (reads_block _ _ _ _ H) as (_ & R & _). now rewrite R, IH.
Qed.
Lemma stack_kind m bs rs : Forall2 (gives m) bs rs -> existsb is_sparse_matrix (map as_block bs) = existsb is_sparse_matrix bs.
Proof.
  induction 1 as [|b r bs rs H _ IH]; [reflexivity|]. cbn [map existsb]. destruct (reads_block _ _ _ _ H) as (_ & _ & _ & K & _). now rewrite K, IH.
Qed.

Lemma vcat_block m bs rs : Forall2 (gives m) bs rs -> forall k r i j, nth_error rs k = Some r -> (i < fst r)%nat -> (j < m)%nat ->
  vcat_at (map as_block bs) (rows_before k (map fst rs) + i) j = snd r i j.
Proof.
  induction 1 as [|b r0 bs rs H _ IH]; intros [|k] r i j E Hi Hj; try discriminate; cbn [map vcat_at];
    destruct (reads_block _ _ _ _ H) as (_ & R & _ & _ & _ & V); rewrite R.
  - injection E as ->. unfold rows_before. cbn [firstn fold_right plus]. destruct (Nat.ltb_spec i (fst r)); [|lia]. now apply V.
  - cbn [nth_error] in E. unfold rows_before. cbn [map firstn fold_right]. fold (rows_before k (map fst rs)).
    destruct (Nat.ltb_spec (fst r0 + rows_before k (map fst rs) + i) (fst r0)); [lia|].
    rewrite <- (IH k r i j E Hi Hj). f_equal. lia.
Qed.

Lemma stored_length n b : fit_in n b -> length (stored b) = n.
Proof.
  unfold fit_in. destruct b as [a|s]; cbn [stored fits].
  - intros E. rewrite E. cbn. now rewrite map_length, seq_length.
  - intros [E _]. now injection E.
Qed.

Lemma stored_rows m bs rs : Forall2 (gives m) bs rs ->
  length (flat_map stored (map as_block bs)) = list_sum (map fst rs) /\
  Forall (fun l => Forall (fun c => (c < m)%nat) (map fst l)) (flat_map stored (map as_block bs)) /\
  forall k r i j, nth_error rs k = Some r -> (i < fst r)%nat -> (j < m)%nat ->
    at_col j (nth (rows_before k (map fst rs) + i) (flat_map stored (map as_block bs)) []) = snd r i j.
Proof.
  induction 1 as [|b r0 bs rs H _ IH]; cbn [map flat_map].
  - split; [reflexivity|]. split; [constructor|]. intros [|k]; discriminate.
  - destruct IH as (IL & IF & IV). destruct (reads_block _ _ _ _ H) as (_ & R & C & _ & F & V).
    assert (L := stored_length _ _ F). split; [|split].
    + rewrite app_length, IL, L. reflexivity.
    + apply Forall_app. split; [|exact IF]. apply Forall_forall. intros l Hl. destruct (In_nth _ _ [] Hl) as (i & Hi & <-).
      rewrite L in Hi. destruct (stored_value _ _ i F Hi) as [_ B]. rewrite C in B. exact B.
    + intros [|k] r i j E Hi Hj.
      * injection E as ->. unfold rows_before. cbn [firstn fold_right plus]. rewrite app_nth1 by lia.
        destruct (stored_value _ _ i F Hi) as [W _]. rewrite W by (rewrite C; exact Hj). now apply V.
      * cbn [nth_error] in E. unfold rows_before. cbn [map firstn fold_right]. fold (rows_before k (map fst rs)).
        rewrite app_nth2 by lia. rewrite L.
        replace (fst r0 + rows_before k (map fst rs) + i - fst r0)%nat with (rows_before k (map fst rs) + i)%nat by lia.
        now apply (IV k).
Qed.

Lemma rows_inside k (rs : list block) r i : nth_error rs k = Some r -> (i < fst r)%nat -> (rows_before k (map fst rs) + i < list_sum (map fst rs))%nat.
Proof.
  revert k. induction rs as [|r0 rs IH]; intros [|k] E Hi; try discriminate; cbn in E; unfold rows_before; cbn [map firstn fold_right list_sum].
  - injection E as ->. lia.
  - fold (rows_before k (map fst rs)). fold (list_sum (map fst rs)). specialize (IH k E Hi). lia.
Qed.
Lemma rows_covered (rs : list block) : forall p, (p < list_sum (map fst rs))%nat ->
  exists k r i, nth_error rs k = Some r /\ (i < fst r)%nat /\ p = (rows_before k (map fst rs) + i)%nat.
Proof.
  induction rs as [|r0 rs IH]; intros p Hp; cbn [map list_sum fold_right] in Hp; [lia|].
  fold (list_sum (map fst rs)) in Hp. destruct (Nat.ltb_spec p (fst r0)).
  - exists 0%nat, r0, p. repeat split; auto.
  - destruct (IH (p - fst r0)%nat ltac:(lia)) as (k & r & i & E & Hi & Hp').
    exists (S k), r, i. repeat split; auto. unfold rows_before in *. cbn [map firstn fold_right]. lia.
Qed.

Lemma nth_canonical i ls : nth i (map canonical_line ls) [] = canonical_line (nth i ls []).
Proof. exact (map_nth canonical_line ls [] i). Qed.

Lemma vstack_ok m bs rs : bs <> [] -> Forall2 (gives m) bs rs ->
  exists x f, safe_vstack bs = Ok x /\ is_matrix x (list_sum (map fst rs)) m f /\ is_sparse_matrix x = existsb is_sparse_matrix bs /\
    forall k r i j, nth_error rs k = Some r -> (i < fst r)%nat -> (j < m)%nat -> f (rows_before k (map fst rs) + i)%nat j = snd r i j.
Proof.
  intros N H. assert (C := stack_same_cols _ _ _ H).
  assert (C0 : forall b bs', bs = b :: bs' -> cols_of (as_block b) = m).
  { intros b bs' ->. inversion H as [|? r0 ? rs0 Hb _]; subst. now destruct (reads_block _ _ _ _ Hb) as (_ & _ & E & _). }
  unfold safe_vstack. destruct (existsb is_sparse_matrix bs) eqn:K.
  - destruct (stored_rows _ _ _ H) as (L & F & V).
    exists (Sparse (coo_tocsr m (flat_map stored (map as_block bs)))), (fun i j => at_col j (nth i (flat_map stored (map as_block bs)) [])).
    split; [|split; [|split; [reflexivity|exact V]]].
    + unfold sp_vstack. destruct bs as [|b bs]; [now exfalso|]. cbn [map] in *. rewrite (C0 b bs eq_refl), C. reflexivity.
    + cbn [is_matrix coo_tocsr lines ncol]. rewrite map_length. split; [exact L|]. split; [reflexivity|]. split.
      * intros l c v Hl Hc. apply in_map_iff in Hl. destruct Hl as (l0 & <- & Hl).
        destruct (canonical_sorted l0) as [_ I]. assert (Hf : In c (map fst (canonical_line l0))) by (apply in_map_iff; now exists (c, v)).
        apply I in Hf. rewrite Forall_forall in F. specialize (F _ Hl). rewrite Forall_forall in F. now apply F.
      * intros i j Hi Hj. rewrite nth_canonical, at_column_eq. apply at_col_canonical.
  - exists (Dense (Nd [total_rows (map as_block bs); m] (fun idx => vcat_at (map as_block bs) (nth 0 idx 0%nat) (nth 1 idx 0%nat)))), (vcat_at (map as_block bs)).
    split; [|split; [|split; [reflexivity|]]].
    + unfold np_vstack. destruct bs as [|b bs]; [now exfalso|]. cbn [map] in *. rewrite (C0 b bs eq_refl), C. reflexivity.
    + cbn [is_matrix shape el nth]. unfold total_rows. rewrite (stack_rows _ _ _ H). split; auto.
    + intros k r i j E Hi Hj. now apply (vcat_block m bs rs H).
Qed.

Lemma vstack_none : safe_vstack [] = Err ValueError.
Proof. reflexivity. Qed.

Lemma vstack_widths bs : bs <> [] -> (forall b, In b bs -> exists n m f, reads b n m f) ->
  (exists b b' n m f n' m' f', In b bs /\ In b' bs /\ reads b n m f /\ reads b' n' m' f' /\ m <> m') ->
  safe_vstack bs = Err ValueError.
Proof.
  intros N A (b & b' & n & m & f & n' & m' & f' & Hb & Hb' & R & R' & D).
  assert (C : forall c, same_cols c (map as_block bs) = false).
  { intros c. destruct (same_cols c (map as_block bs)) eqn:E; [|reflexivity]. exfalso. unfold same_cols in E. rewrite forallb_forall in E.
    assert (E1 := E _ (in_map as_block _ _ Hb)). assert (E2 := E _ (in_map as_block _ _ Hb')).
    apply andb_true_iff in E1, E2. destruct E1 as [_ E1], E2 as [_ E2]. apply Nat.eqb_eq in E1, E2.
    destruct (reads_block _ _ _ _ R) as (_ & _ & C1 & _). destruct (reads_block _ _ _ _ R') as (_ & _ & C2 & _). lia. }
  unfold safe_vstack, sp_vstack, np_vstack. destruct bs as [|b0 bs]; [reflexivity|]. cbn [map] in *. rewrite C. now destruct (existsb _ _).
Qed.

(** ** Products *)

Lemma at_col_times2 j v l : at_col j (map (fun q : nat * R => (fst q, v * snd q)) l) = v * at_col j l.
Proof. induction l as [|[c w] l IH]; cbn; [lra|]. destruct (Nat.eqb c j); rewrite IH; lra. Qed.

Lemma line_times_value b l j : at_col j (line_times b l) = line_dot l (fun k => at_col j (nth k b [])).
Proof.
  unfold line_times. rewrite at_col_canonical. induction l as [|[k v] l IH]; cbn [flat_map line_dot fold_right fst snd]; [reflexivity|].
  rewrite at_col_app, at_col_times2, IH. reflexivity.
Qed.

Lemma line_times_inside b l m : (forall l' c v, In l' b -> In (c, v) l' -> (c < m)%nat) -> forall c v, In (c, v) (line_times b l) -> (c < m)%nat.
Proof.
  intros H c v Hc. unfold line_times in Hc. destruct (canonical_sorted (flat_map (fun p => map (fun q => (fst q, snd p * snd q)) (nth (fst p) b [])) l)) as [_ I].
  assert (Hf : In c (map fst (canonical_line (flat_map (fun p => map (fun q => (fst q, snd p * snd q)) (nth (fst p) b [])) l)))) by (apply in_map_iff; now exists (c, v)).
  apply I in Hf. apply in_map_iff in Hf. destruct Hf as ([c' w] & E & Hf). cbn in E. subst c'.
  apply in_flat_map in Hf. destruct Hf as ([k u] & _ & Hf). cbn [fst snd] in Hf. apply in_map_iff in Hf. destruct Hf as ([c' x] & E & Hf).
  injection E as <- _. destruct (Nat.lt_ge_cases k (length b)) as [Lk|Lk].
  - apply (H (nth k b []) _ x); [now apply nth_In|exact Hf].
  - rewrite nth_overflow in Hf by exact Lk. contradiction.
Qed.


Lemma inside_line s i : (forall l c v, In l (lines s) -> In (c, v) l -> (c < ncol s)%nat) -> Forall (fun p : nat * R => (fst p < ncol s)%nat) (nth i (lines s) []).
Proof.
  intros H. apply Forall_forall. intros [c v] Hc. destruct (Nat.lt_ge_cases i (length (lines s))) as [L|L].
  - apply (H _ c v (nth_In _ [] L) Hc).
  - rewrite nth_overflow in Hc by exact L. contradiction.
Qed.

Lemma dot_ok a b n k m f g d : two_axes a -> two_axes b -> reads a n k f -> reads b k m g ->
  exists r, safe_sparse_dot a b d = Ok r /\ is_matrix r n m (fun i j => sum_to k (fun l => f i l * g l j)) /\
    (is_sparse r <-> is_sparse a /\ is_sparse b /\ d = false).
Proof.
  intros Ta Tb Ra Rb.
  destruct Ra as [a E|a k E|a n k E|s E]; try (cbn in Ta; rewrite E in Ta; discriminate); clear Ta.
  - inversion Rb as [b0 Eb|b0 ? Eb|b0 ? ? Eb|t Et]; subst; try (cbn in Tb; rewrite Eb in Tb; discriminate); clear Tb Rb; cbn [safe_sparse_dot].
    + unfold dot. rewrite E, Eb, Nat.eqb_refl. cbn [bind]. eexists. split; [reflexivity|]. cbn [is_matrix shape el nth]. split.
      * split; [reflexivity|]. intros. now rewrite sum_to_eq.
      * split; [intros (s & C); discriminate|intros ((s & C) & _); discriminate].
    + unfold dense_sparse_dot. rewrite E, Nat.eqb_refl. cbn [bind]. eexists. split; [reflexivity|]. cbn [is_matrix shape el nth]. split.
      * split; [reflexivity|]. intros i j Hi Hj. rewrite sum_to_eq. apply rsum_ext. intros l Hl. now rewrite at_column_eq.
      * split; [intros (s & C); discriminate|intros ((s & C) & _); discriminate].
  - inversion Rb as [b0 Eb|b0 ? Eb|b0 ? ? Eb|t Et]; subst; try (cbn in Tb; rewrite Eb in Tb; discriminate); clear Tb Rb; cbn [safe_sparse_dot].
    + unfold sparse_dense_dot. rewrite Eb, Nat.eqb_refl. cbn [bind]. eexists. split; [reflexivity|]. cbn [is_matrix shape el nth]. split.
      * split; [reflexivity|]. intros i j Hi Hj. rewrite sum_to_eq. rewrite (line_dot_at_col _ _ (ncol s)) by now apply inside_line.
        apply rsum_ext. intros l Hl. now rewrite at_column_eq.
      * split; [intros (s' & C); discriminate|intros (_ & (s' & C) & _); discriminate].
    + unfold sparse_sparse_dot. match goal with Hk : length (lines t) = ncol s |- _ => rewrite Hk end. rewrite Nat.eqb_refl. cbn [bind]. eexists. split; [reflexivity|].
      assert (V : forall i j, at_col j (nth i (map (line_times (lines t)) (lines s)) []) =
        sum_to (ncol s) (fun l => at_column l (nth i (lines s) []) * at_column j (nth l (lines t) []))).
      { intros i j. change (@nil (nat * R)) with (line_times (lines t) []) at 1. rewrite (map_nth (line_times (lines t))).
        rewrite line_times_value, sum_to_eq. rewrite (line_dot_at_col _ _ (ncol s)) by now apply inside_line.
        apply rsum_ext. intros l Hl. now rewrite !at_column_eq. }
      unfold toarray, csr_shape. destruct d; cbn [is_matrix shape el lines ncol nth].
      * split; [rewrite map_length; split; [reflexivity|]; intros; apply V|].
        split; [intros (s' & C); discriminate|intros (_ & _ & C); discriminate].
      * split.
        -- rewrite map_length. split; [reflexivity|]. split; [reflexivity|]. split.
           ++ intros l c v Hl Hc. apply in_map_iff in Hl. destruct Hl as (l0 & <- & _). revert c v Hc. now apply line_times_inside.
           ++ intros i j _ _. rewrite at_column_eq. apply V.
        -- split; [intros _; repeat split; eexists; reflexivity|intros _; eexists; reflexivity].
Qed.

Lemma dot_refused a b n k k' m f g d : two_axes a -> two_axes b -> reads a n k f -> reads b k' m g -> k <> k' ->
  safe_sparse_dot a b d = Err ValueError.
Proof.
  intros Ta Tb Ra Rb N. apply Nat.eqb_neq in N.
  destruct Ra as [a E|a k E|a n k E|s E]; try (cbn in Ta; rewrite E in Ta; discriminate);
  destruct Rb as [b Eb|b ? Eb|b ? ? Eb|t Et]; try (cbn in Tb; rewrite Eb in Tb; discriminate); cbn [safe_sparse_dot].
  - unfold dot. now rewrite E, Eb, N.
  - unfold dense_sparse_dot. now rewrite E, N.
  - unfold sparse_dense_dot. now rewrite Eb, N.
  - unfold sparse_sparse_dot. now rewrite N.
Qed.
