(** * Restoration of an experiment from its log. *)

From Coq Require Import List ZArith Reals Bool Arith String Permutation Lia.
Import ListNotations.
From Verif Require Import Py Py_proof ListUtil pairing_model pairing_spec pairing_proof utils_model logger_model nd_model sparse_model learner_model learner_proof
  experiment_model experiment_spec experiment_proof restore_model.
Open Scope py_scope.
Local Open Scope nat_scope.

Lemma relabel_ok names raws labels pairing nm raw : Forall2 distinct_labels names raws -> labels_faithful raws names labels pairing ->
  nth_error names 0 = Some nm -> nth_error raws 0 = Some raw -> relabel names raws pairing = Ok labels.
Proof.
  intros D (L & F) En Er. unfold relabel. assert (Nn : NoDup nm).
  { destruct D; [discriminate|]. cbn in En. injection En as <-. exact (proj1 H). }
  apply mapM_ok. assert (G : forall t lab tup, nth_error labels t = Some lab -> nth_error pairing t = Some tup ->
    (label_names <- py_nth names 0 ;; raw <- py_nth raws 0 ;; i <- py_nth tup 0 ;; name <- py_nth raw (Z.of_nat i) ;; list_index String.eqb label_names name 0) = Ok lab).
  { intros t lab tup El Et. destruct (F t lab tup El Et) as (_ & H). destruct (H 0 raw Er) as (idx & nm' & s & H1 & H2 & H3 & H4).
    assert (nm' = nm) by congruence. subst.
    assert (P0 : forall A (l : list A) y, nth_error l 0 = Some y -> py_nth l 0 = Ok y) by (intros A l y; exact (proj2 (py_nth_nat_ok l 0 y))).
    rewrite (P0 _ _ _ En), (P0 _ _ _ Er). cbn [bind]. rewrite (P0 _ _ _ H1). cbn [bind]. rewrite (proj2 (py_nth_nat_ok raw idx s) H4). cbn [bind].
    unfold list_index. now rewrite (index_from_ok s nm 0 lab) by auto. }
  clear - L G. revert pairing L G. induction labels as [|lab labels IH]; intros [|tup pairing] L G; try discriminate; constructor.
  - apply (G 0); reflexivity.
  - apply IH; [now injection L|]. intros t. exact (G (S t)).
Qed.
Lemma relabel_prepared rd x p : legal x rd -> prepare rd x = Ok p -> x_loaders x <> [] ->
  restore x (p_names p) (p_pairing p) (p_examples p) =
  Ok (p_coefs p, p_labels_all p, (p_others p, p_data_ex p, p_data p, p_labels_ex p, p_labels p)).
Proof.
  intros G E Ne. destruct (prepare_inv rd x p E) as [B]. pose proof (paired_faithful rd x p G B) as (Hn & F).
  destruct G as (D & _). rewrite <- Hn in D.
  assert (exists nm raw, nth_error (p_names p) 0 = Some nm /\ nth_error (map ld_labels (x_loaders x)) 0 = Some raw) as (nm & raw & H1 & H2).
  { destruct (x_loaders x) as [|ld lds]; [congruence|]. cbn [map] in *. inversion D; subst. eexists _, _; split; reflexivity. }
  unfold restore. rewrite (relabel_ok _ _ _ _ _ _ D F H1 H2). cbn [bind].
  unfold set_labels_and_prepare_data. rewrite (pb_coefs _ _ _ B). cbn [bind].
  assert (Ed : mapM (fun p0 => idx <- mapM (fun t => py_nth t (Z.of_nat (fst p0))) (p_pairing p) ;; take_rows (snd p0) idx) (enumerate (map ld_data (x_loaders x))) = Ok (pb_raw _ _ _ B)).
  { apply mapM_ok. eapply Forall2_impl; [|exact (pb_data _ _ _ B)]. intros q y (idx & I1 & I2). rewrite I1. exact I2. }
  rewrite Ed. cbn [bind].
  assert (Ea : (if x_debug x then slice_to (pb_labels _ _ _ B) 200 else pb_labels _ _ _ B) = p_labels_all p).
  { rewrite (pb_all _ _ _ B). destruct (x_debug x); [apply slice_200|reflexivity]. }
  rewrite Ea. unfold set_data_and_labels_for_examples. rewrite <- (pb_others _ _ _ B).
  rewrite (proj2 (mapM_ok _ _ _) (pb_data_ex _ _ _ B)). cbn [bind]. rewrite (proj2 (mapM_ok _ _ _) (pb_data_others _ _ _ B)). cbn [bind].
  assert (El : forall idx ls, Forall2 (fun i l => nth_error (p_labels_all p) i = Some l) idx ls -> mapM (fun i => py_nth (p_labels_all p) (Z.of_nat i)) idx = Ok ls).
  { intros idx ls H. apply mapM_ok. eapply Forall2_impl; [|exact H]. intros i l. apply (proj2 (py_nth_nat_ok _ i l)). }
  rewrite (El _ _ (pb_labels_ex _ _ _ B)). cbn [bind]. rewrite (El _ _ (pb_labels_others _ _ _ B)). reflexivity.
Qed.
