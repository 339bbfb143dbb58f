(** * Proofs about prepare of experiment.py. *)

From Coq Require Import List ZArith Reals Bool Arith String Permutation Sorted Lia Lra.
Import ListNotations.
From Verif Require Import Py Py_proof ListUtil pairing_model pairing_spec pairing_proof evaluation_model evaluation_spec evaluation_proof
  utils_model logger_model nd_model nd_spec sparse_model nmf_model nmf_spec learner_model learner_spec learner_proof experiment_model experiment_spec.
Open Scope py_scope.
Local Open Scope nat_scope.
Notation length := List.length.

Lemma F2_at {A B} (R : A -> B -> Prop) l l' k a b : Forall2 R l l' -> nth_error l k = Some a -> nth_error l' k = Some b -> R a b.
Proof. intros F E E'. destruct (Forall2_nth _ _ _ F k a E) as (b' & E2 & H). congruence. Qed.

(** ** Rows. *)
Lemma take_rows_ok x idx y : take_rows x idx = Ok y <->
  Forall (fun i => i < rows_of x) idx /\
  y = match x with
       | Dense a => Dense (Nd [length idx; cols_of x] (fun ix => el a [nth (nth 0 ix 0) idx 0; nth 1 ix 0]))
       | Sparse s => Sparse (Csr (ncol s) (map (fun i => nth i (lines s) []) idx))
       end.
Proof.
  unfold take_rows. destruct (forallb _ idx) eqn:E.
  - rewrite forallb_forall in E. split; [intro H; injection H as <-; split; auto|intros [_ ->]; auto].
    apply Forall_forall. intros i Hi. now apply Nat.ltb_lt, E.
  - split; [discriminate|]. intros [F _]. exfalso. assert (X : forallb (fun i => i <? rows_of x) idx = true); [|congruence].
    apply forallb_forall. rewrite Forall_forall in F. intros i Hi. now apply Nat.ltb_lt, F.
Qed.
Lemma take_rows_value x idx y : take_rows x idx = Ok y -> mshape y = [length idx; cols_of x] /\
  forall i t, nth_error idx i = Some t -> forall j, el (mvalue y) [i; j] = el (mvalue x) [t; j].
Proof.
  intro H. apply take_rows_ok in H as [F ->]. destruct x as [a|s]; cbn [mshape mvalue].
  - split; auto. intros i t E j. cbn. erewrite nth_error_nth; eauto.
  - split; [unfold csr_shape; cbn; now rewrite map_length|]. intros i t E j. cbn.
    rewrite (nth_error_nth (map (fun i0 => nth i0 (lines s) []) idx) i [] (x := nth t (lines s) [])); auto. now rewrite nth_error_map, E.
Qed.
Lemma take_rows_exists x idx : (forall i, In i idx -> i < rows_of x) -> exists y, take_rows x idx = Ok y.
Proof. intro H. eexists. apply take_rows_ok. split; [|reflexivity]. apply Forall_forall, H. Qed.
Lemma take_rows_fits x idx y n d : fits n d x -> take_rows x idx = Ok y -> fits (length idx) d y.
Proof.
  intros F H. apply take_rows_ok in H as [G ->]. destruct x as [a|s]; cbn in *.
  - unfold cols_of. cbn. now rewrite F.
  - destruct F as [F R]. unfold csr_shape in *. cbn. rewrite map_length. split; [congruence|]. unfold in_range in *. cbn in *.
    rewrite Forall_forall in *. intros l Hl. apply in_map_iff in Hl as (i & <- & Hi). specialize (G i Hi). apply R. apply nth_In. exact G.
Qed.
Lemma crop_value x : mshape (crop x) = [Nat.min 200 (rows_of x); Nat.min 11 (cols_of x)] /\
  forall i j, i < Nat.min 200 (rows_of x) -> j < Nat.min 11 (cols_of x) -> el (mvalue (crop x)) [i; j] = el (mvalue x) [i; j].
Proof.
  destruct x as [a|s]; cbn -[Nat.min firstn Nat.ltb]; [auto|]. split.
  - unfold csr_shape, rows_of, cols_of. cbn -[Nat.min firstn Nat.ltb]. now rewrite map_length, firstn_length.
  - unfold rows_of, cols_of. cbn -[Nat.min firstn Nat.ltb]. intros i j Hi Hj.
    assert (E : nth i (map (filter (fun p : nat * R => fst p <? 11)) (firstn 200 (lines s))) [] = filter (fun p => fst p <? 11) (nth i (lines s) [])).
    { change [] with (filter (fun p : nat * R => fst p <? 11) []) at 1. rewrite map_nth. f_equal. 
      rewrite <- (firstn_skipn 200 (lines s)) at 2. rewrite app_nth1; auto. rewrite firstn_length. lia. }
    rewrite E. clear E. generalize (nth i (lines s) []). intro l0. induction l0 as [|[c v] l IH]; auto. cbn [filter fst]. destruct (Nat.ltb_spec c 11).
    + cbn [at_col]. now rewrite IH.
    + rewrite IH. cbn [at_col]. destruct (Nat.eqb_spec c j); auto. lia.
Qed.
Lemma rows_fits n d x : fits n d x -> rows_of x = n.
Proof. destruct x as [a|s]; cbn; unfold rows_of; cbn; [now intros ->|]. unfold csr_shape. intros [E _]. now injection E. Qed.
Lemma cols_fits n d x : fits n d x -> cols_of x = d.
Proof. destruct x as [a|s]; cbn; unfold cols_of; cbn; [now intros ->|]. unfold csr_shape. intros [E _]. now injection E. Qed.
Lemma crop_fits n d x : fits n d x -> fits (Nat.min 200 n) (Nat.min 11 d) (crop x).
Proof.
  intro F. pose proof (rows_fits _ _ _ F) as Hr. pose proof (cols_fits _ _ _ F) as Hc. pose proof (proj1 (crop_value x)) as S. rewrite Hr, Hc in S.
  destruct x as [a|s]; cbn -[Nat.min firstn Nat.ltb] in *; auto. split; auto. destruct F as [F R]. unfold in_range in *. cbn -[Nat.min firstn Nat.ltb] in *.
  unfold csr_shape in F. injection F as _ <-. rewrite Forall_forall in *. intros l Hl. apply in_map_iff in Hl as (l0 & <- & Hl).
  specialize (R l0 (in_firstn _ _ _ Hl)). rewrite Forall_forall in *. intros c Hp. apply in_map_iff in Hp as (p & <- & Hp).
  apply filter_In in Hp as [Hp Q]. apply Nat.ltb_lt in Q.
  specialize (R (fst p) (in_map fst _ _ Hp)). lia.
Qed.

(** ** prepare. *)
Lemma py_nth_nat {A} (l : list A) k : py_nth l (Z.of_nat k) = match nth_error l k with Some a => Ok a | None => Err IndexError end.
Proof.
  unfold py_nth. rewrite norm_index_nonneg. destruct (Nat.ltb_spec k (length l)); cbn [bind]; auto.
  now rewrite (proj2 (nth_error_None l k)).
Qed.
Lemma py_nth_nat_ok {A} (l : list A) k a : py_nth l (Z.of_nat k) = Ok a <-> nth_error l k = Some a.
Proof. rewrite py_nth_nat. destruct (nth_error l k); split; congruence. Qed.
Lemma assert_ok b u : py_assert b = Ok u -> b = true.
Proof. unfold py_assert. destruct b; auto; discriminate. Qed.
Lemma nat_mem_in x l : nat_mem x l = true <-> In x l.
Proof. unfold nat_mem. rewrite existsb_exists. split; [intros (y & H & E); apply Nat.eqb_eq in E; now subst|intro H; exists x; split; auto; apply Nat.eqb_refl]. Qed.
Lemma same_set_in a b : same_set a b = true <-> forall x, In x a <-> In x b.
Proof.
  unfold same_set. rewrite andb_true_iff, !forallb_forall. setoid_rewrite nat_mem_in. split; [intros [A B] x; split; auto|].
  intro H. split; intros x; apply H.
Qed.
Lemma slice_200 {A} (l : list A) : slice_to l 200 = firstn 200 l.
Proof. exact (slice_to_nonneg l 200). Qed.

(** What the success of prepare means, step by step. *)
Record prepared_by (rd : random) (x : experiment) (p : prepared) := {
  pb_labels : list nat; pb_raw : list matrix;
  pb_pair : associate_samples String.eqb (r_names rd) (r_buckets rd) (map ld_labels (x_loaders x)) = Ok (p_names p, pb_labels, p_pairing p);
  pb_coefs : set_coefs x = Ok (p_coefs p);
  pb_data : Forall2 (fun q y => exists idx, mapM (fun t => py_nth t (Z.of_nat (fst q))) (p_pairing p) = Ok idx /\ take_rows (snd q) idx = Ok y)
      (enumerate (map ld_data (x_loaders x))) pb_raw;
  pb_all : p_labels_all p = if x_debug x then firstn 200 pb_labels else pb_labels;
  pb_ex : chose_examples Nat.eqb (p_labels_all p) (r_label_set rd) 1 = Ok (p_examples p);
  pb_others : p_others p = filter (fun i => negb (nat_mem i (p_examples p))) (seq 0 (length (p_labels_all p)));
  pb_data_ex : Forall2 (fun y z => take_rows y (p_examples p) = Ok z) (if x_debug x then map crop pb_raw else pb_raw) (p_data_ex p);
  pb_data_others : Forall2 (fun y z => take_rows y (p_others p) = Ok z) (if x_debug x then map crop pb_raw else pb_raw) (p_data p);
  pb_labels_ex : Forall2 (fun i l => nth_error (p_labels_all p) i = Some l) (p_examples p) (p_labels_ex p);
  pb_labels_others : Forall2 (fun i l => nth_error (p_labels_all p) i = Some l) (p_others p) (p_labels p);
  pb_gen : get_generator rd (x_mode x) (length (p_labels p)) = Ok (p_generator p);
  pb_a1 : forall l, In l (p_labels_ex p) <-> In l (p_labels_all p);
  pb_a2 : Forall (fun y => rows_of y = length (p_labels p)) (p_data p);
  pb_a3 : Forall (fun l => l < 10) (p_labels p) }.
Lemma prepare_inv rd x p : prepare rd x = Ok p -> inhabited (prepared_by rd x p).
Proof.
  unfold prepare. intro H.
  apply bind_ok in H as ([[names labels] pairing] & E1 & H). apply bind_ok in H as (cs & E2 & H). apply bind_ok in H as (raw & E3 & H).
  rewrite slice_200 in H. set (all := if x_debug x then firstn 200 labels else labels) in *.
  set (data := if x_debug x then map crop raw else raw) in *.
  apply bind_ok in H as (ex & E4 & H). cbn zeta in H. set (others := filter _ _) in *.
  apply bind_ok in H as (dex & E5 & H). apply bind_ok in H as (doth & E6 & H). apply bind_ok in H as (lex & E7 & H). apply bind_ok in H as (lo & E8 & H).
  apply bind_ok in H as (gen & E9 & H). apply bind_ok in H as (u1 & A1 & H). apply bind_ok in H as (u2 & A2 & H). apply bind_ok in H as (u3 & A3 & H).
  injection H as <-. apply assert_ok in A1, A2, A3. apply mapM_ok in E3, E5, E6, E7, E8. rewrite forallb_forall in A2, A3. constructor.
  apply (Build_prepared_by rd x _ labels raw); cbn [p_names p_pairing p_coefs p_labels_all p_examples p_others p_data_ex p_data p_labels_ex p_labels p_generator]; auto.
  - eapply Forall2_impl; [|exact E3]. intros q y H. apply bind_ok in H. exact H.
  - eapply Forall2_impl; [|exact E7]. intros i l H. now apply py_nth_nat_ok.
  - eapply Forall2_impl; [|exact E8]. intros i l H. now apply py_nth_nat_ok.
  - now apply same_set_in.
  - apply Forall_forall. intros y Hy. specialize (A2 y Hy). now apply Nat.eqb_eq in A2.
  - apply Forall_forall. intros y Hy. specialize (A3 y Hy). now apply Nat.ltb_lt in A3.
Qed.

Section Prepared.
Context (rd : random) (x : experiment) (p : prepared) (G : legal x rd) (B : prepared_by rd x p).

Lemma label_at t lab : nth_error (p_labels_all p) t = Some lab -> nth_error (pb_labels _ _ _ B) t = Some lab.
Proof using B.
  rewrite (pb_all _ _ _ B). destruct (x_debug x); auto. intro E.
  rewrite <- (firstn_skipn 200 (pb_labels _ _ _ B)). rewrite nth_error_app1; auto. apply nth_error_Some. congruence.
Qed.
Lemma paired_faithful : p_names p = r_names rd /\ labels_faithful (map ld_labels (x_loaders x)) (p_names p) (pb_labels _ _ _ B) (p_pairing p).
Proof using G B.
  destruct G as (D & Sh & _). exact (associate_samples_faithful String.eqb String.eqb_eq _ _ _ _ _ _ D Sh (pb_pair _ _ _ B)).
Qed.
Lemma all_rows : length (p_labels_all p) = kept_rows x (length (p_pairing p)).
Proof using G B.
  destruct paired_faithful as (_ & L & _). rewrite (pb_all _ _ _ B), <- L. unfold kept_rows. destruct (x_debug x); auto. now rewrite firstn_length.
Qed.
Lemma pairing_labels t lab m ld : nth_error (p_labels_all p) t = Some lab -> nth_error (x_loaders x) m = Some ld ->
  exists names s, nth_error (p_names p) m = Some names /\ nth_error names lab = Some s /\ nth_error (ld_labels ld) (source p m t) = Some s.
Proof using G B.
  intros Et Em. apply label_at in Et. destruct paired_faithful as (_ & L & F).
  destruct (nth_error (p_pairing p) t) as [tup|] eqn:Ep; [|apply nth_error_None in Ep; assert (t < length (pb_labels _ _ _ B)) by (apply nth_error_Some; congruence); lia].
  destruct (F t lab tup Et Ep) as [Lt H]. destruct (H m (ld_labels ld)) as (idx & nm & s & H1 & H2 & H3 & H4); [rewrite nth_error_map, Em; auto|].
  exists nm, s. split; auto. split; auto. unfold source. rewrite (nth_error_nth _ _ _ Ep), (nth_error_nth _ _ _ H1). exact H4.
Qed.
Lemma tuple_at t : t < length (p_pairing p) -> exists tup, nth_error (p_pairing p) t = Some tup /\ length tup = length (x_loaders x).
Proof using G B.
  intro H. destruct paired_faithful as (_ & L & F). destruct (nth_error (p_pairing p) t) as [tup|] eqn:Ep; [|apply nth_error_None in Ep; lia].
  destruct (nth_error (pb_labels _ _ _ B) t) as [lab|] eqn:El; [|apply nth_error_None in El; lia].
  exists tup. split; auto. destruct (F t lab tup El Ep) as [Lt _]. now rewrite map_length in Lt.
Qed.
Lemma source_at t tup m : nth_error (p_pairing p) t = Some tup -> length tup = length (x_loaders x) -> m < length (x_loaders x) -> nth_error tup m = Some (source p m t).
Proof using Type.
  intros E L H. unfold source. rewrite (nth_error_nth _ _ _ E). destruct (nth_error tup m) as [a|] eqn:Ea; [now rewrite (nth_error_nth _ _ _ Ea)|].
  apply nth_error_None in Ea. lia.
Qed.
Lemma source_bound m ld t : nth_error (x_loaders x) m = Some ld -> t < length (p_pairing p) -> source p m t < length (ld_labels ld).
Proof using G B.
  intros Em Ht. destruct G as (D & Sh & _).
  destruct (associate_samples_counts String.eqb String.eqb_eq _ _ _ _ _ _ D Sh (pb_pair _ _ _ B)) as (_ & _ & U & _).
  destruct (tuple_at t Ht) as (tup & E & L). assert (Hm : m < length (x_loaders x)) by (apply nth_error_Some; congruence).
  destruct (U m (ld_labels ld)) as [_ V]; [rewrite nth_error_map, Em; auto|].
  destruct (V (nth_error tup m)) as (i & E1 & Hi); [unfold used; apply in_map_iff; exists tup; split; auto; eapply nth_error_In; eauto|].
  rewrite (source_at t tup m E L Hm) in E1. injection E1 as ->. auto.
Qed.
Lemma sources_distinct m t t' : m < length (x_loaders x) -> t < length (p_pairing p) -> t' < length (p_pairing p) -> source p m t = source p m t' -> t = t'.
Proof using G B.
  intros Hm Ht Ht' E. destruct G as (D & Sh & _).
  destruct (associate_samples_counts String.eqb String.eqb_eq _ _ _ _ _ _ D Sh (pb_pair _ _ _ B)) as (_ & _ & U & _).
  destruct (nth_error (x_loaders x) m) as [ld|] eqn:Em; [|apply nth_error_None in Em; lia].
  destruct (U m (ld_labels ld)) as [V _]; [rewrite nth_error_map, Em; auto|].
  destruct (tuple_at t Ht) as (tup & E1 & L1). destruct (tuple_at t' Ht') as (tup' & E2 & L2).
  apply (proj1 (NoDup_nth_error _) V); [unfold used; now rewrite map_length|]. unfold used. rewrite !nth_error_map, E1, E2. cbn.
  now rewrite (source_at t tup m), (source_at t' tup' m), E.
Qed.

(** Examples. *)
Lemma examples_facts : NoDup (p_examples p) /\ (forall i, In i (p_examples p) -> i < length (p_labels_all p)) /\ NoDup (p_labels_ex p) /\
  length (p_examples p) = length (r_label_set rd).
Proof using G B.
  destruct G as (_ & _ & _ & D). specialize (D _ _ _ (pb_pair _ _ _ B)). rewrite <- (pb_all _ _ _ B) in D. destruct D as [Nl Il].
  destruct (chose_examples_valid Nat.eqb Nat.eqb_eq _ _ _ _ Nl (pb_ex _ _ _ B)) as (N1 & L1 & V).
  split; auto. split; [intros i Hi; destruct (V i Hi) as (l & E & _); apply nth_error_Some; congruence|].
  destruct (chose_examples_spec Nat.eqb (p_labels_all p) (r_label_set rd) 1) as [[Oc E]|[_ E]]; rewrite (pb_ex _ _ _ B) in E; [|discriminate].
  split; [|lia]. injection E as E. pose proof (pb_labels_ex _ _ _ B) as F. rewrite E in F.
  assert (X : p_labels_ex p = r_label_set rd); [|now rewrite X].
  revert F Oc. clear. generalize (p_labels_ex p). induction (r_label_set rd) as [|l ls IH]; intros out F Oc; cbn in F.
  - now inversion F.
  - pose proof (Oc l (or_introl eq_refl)) as H. destruct (occurrences Nat.eqb (p_labels_all p) l) as [|i rest] eqn:Eo; [cbn in H; lia|]. cbn in F.
    inversion F as [|? a ? out' H1 F']; subst. f_equal; [|apply IH; auto; intros; apply Oc; now right].
    assert (I : In i (occurrences Nat.eqb (p_labels_all p) l)) by (rewrite Eo; now left).
    apply (in_occurrences Nat.eqb Nat.eqb_eq) in I. congruence.
Qed.
Lemma others_facts : Permutation (p_examples p ++ p_others p) (seq 0 (length (p_labels_all p))) /\ StronglySorted lt (p_others p).
Proof using G B.
  destruct examples_facts as (N & V & _). rewrite (pb_others _ _ _ B). split.
  - apply NoDup_Permutation.
    + apply NoDup_app_intro; auto; [apply NoDup_filter, seq_NoDup|]. intros i Hi Hf. apply filter_In in Hf as [_ Hf].
      rewrite (proj2 (nat_mem_in _ _) Hi) in Hf. discriminate.
    + apply seq_NoDup.
    + intro i. rewrite in_app_iff, filter_In, in_seq. split.
      * intros [H|[H _]]; [specialize (V i H); lia|auto].
      * intro H. destruct (nat_mem i (p_examples p)) eqn:E; [left; now apply nat_mem_in|right; split; auto; lia].
  - generalize (length (p_labels_all p)). generalize 0. intros a n. revert a. induction n as [|n IH]; intro a; cbn; [constructor|].
    destruct (negb _); auto. constructor; auto. apply Forall_forall. intros i Hi. apply filter_In in Hi as [Hi _]. apply in_seq in Hi. lia.
Qed.

(** Rows of the data. *)
Lemma raw_rows m ld y : nth_error (x_loaders x) m = Some ld -> nth_error (pb_raw _ _ _ B) m = Some y ->
  mshape y = [length (p_pairing p); cols_of (ld_data ld)] /\
  forall t j, t < length (p_pairing p) -> el (mvalue y) [t; j] = el (mvalue (ld_data ld)) [source p m t; j].
Proof using G B.
  intros Em Ey. pose proof (F2_at _ _ _ m (m, ld_data ld) y (pb_data _ _ _ B)) as H.
  rewrite nth_error_enumerate, nth_error_map, Em in H. destruct (H eq_refl Ey) as (idx & E1 & E2). cbn [fst snd] in *.
  apply take_rows_value in E2 as [S L]. pose proof (mapM_length _ _ _ E1) as Li. rewrite Li in S. split; auto.
  intros t j Ht. apply mapM_ok in E1. apply L. destruct (tuple_at t Ht) as (tup & Et & Lt).
  destruct (nth_error idx t) as [a|] eqn:Ea; [|apply nth_error_None in Ea; lia].
  pose proof (F2_at _ _ _ t tup a E1 Et Ea) as X. cbn beta in X. apply py_nth_nat_ok in X. rewrite (source_at t tup m Et Lt) in X; auto.
  apply nth_error_Some. congruence.
Qed.
Lemma kept_rows_le : length (p_labels_all p) <= length (p_pairing p).
Proof using G B. rewrite all_rows. unfold kept_rows. destruct (x_debug x); lia. Qed.
Lemma rows_value idx zs m ld : Forall2 (fun y z => take_rows y idx = Ok z) (if x_debug x then map crop (pb_raw _ _ _ B) else pb_raw _ _ _ B) zs ->
  (forall i, In i idx -> i < length (p_labels_all p)) ->
  nth_error (x_loaders x) m = Some ld -> exists z, nth_error zs m = Some z /\
    rows_from z idx (kept_cols x (cols_of (ld_data ld))) (ld_data ld) (source p m).
Proof using G B.
  intros F Hi Em. assert (Lr : length (pb_raw _ _ _ B) = length (x_loaders x)).
  { rewrite <- (Forall2_len _ _ _ (pb_data _ _ _ B)), enumerate_length, map_length. auto. }
  assert (Hm : m < length (x_loaders x)) by (apply nth_error_Some; congruence).
  destruct (nth_error (pb_raw _ _ _ B) m) as [y|] eqn:Ey; [|apply nth_error_None in Ey; lia].
  destruct (raw_rows m ld y Em Ey) as [S L].
  set (y' := if x_debug x then crop y else y).
  assert (Ey' : nth_error (if x_debug x then map crop (pb_raw _ _ _ B) else pb_raw _ _ _ B) m = Some y').
  { unfold y'. destruct (x_debug x); auto. now rewrite nth_error_map, Ey. }
  destruct (Forall2_nth _ _ _ F m y' Ey') as (z & Ez & T). exists z. split; auto.
  apply take_rows_value in T as [Sz Lz]. 
  assert (Ry : rows_of y = length (p_pairing p)) by (unfold rows_of; now rewrite S).
  assert (Cy : cols_of y = cols_of (ld_data ld)) by (unfold cols_of at 1; now rewrite S).
  pose proof kept_rows_le as K. pose proof all_rows as A. unfold kept_rows in A.
  assert (Cy' : cols_of y' = kept_cols x (cols_of (ld_data ld))).
  { unfold y', kept_cols. destruct (x_debug x); auto. unfold cols_of at 1. now rewrite (proj1 (crop_value y)), Cy. }
  split; [congruence|]. intros i t Et j Hj. rewrite (Lz i t Et). assert (Ht : t < length (p_labels_all p)) by (apply Hi; eapply nth_error_In; eauto).
  rewrite <- L by lia. unfold y'. unfold kept_cols in Hj. destruct (x_debug x); auto. apply (crop_value y); rewrite ?Ry, ?Cy; lia.
Qed.
End Prepared.
