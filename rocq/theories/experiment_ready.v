(** * When prepare of experiment.py succeeds. *)

From Coq Require Import List ZArith Reals Bool Arith String Permutation Sorted Lia Lra.
Import ListNotations.
From Verif Require Import Py Py_proof ListUtil pairing_model pairing_spec pairing_proof evaluation_model evaluation_spec evaluation_proof
  utils_model utils_spec utils_proof logger_model nd_model nd_spec nd_proof sparse_model nmf_model nmf_spec nmf_laws learner_model learner_spec learner_proof
  experiment_model experiment_spec experiment_proof experiment_coefs.
From Coq Require Import QArith Qreals.
Notation Q := QArith_base.Q.
Open Scope py_scope.
Local Open Scope nat_scope.
Notation length := List.length.

Lemma mapM_exists {A B} (f : A -> result B) l : (forall a, In a l -> exists b, f a = Ok b) -> exists bs, mapM f l = Ok bs.
Proof.
  induction l as [|a l IH]; intro H; cbn; [eauto|]. destruct (H a (or_introl eq_refl)) as [b ->]. cbn [bind].
  destruct IH as [bs ->]; [intros; apply H; now right|]. cbn. eauto.
Qed.
Lemma distinct_len {A} (a b l : list A) : distinct_labels a l -> distinct_labels b l -> length a = length b.
Proof. intros [N E] [N' E']. apply Permutation_length, NoDup_Permutation; auto. intro v. now rewrite E, E'. Qed.

Lemma names_len x rd : sound x -> legal x rd -> exists n, n <= 10 /\ forall d, In d (r_names rd) -> length d = n.
Proof.
  intros (_ & _ & _ & _ & (n & Hn & H) & _) (D & _). exists n. split; auto. intros d I. destruct (In_nth_error _ _ I) as [k E].
  destruct (Forall2_nth _ _ _ D k d E) as (ls & El & Dl). rewrite nth_error_map in El. destruct (nth_error (x_loaders x) k) as [ld|] eqn:E2; [|discriminate].
  injection El as <-. destruct (H ld) as (names & Dn & Ln); [eapply nth_error_In; eauto|]. rewrite <- Ln. eapply distinct_len; eauto.
Qed.

Lemma coefs_ok x : sound x -> exists cs, set_coefs x = Ok cs /\ length cs = length (x_mods x) /\ Forall (fun c => 0 <= c)%R cs.
Proof.
  intros (_ & _ & L & F & _ & C & _). destruct (x_coefs x) as [cs|] eqn:E.
  - exists (map Q2R cs). split; [now apply set_coefs_given|]. destruct C as [Lc Nc]. split; [now rewrite map_length|].
    apply Forall_forall. intros c I. apply in_map_iff in I as (q & <- & I). rewrite Forall_forall in Nc. replace 0%R with (Q2R 0) by (unfold Q2R; cbn; lra).
    apply Qle_Rle. now apply Nc.
  - eexists. split; [apply set_coefs_computed; auto|].
    + intros ld I. destruct (F ld I) as [[d Fd] _]. exists (length (ld_labels ld)), d. now apply fits_mshape.
    + split; [now rewrite map_length|]. apply Forall_forall. intros c I. apply in_map_iff in I as (ld & <- & I).
      destruct (F ld I) as [[d Fd] Nd]. destruct (C ld I) as (idx & V & Nz). pose proof (mean_positive _ _ _ idx (fits_mshape _ _ _ Fd) Nd V Nz).
      apply Rlt_le, Rdiv_lt_0_compat; lra.
Qed.

Section Ready.
Context (rd : random) (x : experiment) (Sd : sound x) (G : legal x rd).

Lemma pairing_ok : exists names labels tuples,
  associate_samples String.eqb (r_names rd) (r_buckets rd) (map ld_labels (x_loaders x)) = Ok (names, labels, tuples).
Proof using Sd G.
  destruct G as (D & Sh & _). destruct (names_len x rd Sd G) as (n & _ & Ln).
  destruct (associate_samples_errors String.eqb String.eqb_eq _ _ _ D Sh) as (_ & _ & H). apply H.
  - destruct Sd as (_ & Ne & L & _). destruct (x_loaders x); cbn; [|discriminate]. destruct (x_mods x); [tauto|discriminate].
  - intros d d' I I'. now rewrite (Ln d I), (Ln d' I').
Qed.

Lemma prepare_succeeds : enough x rd -> exists p, prepare rd x = Ok p.
Proof using Sd G.
  intro En. destruct pairing_ok as (names & labels & tuples & Ea). pose proof (En _ _ _ Ea) as Cs. unfold prepare. rewrite Ea. cbn [bind].
  destruct (coefs_ok x Sd) as (cs & -> & _). cbn [bind].
  pose proof G as (D & Sh & Ps & Ds). specialize (Ds _ _ _ Ea).
  destruct (associate_samples_faithful String.eqb String.eqb_eq _ _ _ _ _ _ D Sh Ea) as (En' & Ll & Fa).
  destruct (associate_samples_counts String.eqb String.eqb_eq _ _ _ _ _ _ D Sh Ea) as (_ & _ & Us & _).
  pose proof Sd as (_ & _ & _ & Fd & _).
  destruct (mapM_exists (fun p => bind (mapM (fun t => py_nth t (Z.of_nat (fst p))) tuples) (fun idx => take_rows (snd p) idx)) (enumerate (map ld_data (x_loaders x)))) as [data Ed].
  { intros [m y] I. cbn [fst snd]. apply In_nth_error in I as [m' E]. rewrite nth_error_enumerate, nth_error_map in E.
    destruct (nth_error (x_loaders x) m') as [ld|] eqn:Em; [|discriminate]. cbn in E. injection E as <- <-. 
    destruct (mapM_exists (fun t => py_nth t (Z.of_nat m')) tuples) as [idx Ei].
    { intros t It. destruct (Us m' (ld_labels ld)) as [_ V]; [rewrite nth_error_map, Em; auto|].
      destruct (V (nth_error t m')) as (i & E1 & Hi); [apply in_map_iff; eauto|]. rewrite py_nth_nat, E1. eauto. }
    rewrite Ei. cbn [bind]. destruct (Fd ld) as [[d F] _]; [eapply nth_error_In; eauto|]. eexists. apply take_rows_ok. split; [|reflexivity].
    rewrite (rows_fits _ _ _ F). apply mapM_ok in Ei. apply Forall_forall. intros i Ii. apply In_nth_error in Ii as [k Ek].
    destruct (nth_error tuples k) as [t|] eqn:Et; [|apply nth_error_None in Et; pose proof (Forall2_len _ _ _ Ei); assert (k < length idx) by (apply nth_error_Some; congruence); lia].
    pose proof (F2_at _ _ _ k t i Ei Et Ek) as X. cbn beta in X. apply py_nth_nat_ok in X.
    destruct (Us m' (ld_labels ld)) as [_ V]; [rewrite nth_error_map, Em; auto|].
    destruct (V (nth_error t m')) as (i' & E1 & Hi); [apply in_map_iff; exists t; split; auto; eapply nth_error_In; eauto|]. congruence. }
  rewrite Ed. cbn [bind]. cbn zeta. rewrite slice_200. set (all := if x_debug x then firstn 200 labels else labels) in *.
  assert (La : length all = kept_rows x (length tuples)). { unfold all, kept_rows. rewrite <- Ll. destruct (x_debug x); auto. now rewrite firstn_length. }
  destruct (chose_examples_spec Nat.eqb all (r_label_set rd) 1) as [[Oc Ee]|[(l & Il & Hl) _]].
  2:{ exfalso. destruct Ds as [_ Dl]. apply Dl in Il. apply In_nth_error in Il as [i Ei]. 
      assert (I : In i (occurrences Nat.eqb all l)) by (apply (in_occurrences Nat.eqb Nat.eqb_eq); auto). destruct (occurrences Nat.eqb all l); cbn in *; [auto|lia]. }
  rewrite Ee. cbn [bind]. set (ex := flat_map _ _) in *. destruct Ds as [Nl Il].
  destruct (chose_examples_valid Nat.eqb Nat.eqb_eq _ _ _ _ Nl Ee) as (Nex & Lex & Vex).
  assert (Bex : forall i, In i ex -> i < length all). { intros i Ii. destruct (Vex i Ii) as (l & E & _). apply nth_error_Some. congruence. }
  set (others := filter (fun i => negb (nat_mem i ex)) (seq 0 (length all))).
  assert (Both : forall i, In i others -> i < length all). { intros i Ii. apply filter_In in Ii as [Ii _]. apply in_seq in Ii. lia. }
  set (data' := if x_debug x then map crop data else data).
  assert (Rd : forall y, In y data' -> rows_of y = length all).
  { assert (R0 : forall y, In y data -> rows_of y = length tuples).
    { intros y Iy. apply mapM_ok in Ed. apply In_nth_error in Iy as [m Em]. destruct (nth_error (enumerate (map ld_data (x_loaders x))) m) as [q|] eqn:Eq.
      2:{ apply nth_error_None in Eq. rewrite (Forall2_len _ _ _ Ed) in Eq. assert (m < length data) by (apply nth_error_Some; congruence). lia. }
      pose proof (F2_at _ _ _ m q y Ed Eq Em) as X. cbn beta in X. apply bind_ok in X as (idx & E1 & E2). apply take_rows_value in E2 as [S _].
      unfold rows_of. rewrite S. cbn. exact (mapM_length _ _ _ E1). }
    intros y. unfold data'. rewrite La. unfold kept_rows. destruct (x_debug x); auto. intro Iy. apply in_map_iff in Iy as (y0 & <- & I0).
    unfold rows_of. rewrite (proj1 (crop_value y0)). cbn [nth]. now rewrite R0. }
  destruct (mapM_exists (fun y => take_rows y ex) data') as [dex Edex].
  { intros y Iy. eexists. apply take_rows_ok. split; [|reflexivity]. rewrite (Rd y Iy). apply Forall_forall. auto. }
  rewrite Edex. cbn [bind].
  destruct (mapM_exists (fun y => take_rows y others) data') as [dot Edot].
  { intros y Iy. eexists. apply take_rows_ok. split; [|reflexivity]. rewrite (Rd y Iy). apply Forall_forall. auto. }
  rewrite Edot. cbn [bind].
  destruct (mapM_exists (fun i => py_nth all (Z.of_nat i)) ex) as [lex Elex].
  { intros i Ii. rewrite py_nth_nat. specialize (Bex i Ii). apply nth_error_Some in Bex. destruct (nth_error all i); [eauto|tauto]. }
  rewrite Elex. cbn [bind].
  destruct (mapM_exists (fun i => py_nth all (Z.of_nat i)) others) as [lot Elot].
  { intros i Ii. rewrite py_nth_nat. specialize (Both i Ii). apply nth_error_Some in Both. destruct (nth_error all i); [eauto|tauto]. }
  rewrite Elot. cbn [bind].
  assert (Lo : length others + length ex = length all).
  { rewrite <- (seq_length (length all) 0). rewrite Nat.add_comm, <- app_length. apply Permutation_length. unfold others. apply NoDup_Permutation.
    - apply NoDup_app_intro; auto; [apply NoDup_filter, seq_NoDup|]. intros i Hi Hf. apply filter_In in Hf as [_ Hf].
      rewrite (proj2 (nat_mem_in _ _) Hi) in Hf. discriminate.
    - apply seq_NoDup.
    - intro i. rewrite in_app_iff, filter_In, in_seq. split.
      + intros [H|[H _]]; [specialize (Bex i H); lia|auto].
      + intro H. destruct (nat_mem i ex) eqn:E; [left; now apply nat_mem_in|right; split; auto; lia]. }
  assert (Llot : length lot = kept_rows x (length tuples) - length (r_label_set rd)). { rewrite (mapM_length _ _ _ Elot), <- La. lia. }
  rewrite Llot. destruct (can_split_generator rd _ _ Ps Cs) as (spl & -> & _). cbn [bind].
  apply mapM_ok in Elex, Elot, Edot.
  assert (Hsame : same_set lex all = true).
  { apply same_set_in. intro l. split; intro I.
    - apply In_nth_error in I as [k Ek]. destruct (nth_error ex k) as [i|] eqn:Ei; [|apply nth_error_None in Ei; rewrite (Forall2_len _ _ _ Elex) in Ei; assert (k < length lex) by (apply nth_error_Some; congruence); lia].
      pose proof (F2_at _ _ _ k i l Elex Ei Ek) as X. cbn beta in X. apply py_nth_nat_ok in X. eapply nth_error_In; eauto.
    - apply Il in I. pose proof (Oc l I) as O1. destruct (occurrences Nat.eqb all l) as [|i rest] eqn:Eo; [cbn in O1; lia|].
      assert (Ii : In i ex). { unfold ex. apply in_flat_map. exists l. split; auto. rewrite Eo. now left. }
      apply In_nth_error in Ii as [k Ek]. destruct (Forall2_nth _ _ _ Elex k i Ek) as (l' & El' & X). apply py_nth_nat_ok in X.
      assert (Io : In i (occurrences Nat.eqb all l)) by (rewrite Eo; now left). apply (in_occurrences Nat.eqb Nat.eqb_eq) in Io.
      rewrite X in Io. injection Io as ->. eapply nth_error_In; eauto. }
  rewrite Hsame. cbn [py_assert bind].
  assert (H2 : forallb (fun y => length lot =? rows_of y) dot = true).
  { apply forallb_forall. intros y Iy. apply In_nth_error in Iy as [k Ek]. destruct (nth_error data' k) as [y0|] eqn:E0.
    2:{ apply nth_error_None in E0. rewrite (Forall2_len _ _ _ Edot) in E0. assert (k < length dot) by (apply nth_error_Some; congruence). lia. }
    pose proof (F2_at _ _ _ k y0 y Edot E0 Ek) as X. cbn beta in X. apply take_rows_value in X as [S _]. unfold rows_of. rewrite S. cbn [nth].
    apply Nat.eqb_eq. lia. }
  rewrite Llot in H2. rewrite H2. cbn [py_assert bind].
  assert (H3 : forallb (fun l => l <? 10) lot = true).
  { apply forallb_forall. intros l I. apply Nat.ltb_lt. apply In_nth_error in I as [k Ek].
    destruct (nth_error others k) as [i|] eqn:Ei; [|apply nth_error_None in Ei; rewrite (Forall2_len _ _ _ Elot) in Ei; assert (k < length lot) by (apply nth_error_Some; congruence); lia].
    pose proof (F2_at _ _ _ k i l Elot Ei Ek) as X. cbn beta in X. apply py_nth_nat_ok in X.
    assert (El : nth_error labels i = Some l).
    { revert X. unfold all. destruct (x_debug x); auto. intro X. rewrite <- (firstn_skipn 200 labels). rewrite nth_error_app1; auto. apply nth_error_Some. congruence. }
    destruct (nth_error tuples i) as [t|] eqn:Et; [|apply nth_error_None in Et; assert (i < length labels) by (apply nth_error_Some; congruence); lia].
    destruct (Fa i l t El Et) as [_ Hm]. pose proof Sd as (_ & Ne & Lm & _). destruct (x_loaders x) as [|ld lds] eqn:Exl; [destruct (x_mods x); [tauto|discriminate]|].
    destruct (Hm 0 (ld_labels ld) eq_refl) as (idx & nm & s & _ & E2 & E3 & _). destruct (names_len x rd Sd G) as (n & Hn & Hl).
    rewrite En' in E2. assert (length nm = n) by (apply Hl; eapply nth_error_In; eauto). assert (l < length nm) by (apply nth_error_Some; congruence). lia. }
  rewrite H3. cbn [py_assert bind]. eauto.
Qed.
End Ready.
