From Coq Require Import List ZArith Arith Bool QArith Lia Permutation Sorted.
Import ListNotations.
From Verif Require Import Py Py_proof ListUtil evaluation_model evaluation_spec.
From Verif Require Import pairing_proof.
Local Open Scope nat_scope.

(** ** chose_examples *)

Section Examples.
Context {L : Type} (eqb : L -> L -> bool).

Definition occ_from (l : L) (labels : list L) (pos : nat) : list nat :=
  map fst (filter (fun p => eqb (snd p) l) (combine (seq pos (length labels)) labels)).

Lemma occ_from_ge l labels : forall pos i, In i (occ_from l labels pos) -> pos <= i.
Proof.
  intros pos i H. apply in_map_iff in H as ([a b] & <- & H).
  apply filter_In in H as [H _]. apply in_combine_l, in_seq in H. simpl. lia.
Qed.

Lemma occ_from_sorted l labels : forall pos, StronglySorted lt (occ_from l labels pos).
Proof.
  induction labels as [|x labels IH]; intros pos; unfold occ_from; simpl; [constructor|].
  fold (occ_from l labels (S pos)).
  destruct (eqb x l); simpl; [|apply IH]. constructor; [apply IH|].
  apply Forall_forall. intros i Hi. apply occ_from_ge in Hi. lia.
Qed.

Lemma index_from_occ l labels : forall pos start,
  index_from eqb l labels pos start =
  match filter (fun i => start <=? i) (occ_from l labels pos) with
  | [] => Err ValueError | i :: _ => Ok i end.
Proof.
  induction labels as [|x labels IH]; intros pos start; [reflexivity|].
  unfold occ_from. simpl. fold (occ_from l labels (S pos)). rewrite IH.
  destruct (eqb x l); simpl; destruct (start <=? pos); simpl; reflexivity.
Qed.

Lemma filter_sorted_tail (l : list nat) i rest next : StronglySorted lt l ->
  filter (fun j => next <=? j) l = i :: rest ->
  filter (fun j => S i <=? j) l = rest.
Proof.
  induction 1 as [|a l Hs IH Ha]; intros E; [discriminate|]. simpl in E |- *.
  rewrite Forall_forall in Ha.
  destruct (Nat.leb_spec next a) as [Hle|Hlt].
  - injection E as -> <-.
    assert (En : match i with 0 => false | S m' => i <=? m' end = false).
    { destruct i; [reflexivity|]. apply Nat.leb_gt. lia. }
    rewrite En. clear IH En. induction l as [|b l IHl]; [reflexivity|]. simpl.
    assert (Hb : i < b) by (apply Ha; left; reflexivity).
    replace (next <=? b) with true by (symmetry; apply Nat.leb_le; lia).
    destruct b as [|b']; [lia|].
    replace (i <=? b') with true by (symmetry; apply Nat.leb_le; lia). f_equal.
    inversion Hs; subst. apply IHl; [assumption|]. intros x Hx; apply Ha; right; exact Hx.
  - assert (Hin : In i (filter (fun j => next <=? j) l)) by (rewrite E; left; reflexivity).
    apply filter_In in Hin as [Hin _]. specialize (Ha i Hin).
    assert (En : match a with 0 => false | S m' => i <=? m' end = false).
    { destruct a; [reflexivity|]. apply Nat.leb_gt. lia. }
    rewrite En. apply IH. exact E.
Qed.

Lemma chose_one_spec labels l number : forall next,
  let occ := filter (fun i => next <=? i) (occurrences eqb labels l) in
  chose_one eqb labels l next number =
  if number <=? length occ then Ok (firstn number occ) else Err ValueError.
Proof.
  induction number as [|number IH]; intros next; simpl; [reflexivity|].
  unfold list_index. rewrite index_from_occ.
  destruct (filter (fun i => next <=? i) (occurrences eqb labels l)) as [|i rest] eqn:E.
  - change (occurrences eqb labels l) with (occ_from l labels 0) in E. rewrite E. reflexivity.
  - change (occurrences eqb labels l) with (occ_from l labels 0) in *. rewrite E.
    cbn [bind length firstn]. rewrite IH.
    change (occurrences eqb labels l) with (occ_from l labels 0).
    rewrite (filter_sorted_tail _ _ _ _ (occ_from_sorted l labels 0) E).
    destruct (number <=? length rest); reflexivity.
Qed.

Lemma filter_all {X} (f : X -> bool) l : (forall x, In x l -> f x = true) -> filter f l = l.
Proof.
  induction l as [|a l IH]; intros H; [reflexivity|]. simpl.
  rewrite (H a (or_introl eq_refl)). f_equal. apply IH. intros x Hx; apply H; right; exact Hx.
Qed.

Lemma chose_examples_spec labels label_set number :
  ((forall l, In l label_set -> number <= length (occurrences eqb labels l)) /\
   chose_examples eqb labels label_set number =
     Ok (flat_map (fun l => firstn number (occurrences eqb labels l)) label_set)) \/
  ((exists l, In l label_set /\ length (occurrences eqb labels l) < number) /\
   chose_examples eqb labels label_set number = Err ValueError).
Proof.
  unfold chose_examples.
  assert (H : forall out,
   ((forall l, In l label_set -> number <= length (occurrences eqb labels l)) /\
    foldM (fun out l => (found <- chose_one eqb labels l 0 number ;; Ok (out ++ found))%py)
       label_set out =
      Ok (out ++ flat_map (fun l => firstn number (occurrences eqb labels l)) label_set)) \/
   ((exists l, In l label_set /\ length (occurrences eqb labels l) < number) /\
    foldM (fun out l => (found <- chose_one eqb labels l 0 number ;; Ok (out ++ found))%py)
       label_set out = Err ValueError)).
  { induction label_set as [|l ls IH]; intros out.
    - left. split; [intros l []|]. simpl. rewrite app_nil_r. reflexivity.
    - cbn [foldM]. rewrite chose_one_spec. simpl (0 <=? _).
      rewrite filter_all by reflexivity.
      destruct (Nat.leb_spec number (length (occurrences eqb labels l))) as [Hl|Hl]; cbn [bind].
      + destruct (IH (out ++ firstn number (occurrences eqb labels l))) as [[H1 H2]|[H1 H2]].
        * left. split; [intros l' [<-|H']; auto|]. rewrite H2. simpl.
          rewrite app_assoc. reflexivity.
        * right. split; [|exact H2]. destruct H1 as (l' & A & B). exists l'. split; [right|]; auto.
      + right. split; [|reflexivity]. exists l. split; [left; reflexivity|exact Hl]. }
  destruct (H []) as [[H1 H2]|[H1 H2]]; [left|right]; split; auto.
Qed.

Hypothesis eqb_spec : forall x y, eqb x y = true <-> x = y.

Lemma in_occurrences labels l i :
  In i (occurrences eqb labels l) <-> nth_error labels i = Some l.
Proof.
  unfold occurrences. rewrite in_map_iff. split.
  - intros ([j x] & Hj & H). simpl in Hj; subst j. apply filter_In in H as [H Hx].
    simpl in Hx. apply eqb_spec in Hx. subst x. apply In_nth_error in H as [k Hk].
    rewrite nth_error_enumerate_from in Hk. destruct (nth_error labels k) eqn:E; [|discriminate].
    simpl in Hk. congruence.
  - intros H. exists (i, l). split; [reflexivity|]. apply filter_In. split.
    + apply nth_error_In with (n := i). rewrite nth_error_enumerate_from, H. reflexivity.
    + simpl. apply eqb_spec. reflexivity.
Qed.

Lemma StronglySorted_lt_NoDup l : StronglySorted lt l -> NoDup l.
Proof.
  induction 1 as [|a l _ IH Ha]; constructor; [|exact IH].
  rewrite Forall_forall in Ha. intros H. apply Ha in H. lia.
Qed.

Lemma in_firstn {X} n (l : list X) x : In x (firstn n l) -> In x l.
Proof. intros H. rewrite <- (firstn_skipn n l). apply in_or_app. left; exact H. Qed.

Lemma NoDup_firstn {X} n (l : list X) : NoDup l -> NoDup (firstn n l).
Proof.
  intros H. revert n. induction H as [|a l Ha _ IH]; intros [|n]; simpl; constructor; auto.
  intros Hin. apply Ha. eapply in_firstn; exact Hin.
Qed.

Lemma chose_examples_valid labels label_set number out :
  NoDup label_set -> chose_examples eqb labels label_set number = Ok out ->
  NoDup out /\ length out = number * length label_set /\
  forall i, In i out -> exists l, nth_error labels i = Some l /\ In l label_set.
Proof.
  intros Hnd E. destruct (chose_examples_spec labels label_set number) as [[Hl H]|[_ H]];
    rewrite H in E; [|discriminate]. injection E as <-. clear H. split; [|split].
  - induction Hnd as [|l ls Hl' Hnd IH]; [constructor|]. simpl. apply NoDup_app_intro.
    + apply NoDup_firstn, StronglySorted_lt_NoDup, (occ_from_sorted l labels 0).
    + apply IH. intros l' H'; apply Hl; right; exact H'.
    + intros i Hi Hi'. apply in_firstn, in_occurrences in Hi.
      apply in_flat_map in Hi' as (l' & Hl'' & Hi'). apply in_firstn, in_occurrences in Hi'.
      apply Hl'. congruence.
  - clear Hnd. induction label_set as [|l ls IH]; [simpl; lia|]. simpl.
    rewrite app_length, firstn_length_le by (apply Hl; left; reflexivity).
    rewrite IH by (intros l' H'; apply Hl; right; exact H'). lia.
  - intros i Hi. apply in_flat_map in Hi as (l & Hl' & Hi).
    apply in_firstn, in_occurrences in Hi. eauto.
Qed.
End Examples.

(** ** Averages *)

Lemma filter_id_count l : length (filter (fun b : bool => b) l) <= length l.
Proof. apply filter_length_le. Qed.

Lemma agreements_filter {L} (eqb : L -> L -> bool) (a b : list L) :
  length (filter (fun b => b) (map (fun p => eqb (fst p) (snd p)) (combine a b))) =
  agreements eqb a b.
Proof.
  revert b. induction a as [|x a IH]; intros [|y b]; simpl; try reflexivity.
  destruct (eqb x y); simpl; rewrite IH; reflexivity.
Qed.

Section Score.
Context {L : Type} (eqb : L -> L -> bool).
Hypothesis eqb_spec : forall x y, eqb x y = true <-> x = y.

Lemma score_value (true_ found : list L) : true_ <> [] -> found <> [] ->
  found_labels_to_score eqb true_ found =
  Some (inject_Z (Z.of_nat (agreements eqb found true_)) /
        inject_Z (Z.of_nat (Nat.min (length found) (length true_))))%Q.
Proof.
  intros Ht Hf. unfold found_labels_to_score, average_bools.
  destruct (map _ (combine found true_)) eqn:E.
  - destruct found, true_; simpl in E; congruence.
  - rewrite <- E. rewrite agreements_filter, map_length, combine_length. reflexivity.
Qed.

Lemma score_nan (true_ found : list L) : true_ = [] \/ found = [] ->
  found_labels_to_score eqb true_ found = None.
Proof. intros [->| ->]; unfold found_labels_to_score; [destruct found|]; reflexivity. Qed.

Lemma agreements_le (a b : list L) : agreements eqb a b <= Nat.min (length a) (length b).
Proof.
  revert b; induction a as [|x a IH]; intros [|y b]; simpl; try lia.
  specialize (IH b). destruct (eqb x y); lia.
Qed.

Lemma agreements_full (a b : list L) : length a = length b ->
  agreements eqb a b = length a <-> a = b.
Proof.
  revert b; induction a as [|x a IH]; intros [|y b]; simpl; intros Hl; try discriminate; [tauto|].
  injection Hl as Hl. pose proof (agreements_le a b). specialize (IH b Hl).
  destruct (eqb x y) eqn:E.
  - apply eqb_spec in E; subst y. split; [intros H'; f_equal; apply IH; lia|].
    intros H'. injection H' as ->. simpl. f_equal. apply IH. reflexivity.
  - split; [lia|]. intros H'. injection H' as -> ->.
    rewrite (proj2 (eqb_spec y y) eq_refl) in E. discriminate.
Qed.

Lemma agreements_zero (a b : list L) :
  agreements eqb a b = 0 <-> (forall i x y, nth_error a i = Some x -> nth_error b i = Some y -> x <> y).
Proof.
  revert b; induction a as [|x a IH]; intros [|y b]; simpl.
  - split; [|reflexivity]. intros _ [|i] x y; discriminate.
  - split; [|reflexivity]. intros _ [|i] x y'; discriminate.
  - split; [|reflexivity]. intros _ [|i] x' y; discriminate.
  - destruct (eqb x y) eqn:E.
    + split; [lia|]. intros H. exfalso. apply eqb_spec in E.
      exact (H 0 x y eq_refl eq_refl E).
    + simpl. rewrite IH. split.
      * intros H [|i] x' y' Hx Hy; simpl in *; [|eapply H; eassumption].
        injection Hx as <-. injection Hy as <-. intros ->.
        rewrite (proj2 (eqb_spec y y) eq_refl) in E. discriminate.
      * intros H i x' y' Hx Hy. apply (H (S i)); assumption.
Qed.
End Score.

Lemma frac_bounds a n : 0 < n -> a <= n ->
  (0 <= inject_Z (Z.of_nat a) / inject_Z (Z.of_nat n) <= 1)%Q /\
  ((inject_Z (Z.of_nat a) / inject_Z (Z.of_nat n) == 1)%Q <-> a = n) /\
  ((inject_Z (Z.of_nat a) / inject_Z (Z.of_nat n) == 0)%Q <-> a = 0).
Proof.
  intros Hn Ha.
  assert (Hp : (0 < inject_Z (Z.of_nat n))%Q).
  { change 0%Q with (inject_Z 0). rewrite <- Zlt_Qlt. lia. }
  assert (Hnz : ~ (inject_Z (Z.of_nat n) == 0)%Q) by (intros H; rewrite H in Hp; discriminate).
  split; [split|split].
  - apply Qle_shift_div_l; [exact Hp|]. rewrite Qmult_0_l. change 0%Q with (inject_Z 0).
    rewrite <- Zle_Qle. lia.
  - apply Qle_shift_div_r; [exact Hp|]. rewrite Qmult_1_l. rewrite <- Zle_Qle. lia.
  - split.
    + intros H. assert (inject_Z (Z.of_nat a) == inject_Z (Z.of_nat n))%Q.
      { setoid_replace (inject_Z (Z.of_nat a))
          with (inject_Z (Z.of_nat a) / inject_Z (Z.of_nat n) * inject_Z (Z.of_nat n))%Q
          by (field; exact Hnz). rewrite H. ring. }
      apply (proj1 (inject_Z_injective _ _)) in H0. lia.
    + intros ->. field. exact Hnz.
  - split.
    + intros H. assert (inject_Z (Z.of_nat a) == inject_Z 0)%Q.
      { setoid_replace (inject_Z (Z.of_nat a))
          with (inject_Z (Z.of_nat a) / inject_Z (Z.of_nat n) * inject_Z (Z.of_nat n))%Q
          by (field; exact Hnz). rewrite H. apply Qmult_0_l. }
      apply (proj1 (inject_Z_injective _ _)) in H0. lia.
    + intros ->. simpl. unfold Qdiv. apply Qmult_0_l.
Qed.

Lemma score_spec {L} (eqb : L -> L -> bool) (true_ found : list L) :
  (forall x y, eqb x y = true <-> x = y) ->
  true_ <> [] -> length found = length true_ ->
  exists s, found_labels_to_score eqb true_ found = Some s /\
    (s == inject_Z (Z.of_nat (agreements eqb found true_)) / inject_Z (Z.of_nat (length true_)))%Q /\
    (0 <= s <= 1)%Q /\ (s == 1 <-> found = true_)%Q /\
    ((s == 0)%Q <-> forall i x y, nth_error found i = Some x -> nth_error true_ i = Some y -> x <> y).
Proof.
  intros Heq Hne Hlen.
  assert (Hn : 0 < length true_) by (destruct true_; [congruence|simpl; lia]).
  assert (Hf : found <> []) by (intros ->; simpl in Hlen; lia).
  eexists. split; [apply score_value; assumption|].
  rewrite Hlen, Nat.min_id.
  pose proof (agreements_le eqb found true_) as Hle. rewrite Hlen, Nat.min_id in Hle.
  destruct (frac_bounds (agreements eqb found true_) (length true_) Hn Hle) as (H1 & H2 & H3).
  split; [reflexivity|]. split; [exact H1|]. split.
  - rewrite H2. rewrite <- Hlen. apply agreements_full; assumption.
  - rewrite H3. apply agreements_zero; assumption.
Qed.

Lemma score_truncates {L} (eqb : L -> L -> bool) (true_ found : list L) :
  let n := Nat.min (length found) (length true_) in
  found_labels_to_score eqb true_ found =
  found_labels_to_score eqb (firstn n true_) (firstn n found).
Proof.
  intros n. unfold found_labels_to_score. f_equal. f_equal. subst n. clear.
  revert true_. induction found as [|x l IH]; intros [|y l']; simpl; try reflexivity.
  f_equal. apply IH.
Qed.

(** ** argmin *)

Section Argmin.
Context {D : Type} (ltb : D -> D -> bool).
Let lt (x y : D) : Prop := ltb x y = true.
Hypothesis lt_swo : strict_weak lt.

Lemma argmin_aux_spec l : forall pre best bi,
  (bi < length pre /\ nth_error pre bi = Some best /\
    (forall k y, nth_error pre k = Some y -> ~ lt y best) /\
    (forall k y, k < bi -> nth_error pre k = Some y -> lt best y)) ->
  first_min lt (pre ++ l) (argmin_aux ltb best bi (length pre) l).
Proof.
  destruct lt_swo as (Hirr & Htr & Hneg).
  induction l as [|x l IH]; intros pre best bi (Hbi & Hn & Hmin & Hfst); simpl.
  - rewrite app_nil_r. exists best. auto.
  - replace (pre ++ x :: l) with ((pre ++ [x]) ++ l) by (rewrite <- app_assoc; reflexivity).
    replace (S (length pre)) with (length (pre ++ [x])) by (rewrite app_length; simpl; lia).
    destruct (ltb x best) eqn:E.
    + apply IH. split; [rewrite app_length; simpl; lia|].
      split; [rewrite nth_error_app2, Nat.sub_diag by lia; reflexivity|].
      split.
      * intros k y Hk Hlt. destruct (Nat.lt_ge_cases k (length pre)) as [Hk'|Hk'].
        -- rewrite nth_error_app1 in Hk by exact Hk'. apply (Hmin k y Hk).
           eapply Htr; [exact Hlt|exact E].
        -- rewrite nth_error_app2 in Hk by exact Hk'. apply nth_error_In in Hk.
           destruct Hk as [<-|[]]. exact (Hirr _ Hlt).
      * intros k y Hk Hy. rewrite nth_error_app1 in Hy by lia.
        destruct (Hneg x y best E) as [H|H]; [exact H|]. exfalso. exact (Hmin k y Hy H).
    + apply IH. split; [rewrite app_length; simpl; lia|].
      split; [rewrite nth_error_app1 by lia; exact Hn|]. split.
      * intros k y Hk. destruct (Nat.lt_ge_cases k (length pre)) as [Hk'|Hk'].
        -- rewrite nth_error_app1 in Hk by exact Hk'. eauto.
        -- rewrite nth_error_app2 in Hk by exact Hk'. apply nth_error_In in Hk.
           destruct Hk as [<-|[]]. unfold lt. congruence.
      * intros k y Hk Hy. rewrite nth_error_app1 in Hy by lia. eauto.
Qed.

Lemma argmin_spec l : l <> [] -> exists j, argmin ltb l = Ok j /\ first_min lt l j.
Proof.
  destruct l as [|x l]; [congruence|]. intros _. simpl. eexists; split; [reflexivity|].
  apply (argmin_aux_spec l [x] x 0). simpl. split; [apply Nat.lt_0_1|].
  split; [reflexivity|]. split.
  - intros [|[|k]] y H; simpl in H; try discriminate. injection H as <-. apply lt_swo.
  - intros k y Hk. lia.
Qed.

Lemma first_min_unique l j j' : first_min lt l j -> first_min lt l j' -> j = j'.
Proof.
  intros (x & Hx & Hmin & Hf) (x' & Hx' & Hmin' & Hf').
  destruct (Nat.lt_trichotomy j j') as [H|[H|H]]; [|exact H|].
  - exfalso. exact (Hmin _ _ Hx' (Hf' j x H Hx)).
  - exfalso. exact (Hmin' _ _ Hx (Hf j' x' H Hx')).
Qed.

Context {L Row : Type} (eqb : L -> L -> bool) (measure : Row -> Row -> D).

Lemma mapM_ok_pure {A B} (f : A -> B) (l : list A) : mapM (fun a => Ok (f a)) l = Ok (map f l).
Proof. induction l as [|a l IH]; simpl; [reflexivity|]. rewrite IH. reflexivity. Qed.

Lemma all_distances_pure (reco ex : list Row) :
  all_distances (fun r e => Ok (measure r e)) reco ex =
  Ok (Dists (map (fun r => map (measure r) ex) reco) (length ex)).
Proof.
  unfold all_distances.
  assert (H : mapM (fun r => mapM (fun e => Ok (measure r e)) ex) reco =
              Ok (map (fun r => map (measure r) ex) reco)).
  { induction reco as [|r reco IH]; simpl; [reflexivity|].
    rewrite mapM_ok_pure. cbn [bind]. rewrite IH. reflexivity. }
  rewrite H. reflexivity.
Qed.

Lemma classify_NN_spec (reco ex : list Row) (ex_labels : list L) :
  ex <> [] -> length ex = length ex_labels ->
  exists found, classify_NN ltb (fun r e => Ok (measure r e)) reco ex ex_labels = Ok found /\
    Forall2 (fun r l => exists j, first_min lt (map (measure r) ex) j /\
                                  nth_error ex_labels j = Some l) reco found.
Proof.
  intros Hne Hlen. unfold classify_NN. rewrite all_distances_pure. cbn [bind].
  unfold dists_to_found_labels, argmin_rows. simpl.
  destruct (length ex =? 0) eqn:E0.
  { apply Nat.eqb_eq in E0. destruct ex; [congruence|discriminate]. }
  clear E0.
  induction reco as [|r reco IH]; simpl.
  - exists []. split; [reflexivity|constructor].
  - destruct (argmin_spec (map (measure r) ex)) as (j & Ej & Hj).
    { destruct ex; [congruence|discriminate]. }
    rewrite Ej. cbn [bind]. destruct IH as (found & E & HF).
    destruct (mapM (argmin ltb) (map (fun r0 => map (measure r0) ex) reco)) as [ms|e];
      [|discriminate]. cbn [bind] in E |- *. cbn [mapM].
    assert (exists l, nth_error ex_labels j = Some l) as [l Hl].
    { destruct Hj as (x & Hx & _). assert (j < length (map (measure r) ex))
        by (apply nth_error_Some; congruence). rewrite map_length, Hlen in H.
      apply nth_error_Some in H. destruct (nth_error ex_labels j); [eauto|congruence]. }
    unfold lookup at 1. rewrite Hl. cbn [bind]. rewrite E. cbn [bind].
    exists (l :: found). split; [reflexivity|]. constructor; [eauto|exact HF].
Qed.

Lemma classify_NN_no_example (reco : list Row) (ex_labels : list L) :
  classify_NN ltb (fun r e => Ok (measure r e)) reco [] ex_labels = Err ValueError.
Proof. unfold classify_NN. rewrite all_distances_pure. reflexivity. Qed.
End Argmin.

(** evaluate_NN_label is the score of classify_NN. *)
Lemma evaluate_NN_is_score {L D Row} (eqb : L -> L -> bool) (ltb : D -> D -> bool)
    (measure : Row -> Row -> result D) reco test true_labels test_labels :
  evaluate_NN_label eqb ltb measure reco test true_labels test_labels =
  (found <- classify_NN ltb measure reco test test_labels ;;
   Ok (found_labels_to_score eqb true_labels found))%py.
Proof.
  unfold evaluate_NN_label, classify_NN, scores_from_dists, dists_to_found_labels.
  destruct (all_distances measure reco test) as [d|e]; [|reflexivity]. cbn [bind].
  destruct (argmin_rows ltb d) as [ms|e]; [|reflexivity]. cbn [bind].
  destruct (mapM (lookup test_labels) ms); reflexivity.
Qed.

Lemma scores_from_dists_is_score {L D} (eqb : L -> L -> bool) (ltb : D -> D -> bool)
    (d : dists D) true_0 true_1 :
  scores_from_dists eqb ltb d true_0 true_1 =
  match true_1 with
  | Some t => (found <- dists_to_found_labels ltb d t ;;
               Ok (found_labels_to_score eqb true_0 found))%py
  | None => if length (d_rows d) =? d_cols d
            then (found <- dists_to_found_labels ltb d true_0 ;;
                  Ok (found_labels_to_score eqb true_0 found))%py
            else Err AssertionError
  end.
Proof.
  unfold scores_from_dists, dists_to_found_labels. destruct true_1 as [t|].
  - cbn [bind]. destruct (argmin_rows ltb d) as [ms|e]; [|reflexivity]. cbn [bind].
    destruct (mapM (lookup t) ms); reflexivity.
  - unfold py_assert. destruct (length (d_rows d) =? d_cols d); [|reflexivity].
    cbn [bind]. destruct (argmin_rows ltb d) as [ms|e]; [|reflexivity]. cbn [bind].
    destruct (mapM (lookup true_0) ms); reflexivity.
Qed.

(** ** Confusion *)

Lemma entry_ext (m : list (list Z)) i j x :
  entry m i j = Some x -> conf_get m (i, j) = x.
Proof.
  unfold entry, conf_get. simpl. destruct (nth_error m i) as [r|] eqn:E; [|discriminate].
  intros H. rewrite (nth_error_nth m i [] E). rewrite (nth_error_nth r j 0%Z H). reflexivity.
Qed.

Lemma square_entry n m i j : square n m -> i < n -> j < n ->
  entry m i j = Some (conf_get m (i, j)).
Proof.
  intros [Hl Hr] Hi Hj. unfold entry, conf_get. simpl.
  destruct (nth_error m i) as [r|] eqn:E; [|apply nth_error_None in E; lia].
  rewrite (nth_error_nth m i [] E). apply nth_error_nth'. rewrite (Hr i r E). exact Hj.
Qed.

Lemma conf_set_square n m p x : square n m -> square n (conf_set m p x).
Proof.
  intros [Hl Hr]. unfold conf_set. split; [rewrite list_set_length; exact Hl|].
  intros i r. rewrite nth_error_list_set. destruct (Nat.eqb_spec i (fst p)) as [->|Hne].
  - destruct (Nat.ltb_spec (fst p) (length m)) as [H|H]; [|discriminate].
    intros E. injection E as <-. rewrite list_set_length.
    destruct (nth_error m (fst p)) as [r|] eqn:E; [|apply nth_error_None in E; lia].
    rewrite (nth_error_nth m (fst p) [] E). eapply Hr; exact E.
  - apply Hr.
Qed.

Lemma conf_get_set n m p x i j : square n m -> i < n -> j < n -> fst p < n -> snd p < n ->
  conf_get (conf_set m p x) (i, j) =
  if (i =? fst p) && (j =? snd p) then x else conf_get m (i, j).
Proof.
  intros [Hl Hr] Hi Hj Hp1 Hp2. unfold conf_get, conf_set. simpl.
  rewrite nth_list_set. rewrite Hl.
  destruct (Nat.eqb_spec i (fst p)) as [->|Hne]; simpl.
  - replace (fst p <? n) with true by (symmetry; apply Nat.ltb_lt; lia).
    rewrite nth_list_set.
    destruct (nth_error m (fst p)) as [r|] eqn:E; [|apply nth_error_None in E; lia].
    rewrite (nth_error_nth m (fst p) [] E), (Hr _ _ E).
    destruct (Nat.eqb_spec j (snd p)) as [->|]; simpl; [|reflexivity].
    replace (snd p <? n) with true by (symmetry; apply Nat.ltb_lt; lia). reflexivity.
  - reflexivity.
Qed.

Lemma conf_fold n idx : forall m, square n m ->
  (forall p, In p idx -> fst p < n /\ snd p < n) ->
  let r := fold_left (fun c q => conf_set c (fst q) (snd q + 1)%Z)
             (combine idx (map (fun _ => 0%Z) idx)) m in
  square n r /\ forall i j, i < n -> j < n ->
    conf_get r (i, j) = if existsb (fun p => (i =? fst p) && (j =? snd p)) idx then 1%Z
                        else conf_get m (i, j).
Proof.
  induction idx as [|p idx IH]; intros m Hm Hidx; simpl; [auto|].
  destruct (Hidx p (or_introl eq_refl)) as [H1 H2].
  destruct (IH (conf_set m p 1%Z)) as [Hs Hg].
  { apply conf_set_square; exact Hm. }
  { intros q Hq. apply Hidx. right; exact Hq. }
  split; [exact Hs|]. intros i j Hi Hj. rewrite (Hg i j Hi Hj).
  rewrite (conf_get_set n) by assumption.
  destruct ((i =? fst p) && (j =? snd p)); simpl; [|reflexivity].
  destruct (existsb _ idx); reflexivity.
Qed.

Lemma conf_zero n i j : conf_get (repeat (repeat 0%Z n) n) (i, j) = 0%Z.
Proof.
  unfold conf_get. simpl.
  destruct (nth_in_or_default i (repeat (repeat 0%Z n) n) []) as [H|H].
  - apply repeat_spec in H. rewrite H. apply nth_repeat.
  - rewrite H. destruct j; reflexivity.
Qed.

Lemma conf_zero_square n : square n (repeat (repeat 0%Z n) n).
Proof.
  split; [apply repeat_length|]. intros i r H. apply nth_error_In, repeat_spec in H.
  subst. apply repeat_length.
Qed.

Lemma confusion_ok (true_ found : list Z) n :
  length true_ = length found ->
  (forall x, In x true_ -> in_range n x) -> (forall x, In x found -> in_range n x) ->
  exists conf, found_labels_to_confusion true_ found n = Ok conf /\ square n conf /\
    forall i j, i < n -> j < n ->
      (pair_at true_ found i j -> entry conf i j = Some 1%Z) /\
      (~ pair_at true_ found i j -> entry conf i j = Some 0%Z).
Proof.
  intros Hlen Ht Hf. unfold found_labels_to_confusion, broadcast_pairs.
  rewrite Hlen, Nat.eqb_refl. cbn [bind].
  assert (Hidx : mapM (fun p : Z * Z => (r <- norm_index n (fst p) ;;
                        c <- norm_index n (snd p) ;; Ok (r, c))%py) (combine true_ found)
     = Ok (map (fun p => (Z.to_nat (fst p), Z.to_nat (snd p))) (combine true_ found))).
  { assert (H : forall p, In p (combine true_ found) -> in_range n (fst p) /\ in_range n (snd p)).
    { intros [a b] Hp. split; [apply Ht; eapply in_combine_l; exact Hp|apply Hf; eapply in_combine_r; exact Hp]. }
    induction (combine true_ found) as [|[a b] l IH]; [reflexivity|]. simpl.
    destruct (H (a, b) (or_introl eq_refl)) as [Ha Hb]. unfold in_range in *. simpl in *.
    rewrite (norm_index_in n a), (norm_index_in n b) by lia. cbn [bind].
    rewrite IH by (intros p Hp; apply H; right; exact Hp). reflexivity. }
  rewrite Hidx. cbn [bind].
  set (idx := map (fun p => (Z.to_nat (fst p), Z.to_nat (snd p))) (combine true_ found)).
  assert (Hv : map (conf_get (repeat (repeat 0%Z n) n)) idx = map (fun _ => 0%Z) idx).
  { apply map_ext. intros [i j]. apply conf_zero. }
  rewrite Hv.
  assert (Hin : forall p, In p idx -> fst p < n /\ snd p < n).
  { intros p Hp. apply in_map_iff in Hp as ([a b] & <- & Hp).
    assert (Ha := Ht a (in_combine_l _ _ _ _ Hp)). assert (Hb := Hf b (in_combine_r _ _ _ _ Hp)).
    unfold in_range in *. simpl. lia. }
  destruct (conf_fold n idx _ (conf_zero_square n) Hin) as [Hs Hg].
  eexists. split; [reflexivity|]. split; [exact Hs|].
  intros i j Hi Hj. rewrite (square_entry n) by assumption. rewrite Hg by assumption.
  rewrite conf_zero.
  assert (Hex : existsb (fun p => (i =? fst p) && (j =? snd p)) idx = true <-> pair_at true_ found i j).
  { rewrite existsb_exists. split.
    - intros ([a b] & Hp & E). apply andb_true_iff in E as [E1 E2].
      apply Nat.eqb_eq in E1, E2. simpl in *. subst a b.
      apply in_map_iff in Hp as ([a b] & Eab & Hp). simpl in Eab. injection Eab as E1 E2.
      assert (Ha := Ht a (in_combine_l _ _ _ _ Hp)). assert (Hb := Hf b (in_combine_r _ _ _ _ Hp)).
      unfold in_range in *. apply combine_nth_error_in in Hp as (t & H1 & H2). exists t.
      rewrite H1, H2. split; f_equal; lia.
    - intros (t & H1 & H2). exists (i, j). split.
      + apply in_map_iff. exists (Z.of_nat i, Z.of_nat j). simpl. rewrite !Nat2Z.id.
        split; [reflexivity|]. apply combine_nth_error_in. eauto.
      + simpl. rewrite !Nat.eqb_refl. reflexivity. }
  split; intros H.
  - apply Hex in H. rewrite H. reflexivity.
  - destruct (existsb _ idx) eqn:E; [exfalso; apply H, Hex; reflexivity|reflexivity].
Qed.

Lemma pair_count_pos true_ found i j :
  0 < pair_count true_ found i j <-> pair_at true_ found i j.
Proof.
  unfold pair_count. set (f := fun p : Z * Z => _). split.
  - intros H. destruct (filter f (combine true_ found)) as [|[a b] l] eqn:E; [simpl in H; lia|].
    assert (Hin : In (a, b) (filter f (combine true_ found))) by (rewrite E; left; reflexivity).
    apply filter_In in Hin as [Hin Hf]. unfold f in Hf. simpl in Hf.
    apply andb_true_iff in Hf as [H1 H2]. apply Z.eqb_eq in H1, H2. subst.
    apply combine_nth_error_in in Hin. exact Hin.
  - intros (t & H1 & H2).
    assert (Hin : In (Z.of_nat i, Z.of_nat j) (filter f (combine true_ found))).
    { apply filter_In. split; [apply combine_nth_error_in; eauto|].
      unfold f. simpl. rewrite !Z.eqb_refl. reflexivity. }
    destruct (filter f (combine true_ found)); [destruct Hin|simpl; lia].
Qed.

Lemma NoDup_count (l : list (Z * Z)) :
  NoDup l <-> forall a b, length (filter (fun p => (fst p =? a)%Z && (snd p =? b)%Z)%bool l) <= 1.
Proof.
  split.
  - induction 1 as [|[x y] l Hx Hnd IH]; intros a b; simpl; [lia|].
    destruct (Z.eqb_spec x a), (Z.eqb_spec y b); simpl; try apply IH. subst.
    assert (E : filter (fun p => (fst p =? a)%Z && (snd p =? b)%Z)%bool l = []).
    { destruct (filter _ l) as [|[c d] l'] eqn:E; [reflexivity|exfalso]. apply Hx.
      assert (Hin : In (c, d) (filter (fun p => (fst p =? a)%Z && (snd p =? b)%Z)%bool l))
        by (rewrite E; left; reflexivity).
      apply filter_In in Hin as [Hin Hf]. simpl in Hf. apply andb_true_iff in Hf as [H1 H2].
      apply Z.eqb_eq in H1, H2. subst. exact Hin. }
    rewrite E. simpl. lia.
  - induction l as [|[x y] l IH]; intros H; constructor.
    + intros Hin. specialize (H x y). simpl in H. rewrite !Z.eqb_refl in H. simpl in H.
      assert (Hin' : In (x, y) (filter (fun p => (fst p =? x)%Z && (snd p =? y)%Z)%bool l)).
      { apply filter_In. split; [exact Hin|]. simpl. rewrite !Z.eqb_refl. reflexivity. }
      destruct (filter _ l); [destruct Hin'|simpl in H; lia].
    + apply IH. intros a b. specialize (H a b). simpl in H.
      destruct ((x =? a)%Z && (y =? b)%Z)%bool; simpl in H; lia.
Qed.

Lemma confusion_counts_iff (true_ found : list Z) n conf :
  length true_ = length found ->
  (forall x, In x true_ -> in_range n x) -> (forall x, In x found -> in_range n x) ->
  found_labels_to_confusion true_ found n = Ok conf ->
  ((forall i j, i < n -> j < n ->
      entry conf i j = Some (Z.of_nat (pair_count true_ found i j))) <->
   NoDup (combine true_ found)).
Proof.
  intros Hlen Ht Hf E.
  destruct (confusion_ok true_ found n Hlen Ht Hf) as (conf' & E' & _ & H).
  rewrite E in E'. injection E' as <-. rewrite NoDup_count. split.
  - intros Hc a b. destruct (Nat.le_gt_cases (length (filter (fun p => (fst p =? a)%Z && (snd p =? b)%Z)%bool
       (combine true_ found))) 1) as [Hle|Hgt]; [exact Hle|exfalso].
    destruct (filter (fun p => (fst p =? a)%Z && (snd p =? b)%Z)%bool (combine true_ found))
      as [|[c d] l] eqn:El; [simpl in Hgt; lia|].
    assert (Hin : In (c, d) (filter (fun p => (fst p =? a)%Z && (snd p =? b)%Z)%bool
      (combine true_ found))) by (rewrite El; left; reflexivity).
    apply filter_In in Hin as [Hin Hcd]. simpl in Hcd. apply andb_true_iff in Hcd as [H1 H2].
    apply Z.eqb_eq in H1, H2. subst c d.
    assert (Ha := Ht a (in_combine_l _ _ _ _ Hin)). assert (Hb := Hf b (in_combine_r _ _ _ _ Hin)).
    unfold in_range in *. specialize (Hc (Z.to_nat a) (Z.to_nat b) ltac:(lia) ltac:(lia)).
    destruct (H (Z.to_nat a) (Z.to_nat b) ltac:(lia) ltac:(lia)) as [Hp _].
    assert (Hpc : pair_count true_ found (Z.to_nat a) (Z.to_nat b) > 1).
    { unfold pair_count. rewrite !Z2Nat.id by lia. rewrite El. exact Hgt. }
    rewrite Hp in Hc by (apply pair_count_pos; lia). injection Hc as Hc. lia.
  - intros Hle i j Hi Hj. destruct (H i j Hi Hj) as [H1 H2].
    specialize (Hle (Z.of_nat i) (Z.of_nat j)). fold (pair_count true_ found i j) in Hle.
    destruct (pair_count true_ found i j) as [|[|k]] eqn:Epc; [| |lia].
    + apply H2. intros Hp. apply pair_count_pos in Hp. lia.
    + apply H1. apply pair_count_pos. lia.
Qed.

(** ** Labels given their number *)

Lemma sumZ_cons x l : sumZ (x :: l) = (x + sumZ l)%Z.
Proof.
  unfold sumZ. simpl.
  assert (H : forall l a b, fold_left Z.add l (a + b)%Z = (a + fold_left Z.add l b)%Z).
  { clear. induction l as [|y l IH]; intros a b; simpl; [reflexivity|].
    rewrite <- Z.add_assoc. apply IH. }
  rewrite <- H. f_equal. lia.
Qed.

Lemma ones_sum t : binary_row t -> sumZ t = Z.of_nat (length (ones t)).
Proof.
  intros Hb. unfold ones.
  assert (H : forall t i0 full, (forall k, nth (i0 + k) full 0%Z = nth k t 0%Z) -> binary_row t ->
     sumZ t = Z.of_nat (length (filter (fun j => (nth j full 0 =? 1)%Z) (seq i0 (length t))))).
  { clear. induction t as [|x t IH]; intros i0 full Hf Hb; [reflexivity|].
    rewrite sumZ_cons. simpl.
    rewrite (IH (S i0) full).
    - pose proof (Hf 0) as H0. rewrite Nat.add_0_r in H0. simpl in H0. rewrite H0.
      destruct (Hb x (or_introl eq_refl)) as [->| ->];
        [change (0 =? 1)%Z with false|change (1 =? 1)%Z with true]; cbn [length]; lia.
    - intros k. specialize (Hf (S k)). simpl in Hf. rewrite Nat.add_succ_comm. exact Hf.
    - intros y Hy. apply Hb. right; exact Hy. }
  apply H; [intros; reflexivity|exact Hb].
Qed.

Lemma nth_add_rows a b j : length a = length b ->
  nth j (add_rows a b) 0%Z = (nth j a 0 + nth j b 0)%Z.
Proof.
  revert b j. induction a as [|x a IH]; intros [|y b] j Hl; try discriminate.
  - destruct j; reflexivity.
  - destruct j; simpl; [reflexivity|]. apply IH. injection Hl as Hl; exact Hl.
Qed.

Lemma add_rows_length a b : length a = length b -> length (add_rows a b) = length a.
Proof. intros H. unfold add_rows. rewrite map_length, combine_length. lia. Qed.

Lemma eye_row_length n k : length (eye_row n k) = n.
Proof. unfold eye_row. rewrite map_length, seq_length. reflexivity. Qed.

Lemma nth_eye_row n k j : j < n -> nth j (eye_row n k) 0%Z = if j =? k then 1%Z else 0%Z.
Proof.
  intros Hj. unfold eye_row. apply nth_error_nth.
  rewrite nth_error_map, (nth_error_nth' _ 0) by (rewrite seq_length; exact Hj).
  rewrite seq_nth by exact Hj. reflexivity.
Qed.

Lemma sum_rows_eye n ks : forall acc, length acc = n ->
  let r := fold_left add_rows (map (eye_row n) ks) acc in
  length r = n /\ forall j, j < n ->
    nth j r 0%Z = (nth j acc 0 + Z.of_nat (count_occ Nat.eq_dec ks j))%Z.
Proof.
  induction ks as [|k ks IH]; intros acc Hacc; simpl.
  - split; [exact Hacc|]. intros. lia.
  - destruct (IH (add_rows acc (eye_row n k))) as [Hl Hn].
    { rewrite add_rows_length; rewrite ?eye_row_length; exact Hacc. }
    split; [exact Hl|]. intros j Hj. rewrite Hn by exact Hj.
    rewrite nth_add_rows by (rewrite eye_row_length; exact Hacc).
    rewrite nth_eye_row by exact Hj.
    destruct (Nat.eq_dec k j) as [->|Hne].
    + rewrite Nat.eqb_refl. lia.
    + replace (j =? k) with false by (symmetry; apply Nat.eqb_neq; congruence). lia.
Qed.

Lemma Zlist_eqb_spec a b : Zlist_eqb a b = true <-> a = b.
Proof.
  unfold Zlist_eqb. revert b. induction a as [|x a IH]; intros [|y b]; simpl;
    try (split; [discriminate|discriminate]); [tauto|].
  rewrite andb_true_iff. rewrite andb_true_iff in *. specialize (IH b).
  rewrite andb_true_iff in IH. rewrite Z.eqb_eq. split.
  - intros (H1 & H2 & H3). f_equal; [exact H2|]. apply IH. auto.
  - intros H. injection H as -> ->. destruct (proj2 IH eq_refl). auto.
Qed.

(** The k best positions. *)
Lemma top_indicator_spec idx n k :
  Permutation idx (seq 0 n) -> k <= n ->
  exists v, top_indicator idx (Z.of_nat k) n = Ok v /\ length v = n /\
    forall j, j < n -> nth j v 0%Z = if in_dec Nat.eq_dec j (firstn k idx) then 1%Z else 0%Z.
Proof.
  intros HP Hk. unfold top_indicator.
  assert (Hlen : length idx = n) by (rewrite (Permutation_length HP); apply seq_length).
  rewrite slice_to_nonneg.
  assert (Hnd : NoDup idx) by (eapply Permutation_NoDup; [symmetry; exact HP|apply seq_NoDup]).
  assert (Hlt : forall x, In x (firstn k idx) -> x < n).
  { intros x Hx. apply in_firstn in Hx. eapply Permutation_in in Hx; [|exact HP].
    apply in_seq in Hx. lia. }
  assert (E : mapM (fun k0 => if k0 <? n then Ok (eye_row n k0) else Err IndexError) (firstn k idx)
     = Ok (map (eye_row n) (firstn k idx))).
  { induction (firstn k idx) as [|x l IH]; [reflexivity|]. simpl.
    rewrite (proj2 (Nat.ltb_lt x n)) by (apply Hlt; left; reflexivity). cbn [bind].
    rewrite IH by (intros y Hy; apply Hlt; right; exact Hy). reflexivity. }
  rewrite E. cbn [bind]. unfold sum_rows.
  destruct (sum_rows_eye n (firstn k idx) (repeat 0%Z n) (repeat_length _ _)) as [Hl Hn].
  eexists. split; [reflexivity|]. split; [exact Hl|]. intros j Hj. rewrite Hn by exact Hj.
  rewrite nth_repeat. simpl.
  assert (Hnd' := NoDup_firstn k idx Hnd).
  destruct (in_dec Nat.eq_dec j (firstn k idx)) as [Hin|Hnin].
  - assert (count_occ Nat.eq_dec (firstn k idx) j = 1).
    { apply NoDup_count_occ'; assumption. }
    rewrite H. reflexivity.
  - assert (count_occ Nat.eq_dec (firstn k idx) j = 0) by (apply count_occ_not_In; exact Hnin).
    rewrite H. reflexivity.
Qed.

Lemma in_ones t j : In j (ones t) <-> j < length t /\ nth j t 0%Z = 1%Z.
Proof.
  unfold ones. rewrite filter_In, in_seq, Z.eqb_eq. split; intros [H1 H2]; split; auto; lia.
Qed.

Lemma ones_NoDup t : NoDup (ones t).
Proof. apply NoDup_filter, seq_NoDup. Qed.

Lemma ones_le t : length (ones t) <= length t.
Proof.
  unfold ones. rewrite <- (seq_length (length t) 0) at 2. apply filter_length_le.
Qed.

Lemma indicator_matches idx t v : binary_row t ->
  length v = length t ->
  (forall j, j < length t ->
     nth j v 0%Z = if in_dec Nat.eq_dec j (firstn (length (ones t)) idx) then 1%Z else 0%Z) ->
  Zlist_eqb v t = true <-> top_matches idx t.
Proof.
  intros Hb Hl Hv. rewrite Zlist_eqb_spec. split.
  - intros -> j Hj. specialize (Hv j Hj).
    destruct (in_dec Nat.eq_dec j (firstn (length (ones t)) idx)); split; intros; try tauto;
      try (rewrite Hv in *; congruence). 
  - intros Hm. apply (nth_ext v t 0%Z 0%Z Hl). intros j Hj. rewrite Hl in Hj.
    rewrite (Hv j Hj).
    destruct (in_dec Nat.eq_dec j (firstn (length (ones t)) idx)) as [Hin|Hnin].
    + symmetry. apply Hm; assumption.
    + destruct (Hb (nth j t 0%Z)) as [E|E]; [apply nth_In; exact Hj|congruence|].
      exfalso. apply Hnin. apply Hm; assumption.
Qed.

Lemma StronglySorted_split {X} (R : X -> X -> Prop) l1 l2 a b :
  StronglySorted R (l1 ++ l2) -> In a l1 -> In b l2 -> R a b.
Proof.
  induction l1 as [|x l1 IH]; intros Hs Ha Hb; [destruct Ha|].
  simpl in Hs. inversion Hs as [|? ? Hs' Hx]; subst. destruct Ha as [->|Ha].
  - rewrite Forall_forall in Hx. apply Hx. apply in_or_app. right; exact Hb.
  - apply IH; assumption.
Qed.

Lemma nth_map_Qopp l j : (nth j (map Qopp l) 0 == - nth j l 0)%Q.
Proof.
  revert j. induction l as [|x l IH]; intros [|j]; simpl; try reflexivity. apply IH.
Qed.

Section TopRow.
Variables (reco : list Q) (t : list Z) (idx : list nat).
Hypothesis Hlen : length reco = length t.
Hypothesis Hb : binary_row t.
Hypothesis Hs : sorts (map Qopp reco) idx.

Let k := length (ones t).
Let P := firstn k idx.

Lemma idx_perm : Permutation idx (seq 0 (length t)).
Proof. destruct Hs as [HP _]. rewrite map_length, Hlen in HP. exact HP. Qed.

Lemma P_length : length P = length (ones t).
Proof.
  unfold P, k. apply firstn_length_le. rewrite (Permutation_length idx_perm), seq_length.
  apply ones_le.
Qed.
Lemma idx_NoDup : NoDup idx.
Proof. eapply Permutation_NoDup; [symmetry; apply idx_perm|apply seq_NoDup]. Qed.

Lemma top_before i j : In i P -> In j idx -> ~ In j P -> (nth j reco 0 <= nth i reco 0)%Q.
Proof.
  intros Hi Hj Hjn. destruct Hs as [_ HS]. rewrite <- (firstn_skipn k idx) in HS, Hj.
  apply in_app_or in Hj as [Hj|Hj]; [contradiction|].
  pose proof (StronglySorted_split _ _ _ i j HS Hi Hj) as H. simpl in H.
  rewrite !nth_map_Qopp in H. apply Qopp_le_compat in H. rewrite !Qopp_involutive in H. exact H.
Qed.

Lemma strict_matches :
  (forall i j, i < length t -> j < length t -> nth i t 0%Z = 1%Z -> nth j t 0%Z = 0%Z ->
     (nth j reco 0 < nth i reco 0)%Q) -> top_matches idx t.
Proof.
  intros Hst.
  assert (HPin : forall x, In x P -> x < length t).
  { intros x Hx. apply in_firstn in Hx. eapply Permutation_in in Hx; [|apply idx_perm].
    apply in_seq in Hx. lia. }
  assert (Hincl : incl P (ones t)).
  { intros j Hj. destruct (in_dec Nat.eq_dec j (ones t)) as [H|H]; [exact H|exfalso].
    assert (Hex : ~ incl (ones t) P).
    { intros Hi. apply H.
      assert (Hle : length P <= length (ones t)) by (rewrite P_length; lia).
      exact (NoDup_length_incl (ones_NoDup t) Hle Hi j Hj). }
    assert (Hex' : exists i, In i (ones t) /\ ~ In i P).
    { clear -Hex. clearbody P. induction (ones t) as [|a l IH]; [exfalso; apply Hex; intros x []|].
      destruct (in_dec Nat.eq_dec a P) as [Ha|Ha].
      - destruct IH as (i & H1 & H2).
        + intros Hi. apply Hex. intros x [<-|Hx]; [exact Ha|apply Hi; exact Hx].
        + exists i. split; [right|]; auto.
      - exists a. split; [left|]; auto. }
    destruct Hex' as (i & Hi & Hip). apply in_ones in Hi as [Hil Hi1].
    assert (Hj0 : nth j t 0%Z = 0%Z).
    { destruct (Hb (nth j t 0%Z)) as [E|E]; [apply nth_In, HPin, Hj|exact E|].
      exfalso. apply H. apply in_ones. split; [apply HPin; exact Hj|exact E]. }
    assert (Hiidx : In i idx).
    { eapply Permutation_in; [symmetry; apply idx_perm|]. apply in_seq. lia. }
    pose proof (top_before j i Hj Hiidx Hip) as Hle.
    pose proof (Hst i j Hil (HPin j Hj) Hi1 Hj0) as Hlt.
    exact (Qlt_not_le _ _ Hlt Hle). }
  intros j Hj. split.
  - intros Hin. apply Hincl, in_ones in Hin. tauto.
  - intros H1. assert (HndP : NoDup P) by (apply NoDup_firstn, idx_NoDup).
    assert (Hle : length (ones t) <= length P) by (rewrite P_length; lia).
    apply (NoDup_length_incl HndP Hle Hincl). apply in_ones. auto.
Qed.

Lemma matches_weak : top_matches idx t ->
  forall i j, i < length t -> j < length t -> nth i t 0%Z = 1%Z -> nth j t 0%Z = 0%Z ->
     (nth j reco 0 <= nth i reco 0)%Q.
Proof.
  intros Hm i j Hi Hj H1 H0. apply top_before.
  - apply Hm; assumption.
  - eapply Permutation_in; [symmetry; apply idx_perm|]. apply in_seq. lia.
  - intros Hin. apply Hm in Hin; [congruence|exact Hj].
Qed.
End TopRow.

Lemma compare_given_nb_spec argsort n (reco : list (list Q)) (trues : list (list Z)) :
  (forall keys, sorts keys (argsort keys)) ->
  trues <> [] -> length reco = length trues ->
  (forall r, In r reco -> length r = n) ->
  (forall t, In t trues -> length t = n /\ binary_row t) ->
  exists ok, compare_labels_given_nb argsort n reco trues = Ok ok /\
    length ok = length trues /\
    forall i r t, nth_error reco i = Some r -> nth_error trues i = Some t ->
      exists b, nth_error ok i = Some b /\
        (b = true <-> top_matches (argsort (map Qopp r)) t).
Proof.
  intros Hsort Hne Hlen Hr Ht. unfold compare_labels_given_nb.
  set (idx := map (fun r => argsort (map Qopp r)) reco).
  assert (Hrows : exists rows,
    mapM (fun p => let '(i, nb) := p in
            match nth_error idx i with
            | Some ix => top_indicator ix nb n | None => Err IndexError end)
         (enumerate (map sumZ trues)) = Ok rows /\
    length rows = length trues /\
    forall i r t, nth_error reco i = Some r -> nth_error trues i = Some t ->
      exists v, nth_error rows i = Some v /\ 
        (Zlist_eqb v t = true <-> top_matches (argsort (map Qopp r)) t)).
  { unfold enumerate.
    assert (G : forall trues' i0, (forall k t, nth_error trues' k = Some t -> nth_error trues (i0 + k) = Some t) ->
      exists rows,
        mapM (fun p => let '(i, nb) := p in
            match nth_error idx i with
            | Some ix => top_indicator ix nb n | None => Err IndexError end)
         (combine (seq i0 (length (map sumZ trues'))) (map sumZ trues')) = Ok rows /\
        length rows = length trues' /\
        forall k r t, nth_error reco (i0 + k) = Some r -> nth_error trues' k = Some t ->
          exists v, nth_error rows k = Some v /\
            (Zlist_eqb v t = true <-> top_matches (argsort (map Qopp r)) t)).
    { induction trues' as [|t trues' IH]; intros i0 Hsub.
      - exists []. split; [reflexivity|]. split; [reflexivity|]. intros [|k] r t _ H; discriminate.
      - destruct (IH (S i0)) as (rows & E & Hl & Hn).
        { intros k t' Hk. rewrite Nat.add_succ_comm. apply Hsub. exact Hk. }
        pose proof (Hsub 0 t eq_refl) as Ht0. rewrite Nat.add_0_r in Ht0.
        assert (Hi0 : i0 < length reco) by (rewrite Hlen; apply nth_error_Some; congruence).
        destruct (nth_error reco i0) as [r|] eqn:Er; [|apply nth_error_None in Er; lia].
        destruct (Ht t (nth_error_In _ _ Ht0)) as [Htl Htb].
        pose proof (Hr r (nth_error_In _ _ Er)) as Hrl.
        cbn [length map seq combine mapM].
        unfold idx at 1. rewrite nth_error_map, Er. cbn [option_map].
        rewrite (ones_sum t Htb).
        destruct (top_indicator_spec (argsort (map Qopp r)) n (length (ones t))) as (v & Ev & Hvl & Hv).
        { destruct (Hsort (map Qopp r)) as [HP _]. rewrite map_length, Hrl in HP. exact HP. }
        { rewrite <- Htl. apply ones_le. }
        rewrite Ev. cbn [bind]. rewrite E. cbn [bind].
        exists (v :: rows). split; [reflexivity|]. split; [simpl; congruence|].
        intros [|k] r' t' Hr' Ht'.
        + rewrite Nat.add_0_r, Er in Hr'. injection Hr' as <-. simpl in Ht'. injection Ht' as <-.
          exists v. split; [reflexivity|]. apply indicator_matches; [exact Htb|congruence|].
          intros j Hj. apply Hv. congruence.
        + rewrite <- Nat.add_succ_comm in Hr'. apply (Hn k r' t' Hr' Ht'). }
    apply (G trues 0). intros k t Hk. exact Hk. }
  destruct Hrows as (rows & E & Hl & Hn). rewrite E. cbn [bind].
  destruct rows as [|v0 rows']; [destruct trues; [congruence|discriminate]|].
  eexists. split; [reflexivity|]. set (rows := v0 :: rows') in *. split.
  - rewrite map_length, combine_length. lia.
  - intros i r t Hi Hit. destruct (Hn i r t Hi Hit) as (v & Hv & Hm).
    exists (Zlist_eqb v t). split; [|exact Hm]. rewrite nth_error_map.
    assert (Ec : nth_error (combine rows trues) i = Some (v, t)).
    { clear -Hv Hit. revert i trues Hv Hit. induction rows as [|a l IH]; intros i trues H1 H2;
        [destruct i; discriminate|]. destruct trues; [destruct i; discriminate|].
      destruct i; simpl in *; [congruence|auto]. }
    rewrite Ec. reflexivity.
Qed.

(** ** Thresholds *)
Lemma threshold_spec reco trues threshold ok :
  compare_labels_threshold reco trues threshold = Ok ok ->
  length ok = length trues /\
  forall i r t b, nth_error reco i = Some r -> nth_error trues i = Some t ->
    nth_error ok i = Some b ->
    (b = true <-> forall j x y, nth_error r j = Some x -> nth_error t j = Some y ->
       (y = 1%Z /\ (threshold <= x)%Q) \/ (y = 0%Z /\ (x < threshold)%Q)).
Proof.
  unfold compare_labels_threshold. destruct (length reco =? length trues) eqn:El; [|discriminate].
  simpl. apply Nat.eqb_eq in El. intros E. pose proof (mapM_length _ _ _ E) as Hlen.
  rewrite combine_length in Hlen. split; [lia|].
  intros i r t b Hr Ht Hb. apply mapM_ok in E.
  assert (Ec : nth_error (combine reco trues) i = Some (r, t)).
  { clear -Hr Ht. revert i trues Hr Ht. induction reco as [|a l IH]; intros i trues H1 H2;
      [destruct i; discriminate|]. destruct trues; [destruct i; discriminate|].
    destruct i; simpl in *; [congruence|auto]. }
  destruct (Forall2_nth _ _ _ E i _ Ec) as (b' & Hb' & Hf). rewrite Hb in Hb'.
  injection Hb' as <-. simpl in Hf. destruct (length r =? length t) eqn:El'; [|discriminate].
  injection Hf as <-. rewrite forallb_forall. split.
  - intros H j x y Hx Hy. assert (Hin : In (x, y) (combine r t)) by (apply combine_nth_error_in; eauto).
    specialize (H _ Hin). simpl in H. apply Z.eqb_eq in H.
    destruct (Qle_bool threshold x) eqn:Eq; simpl in H.
    + left. split; [auto|]. apply Qle_bool_iff. exact Eq.
    + right. split; [auto|]. apply Qnot_le_lt. intros Hle. apply Qle_bool_iff in Hle. congruence.
  - intros H [x y] Hin. apply combine_nth_error_in in Hin as (j & Hx & Hy). simpl.
    apply Z.eqb_eq. destruct (H j x y Hx Hy) as [[-> Hle]|[-> Hlt]].
    + apply Qle_bool_iff in Hle. rewrite Hle. reflexivity.
    + destruct (Qle_bool threshold x) eqn:Eq; [|reflexivity]. apply Qle_bool_iff in Eq.
      exfalso. exact (Qlt_not_le _ _ Hlt Eq).
Qed.

(** ** Label reconstruction *)
Lemma evaluate_label_reco_spec {D} (ltb : D -> D -> bool) (acti : dists D) (labels : list Z) :
  strict_weak (fun x y => ltb y x = true) ->
  0 < d_cols acti -> (forall r, In r (d_rows acti) -> length r = d_cols acti) ->
  (length (d_rows acti) <> length labels ->
     evaluate_label_reco ltb acti labels = Err AssertionError) /\
  (length (d_rows acti) = length labels -> labels <> [] ->
   exists best s, Forall2 (first_min (fun x y => ltb y x = true)) (d_rows acti) best /\
     evaluate_label_reco ltb acti labels = Ok (Some s) /\
     (s == inject_Z (Z.of_nat (agreements Z.eqb (map Z.of_nat best) labels)) /
           inject_Z (Z.of_nat (length labels)))%Q).
Proof.
  intros Hswo Hc Hr.
  assert (Hb : exists best, mapM (argmax ltb) (d_rows acti) = Ok best /\
     Forall2 (first_min (fun x y => ltb y x = true)) (d_rows acti) best).
  { induction (d_rows acti) as [|r rows IH]; [exists []; split; [reflexivity|constructor]|].
    destruct IH as (best & E & HF); [intros; apply Hr; right; assumption|].
    destruct (argmin_spec (fun x y => ltb y x) Hswo r) as (j & Ej & Hj).
    { intros ->. specialize (Hr [] (or_introl eq_refl)). simpl in Hr. lia. }
    exists (j :: best). split; [|constructor; assumption].
    cbn [mapM]. unfold argmax at 1. rewrite Ej. cbn [bind]. rewrite E. reflexivity. }
  destruct Hb as (best & E & HF). pose proof (Forall2_len _ _ _ HF) as Hl.
  unfold evaluate_label_reco.
  replace (d_cols acti =? 0) with false by (symmetry; apply Nat.eqb_neq; lia).
  rewrite E. cbn [bind]. unfold py_assert. rewrite <- Hl. split.
  - intros Hne. apply Nat.eqb_neq in Hne. rewrite Hne. reflexivity.
  - intros Heq Hne. rewrite (proj2 (Nat.eqb_eq _ _) Heq). cbn [bind].
    assert (Em : map (fun p => (Z.of_nat (fst p) =? snd p)%Z) (combine best labels) =
                 map (fun p => (fst p =? snd p)%Z) (combine (map Z.of_nat best) labels)).
    { clear. revert labels. induction best as [|b best IH]; intros [|x l]; simpl; try reflexivity.
      f_equal. apply IH. }
    rewrite Em. unfold average_bools.
    destruct (map (fun p => (fst p =? snd p)%Z) (combine (map Z.of_nat best) labels)) eqn:Ec.
    { destruct labels; [congruence|]. destruct best; [simpl in Hl; simpl in Heq; lia|discriminate]. }
    rewrite <- Ec. exists best. eexists. split; [exact HF|]. split; [reflexivity|].
    rewrite agreements_filter, map_length, combine_length, map_length.
    rewrite <- Hl, Heq, Nat.min_id. reflexivity.
Qed.
