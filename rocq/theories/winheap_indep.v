(** * Independence of copies. *)

From Coq Require Import List ZArith QArith Bool Lia.
Import ListNotations.
From Verif Require Import Py Py_proof ListUtil window_model winheap_model winheap_spec winheap_proof.

Section Kept.
Context {O A P : Type}.
Notation state := (st O A P).

(** ** Only [Write] changes a cell. *)
Definition kept {X} (m : @M O A P X) : Prop := forall s, exists new, cells (snd (m s)) = cells s ++ new.
Lemma kept_same {X} (m : @M O A P X) : (forall s, cells (snd (m s)) = cells s) -> kept m.
Proof. intros H s. exists []. rewrite app_nil_r. apply H. Qed.
Lemma kept_bind {X Y} (m : M X) (f : X -> M Y) : kept m -> (forall x, kept (f x)) -> kept (bindM m f).
Proof.
  intros H1 H2 s. unfold bindM. destruct (H1 s) as (n1 & E1). destruct (m s) as [[x|e] s1]; cbn in *; eauto.
  destruct (H2 x s1) as (n2 & E2). exists (n1 ++ n2). rewrite E2, E1, app_assoc. reflexivity.
Qed.
Lemma kept_mapMM {X Y} (f : X -> M Y) l : (forall x, kept (f x)) -> kept (mapMM f l).
Proof.
  intro H. induction l; cbn [mapMM]; [apply kept_same; reflexivity|].
  apply kept_bind; auto. intro. apply kept_bind; auto. intro. apply kept_same. reflexivity.
Qed.
Lemma kept_alloc_cells xs : kept (alloc_cells xs).
Proof. intro s. exists xs. reflexivity. Qed.

Ltac kept_tac :=
  repeat first
    [ apply kept_alloc_cells
    | progress cbv beta
    | match goal with
      | |- kept (bindM _ _) => apply kept_bind; [|intro]
      | |- kept (mapMM _ _) => apply kept_mapMM; intro
      | |- kept (match ?x with _ => _ end) => destruct x
      | |- kept (let '(_, _) := ?x in _) => destruct x
      end
    | solve [apply kept_same; intro; reflexivity] ].

Lemma kept_leaf_move r d : kept (leaf_move r d).
Proof. unfold leaf_move. kept_tac. Qed.
Lemma kept_leaf_copy r : kept (leaf_copy r).
Proof. unfold leaf_copy. kept_tac. Qed.
Lemma kept_leaf_sub r a b : kept (leaf_sub r a b).
Proof. unfold leaf_sub. kept_tac. Qed.
Lemma kept_leaf_to_array files r : kept (leaf_to_array files r).
Proof. unfold leaf_to_array. kept_tac. Qed.
Lemma kept_new_cat l : kept (new_cat l).
Proof. unfold new_cat. kept_tac. Qed.
Lemma kept_cat_windows c : kept (cat_windows c).
Proof. unfold cat_windows. kept_tac. Qed.
Lemma kept_cat_file_index c t : kept (cat_file_index c t).
Proof. unfold cat_file_index, cat_windows. kept_tac. Qed.
Lemma kept_align_heap rs : forall t, kept (align_heap t rs).
Proof.
  induction rs; intro t; cbn [align_heap]; [apply kept_same; reflexivity|].
  unfold leaf_move. kept_tac. apply IHrs.
Qed.
Lemma kept_copy_ref v : kept (copy_ref v).
Proof. destruct v; cbn; unfold cat_copy, cat_windows, leaf_copy, new_cat; kept_tac. Qed.
Lemma kept_sub_ref v a b : kept (sub_ref v a b).
Proof. destruct v; cbn; unfold cat_sub, cat_file_index, cat_windows, leaf_copy, leaf_sub, new_cat; kept_tac. Qed.
Lemma kept_array_ref files v : kept (array_ref files v).
Proof. destruct v; cbn; unfold cat_to_array, get_array, cat_windows, leaf_to_array; kept_tac. Qed.
Lemma kept_exec files vars o : match o with Write _ _ _ => False | _ => True end -> kept (exec files vars o).
Proof.
  destruct o; intro H; try contradiction; cbn [exec];
    unfold leaf_var, list_var, cat_var, var, leaf_set_obj, leaf_set_times, cat_sub_at, new_cat, align_list;
    try (apply kept_bind; [apply kept_same; reflexivity|intro]).
  all: try (apply kept_bind; [first [apply kept_copy_ref | apply kept_sub_ref | apply kept_array_ref]|intro]; apply kept_same; reflexivity).
  all: try (destruct x0; cbn [move_ref]; unfold cat_move, cat_windows, leaf_move; kept_tac; fail).
  all: unfold cat_file_index, cat_windows; kept_tac; try apply kept_align_heap.
Qed.
Lemma kept_run (files : wavfiles P A) (h : list (op O A P)) : no_array_write h -> forall (s : state) vars s' vars', run files h s vars = (s', vars') ->
  exists new, cells s' = cells s ++ new.
Proof.
  induction 1 as [|o h Ho Hh IH]; intros s vars s' vars' R; cbn [run] in R.
  - injection R as <- <-. exists []. rewrite app_nil_r. reflexivity.
  - destruct (kept_exec files vars o Ho s) as (n1 & E1).
    destruct (exec files vars o s) as [[[v|]|e] s1]; cbn in *;
      apply IH in R as (n2 & E2); exists (n1 ++ n2); rewrite E2, E1, app_assoc; reflexivity.
Qed.
End Kept.

Section Indep.
Context {O A P : Type}.
Notation state := (st O A P).

(** Everything that exists in [s] is the same in [s']. *)
Record agree (s s' : state) : Prop := {
  agL : forall r, (r < length (leafs s))%nat -> nth_error (leafs s') r = nth_error (leafs s) r;
  agX : forall r, (r < length (lists s))%nat -> nth_error (lists s') r = nth_error (lists s) r;
  agT : forall r, (r < length (cats s))%nat -> nth_error (cats s') r = nth_error (cats s) r;
  agC : forall r, (r < length (cells s))%nat -> nth_error (cells s') r = nth_error (cells s) r }.

Lemma observe_leaf_same (s s' : state) r :
  nth_error (leafs s') r = nth_error (leafs s) r ->
  (forall a, nth_error (leafs s) r = Some (LA a) -> forall k, In k (a_data a) -> nth_error (cells s') k = nth_error (cells s) k) ->
  observe_leaf s' r = observe_leaf s r.
Proof.
  intros E C. unfold observe_leaf. rewrite E. destruct (nth_error (leafs s) r) as [[b|a|v]|] eqn:Er; cbn; auto.
  do 3 f_equal. apply map_ext_in. intros k Hk. eapply C; eauto.
Qed.
Lemma observe_list_same (s s' : state) l :
  nth_error (lists s') l = nth_error (lists s) l ->
  (forall rs, nth_error (lists s) l = Some rs -> forall r, In r rs -> observe_leaf s' r = observe_leaf s r) ->
  observe_list s' l = observe_list s l.
Proof.
  intros E C. unfold observe_list. rewrite E. destruct (nth_error (lists s) l) as [rs|] eqn:El; cbn; auto.
  f_equal. apply map_ext_in. intros. eapply C; eauto.
Qed.

Lemma agree_observe (s s' : state) v : well_formed s -> valid s v -> agree s s' -> observe s' v = observe s v.
Proof.
  intros (W1 & W2 & W3) V [aL aX aT aC].
  assert (HL : forall r, (r < length (leafs s))%nat -> observe_leaf s' r = observe_leaf s r).
  { intros r Hr. apply observe_leaf_same; auto. intros a Ha k Hk. apply W1 in Ha. cbn in Ha.
    rewrite Forall_forall in Ha. auto. }
  assert (HX : forall l, (l < length (lists s))%nat -> observe_list s' l = observe_list s l).
  { intros l Hl. apply observe_list_same; auto. intros rs Hrs r Hr. apply W2 in Hrs. rewrite Forall_forall in Hrs. auto. }
  destruct v; cbn in *.
  - f_equal. auto.
  - f_equal. auto.
  - rewrite aT by auto. destruct (nth_error (cats s) c) as [l|] eqn:E; auto. f_equal. apply HX. eapply W3; eauto.
Qed.

(** Objects created since [s]: those above the thresholds.  With [weak] the cells
    may be shared with older arrays. *)
Definition above (n : nat) : nat -> bool := fun r => (n <=? r)%nat.
Definition VCf (weak : bool) (n : nat) : nat -> bool := if weak then fun _ => true else above n.

Record fresh (weak : bool) (s s1 : state) (z : ref) (nL nX nT nC : nat) : Prop := {
  frI : Inv (above nL) (above nX) (above nT) (VCf weak nC) s1;
  frz : gref (above nL) (above nX) (above nT) s1 z;
  frL : (length (leafs s) <= nL)%nat;
  frX : (length (lists s) <= nX)%nat;
  frT : (length (cats s) <= nT)%nat;
  frC : (length (cells s) <= nC)%nat;
  frA : agree s s1;
  lenL : (length (leafs s) <= length (leafs s1))%nat;
  lenX : (length (lists s) <= length (lists s1))%nat;
  lenT : (length (cats s) <= length (cats s1))%nat;
  lenC : (length (cells s) <= length (cells s1))%nat }.

(** A program that starts from the new object does not change older ones. *)
Lemma new_does_not_touch_old weak (files : wavfiles P A) (h : list (op O A P)) (s s1 : state) z nL nX nT nC s2 vars2 y :
  well_formed s -> fresh weak s s1 z nL nX nT nC -> (weak = true -> no_array_write h) ->
  run files h s1 [z] = (s2, vars2) -> valid s y -> observe s2 y = observe s y.
Proof.
  intros W F N R V. destruct (run_region _ _ _ _ files h s1 [z] s2 vars2 (frI _ _ _ _ _ _ _ _ F)
    ltac:(constructor; [apply F|constructor]) R) as (_ & E & _).
  apply agree_observe; auto. destruct (frA _ _ _ _ _ _ _ _ F) as [aL aX aT aC].
  assert (K : forall n r, (r < n)%nat -> above n r = false) by (intros n r H; apply Nat.leb_gt; auto).
  destruct F. constructor; intros r Hr.
  - rewrite (fL _ _ _ _ _ _ E); auto. apply K. lia.
  - rewrite (fX _ _ _ _ _ _ E); auto. apply K. lia.
  - rewrite (fT _ _ _ _ _ _ E); auto. apply K. lia.
  - destruct weak.
    + destruct (kept_run files h (N eq_refl) s1 [z] s2 vars2 R) as (new & Ec). rewrite Ec.
      rewrite nth_error_app1 by lia. auto.
    + rewrite (fC _ _ _ _ _ _ E); auto. cbn. apply K. lia.
Qed.

(** A program that starts from older objects does not change the new one. *)
Definition outside (n n1 : nat) : nat -> bool := fun r => (r <? n)%nat || (n1 <=? r)%nat.
Lemma outside_old n n1 r : (r < n)%nat -> outside n n1 r = true.
Proof. intro H. unfold outside. apply Nat.ltb_lt in H. rewrite H. reflexivity. Qed.
Lemma outside_false n n1 r : (n <= r)%nat -> (r < n1)%nat -> outside n n1 r = false.
Proof. intros. unfold outside. apply orb_false_iff. split; [apply Nat.ltb_ge; auto|apply Nat.leb_gt; auto]. Qed.
Lemma outside_true n n1 r : outside n n1 r = true -> (r < n1)%nat -> (r < n)%nat.
Proof. unfold outside. intros H L. apply orb_true_iff in H as [H|H]; [apply Nat.ltb_lt in H|apply Nat.leb_le in H]; lia. Qed.
Lemma outside_bound n n1 r : outside n n1 r = false -> (r < n1)%nat.
Proof. unfold outside. intros H. apply orb_false_iff in H as [_ H]. apply Nat.leb_gt in H. auto. Qed.

Lemma old_does_not_touch_new weak (files : wavfiles P A) (h : list (op O A P)) (s s1 : state) z nL nX nT nC ys s2 vars2 :
  well_formed s -> fresh weak s s1 z nL nX nT nC -> (weak = true -> no_array_write h) ->
  Forall (valid s) ys -> run files h s1 ys = (s2, vars2) -> observe s2 z = observe s1 z.
Proof.
  intros (W1 & W2 & W3) F N Vy R.
  set (WL := outside (length (leafs s)) (length (leafs s1))).
  set (WX := outside (length (lists s)) (length (lists s1))).
  set (WT := outside (length (cats s)) (length (cats s1))).
  set (WC := if weak then fun _ : nat => true else outside (length (cells s)) (length (cells s1))).
  assert (HC : forall k, (k < length (cells s))%nat -> gC WC s1 k).
  { intros k Hk. split; [destruct F; lia|]. unfold WC. destruct weak; auto. apply outside_old. auto. }
  assert (HL : forall k, (k < length (leafs s))%nat -> gL WL s1 k).
  { intros k Hk. split; [destruct F; lia|]. apply outside_old. auto. }
  assert (HX : forall k, (k < length (lists s))%nat -> gX WX s1 k).
  { intros k Hk. split; [destruct F; lia|]. apply outside_old. auto. }
  assert (HT : forall k, (k < length (cats s))%nat -> gT WT s1 k).
  { intros k Hk. split; [destruct F; lia|]. apply outside_old. auto. }
  assert (I1 : Inv WL WX WT WC s1).
  { destruct (frA _ _ _ _ _ _ _ _ F) as [aL aX aT aC]. constructor.
    - intros r H. eapply outside_bound; eauto.
    - intros r H. eapply outside_bound; eauto.
    - intros r H. eapply outside_bound; eauto.
    - intros r H. unfold WC in H. destruct weak; [discriminate|]. eapply outside_bound; eauto.
    - intros r w Hr Hw. assert (Lr : (r < length (leafs s))%nat).
      { eapply outside_true; [exact Hr|]. apply nth_error_Some. congruence. }
      rewrite aL in Hw by auto. apply W1 in Hw. destruct w; cbn in *; auto.
      eapply Forall_impl; [|exact Hw]. auto.
    - intros l rs Hl Hrs. assert (Ll : (l < length (lists s))%nat).
      { eapply outside_true; [exact Hl|]. apply nth_error_Some. congruence. }
      rewrite aX in Hrs by auto. apply W2 in Hrs. eapply Forall_impl; [|exact Hrs]. auto.
    - intros c l Hc Hl. assert (Lc : (c < length (cats s))%nat).
      { eapply outside_true; [exact Hc|]. apply nth_error_Some. congruence. }
      rewrite aT in Hl by auto. apply W3 in Hl. auto. }
  assert (Fy : Forall (gref WL WX WT s1) ys).
  { eapply Forall_impl; [|exact Vy]. intros [r|l|c]; cbn; auto. }
  destruct (run_region WL WX WT WC files h s1 ys s2 vars2 I1 Fy R) as (_ & E & _).
  destruct (frI _ _ _ _ _ _ _ _ F) as [_ _ _ _ C1 C2 C3].
  assert (SL : forall r, gL (above nL) s1 r -> observe_leaf s2 r = observe_leaf s1 r).
  { intros r [Lr Gr]. unfold above in Gr. apply Nat.leb_le in Gr. apply observe_leaf_same.
    - apply (fL _ _ _ _ _ _ E). apply outside_false; auto. destruct F. lia.
    - intros a Ha k Hk. apply C1 in Ha; [|apply Nat.leb_le; auto]. cbn in Ha. rewrite Forall_forall in Ha.
      destruct (Ha k Hk) as [Lk Gk]. destruct weak.
      + destruct (kept_run files h (N eq_refl) s1 ys s2 vars2 R) as (new & ->). apply nth_error_app1. auto.
      + apply (fC _ _ _ _ _ _ E). apply outside_false; auto. cbn in Gk. apply Nat.leb_le in Gk. destruct F. lia. }
  assert (SX : forall l, gX (above nX) s1 l -> observe_list s2 l = observe_list s1 l).
  { intros l [Ll Gl]. unfold above in Gl. apply Nat.leb_le in Gl. apply observe_list_same.
    - apply (fX _ _ _ _ _ _ E). apply outside_false; auto. destruct F. lia.
    - intros rs Hrs r Hr. apply SL. apply C2 in Hrs; [|apply Nat.leb_le; auto]. rewrite Forall_forall in Hrs. auto. }
  assert (G := frz _ _ _ _ _ _ _ _ F). destruct z as [r|l|c]; cbn in *.
  - f_equal. auto.
  - f_equal. auto.
  - destruct G as [Lc Gc]. unfold above in Gc. apply Nat.leb_le in Gc.
    rewrite (fT _ _ _ _ _ _ E) by (apply outside_false; auto; destruct F; lia).
    destruct (nth_error (cats s1) c) as [l|] eqn:El; auto. f_equal. apply SX. eapply C3; eauto. apply Nat.leb_le. auto.
Qed.

(** ** copy and get_subwindow give new objects. *)
Lemma readable_old weak (s : state) v : well_formed s -> valid s v ->
  (weak = false -> without_arrays s v) ->
  rref (VCf weak (length (cells s))) s v.
Proof.
  intros (W1 & W2 & W3) V N.
  assert (RL : forall r, (weak = false -> not_array (observe_leaf s r)) -> rL (VCf weak (length (cells s))) s r).
  { intros r Nr w Hw. unfold observe_leaf in Nr. rewrite Hw in Nr. assert (H := W1 r w Hw).
    destruct w; cbn in *; auto. destruct weak.
    - eapply Forall_impl; [|exact H]. intros k Hk. split; auto.
    - destruct (Nr eq_refl). }
  assert (RX : forall l, (weak = false -> match observe_list s l with Some x => Forall not_array x | None => True end) ->
     rX (VCf weak (length (cells s))) s l).
  { intros l Nl rs Hrs. apply Forall_forall. intros r Hr. apply RL. intro Ew. specialize (Nl Ew).
    unfold observe_list in Nl. rewrite Hrs in Nl. cbn in Nl. rewrite Forall_forall in Nl. apply Nl.
    apply in_map. auto. }
  unfold without_arrays in N. destruct v; cbn in *.
  - apply RL. auto.
  - apply RX. auto.
  - intros l Hl. rewrite Hl in N. apply RX. auto.
Qed.

Lemma at_fresh weak (s : state) z s1 (m : M ref) :
  m s = (Ok z, s1) ->
  (weak = true -> kept m) ->
  (Inv (above (length (leafs s))) (above (length (lists s))) (above (length (cats s))) (VCf weak (length (cells s))) s ->
   at_ (above (length (leafs s))) (above (length (lists s))) (above (length (cats s))) (VCf weak (length (cells s)))
     s m (gref (above (length (leafs s))) (above (length (lists s))) (above (length (cats s))))) ->
  fresh weak s s1 z (length (leafs s)) (length (lists s)) (length (cats s)) (length (cells s)).
Proof.
  intros E K H.
  assert (I : Inv (above (length (leafs s))) (above (length (lists s))) (above (length (cats s))) (VCf weak (length (cells s))) s).
  { assert (B : forall n r, above n r = false -> (r < n)%nat) by (intros n r; apply Nat.leb_gt).
    assert (C : forall X (l : list X) r x, above (length l) r = true -> nth_error l r = Some x -> False).
    { intros X l r x Hr Hx. apply Nat.leb_le in Hr. assert (r < length l)%nat by (apply nth_error_Some; congruence). lia. }
    constructor; auto.
    - intros r. destruct weak; cbn; [discriminate|auto].
    - intros r w Hr Hw. exfalso. eapply C; eauto.
    - intros r w Hr Hw. exfalso. eapply C; eauto.
    - intros r w Hr Hw. exfalso. eapply C; eauto. }
  destruct (H I) as (I1 & E1 & G). rewrite E in *. cbn in *.
  assert (B : forall n r, (r < n)%nat -> above n r = false) by (intros n r; apply Nat.leb_gt).
  constructor; auto; try apply E1.
  constructor; intros r Hr.
  - apply (fL _ _ _ _ _ _ E1). auto.
  - apply (fX _ _ _ _ _ _ E1). auto.
  - apply (fT _ _ _ _ _ _ E1). auto.
  - destruct weak.
    + destruct (K eq_refl s) as (new & Ec). rewrite E in Ec. cbn in Ec. rewrite Ec. apply nth_error_app1. auto.
    + apply (fC _ _ _ _ _ _ E1). cbn. auto.
Qed.

Lemma copy_fresh weak (s : state) v z s1 : well_formed s -> valid s v -> (weak = false -> without_arrays s v) ->
  copy_ref v s = (Ok z, s1) ->
  fresh weak s s1 z (length (leafs s)) (length (lists s)) (length (cats s)) (length (cells s)).
Proof.
  intros W V N E. eapply at_fresh; eauto using kept_copy_ref. intro I. apply at_copy_ref; auto.
  destruct v; apply readable_old; auto.
Qed.
Lemma sub_fresh weak (s : state) v a b z s1 : well_formed s -> valid s v -> (weak = false -> without_arrays s v) ->
  sub_ref v a b s = (Ok z, s1) ->
  fresh weak s s1 z (length (leafs s)) (length (lists s)) (length (cats s)) (length (cells s)).
Proof.
  intros W V N E. eapply at_fresh; eauto using kept_sub_ref. intro I. apply at_sub_ref; auto.
  destruct v; apply readable_old; auto.
Qed.

(** ** Every state a program can reach is well formed. *)
Definition everything : nat -> bool := fun _ => true.
Lemma wf_Inv (s : state) : well_formed s <-> Inv everything everything everything everything s.
Proof.
  split.
  - intros (W1 & W2 & W3). constructor; try discriminate.
    + intros r w _ Hw. apply W1 in Hw. destruct w; cbn in *; auto. eapply Forall_impl; [|exact Hw]. split; auto.
    + intros l rs _ H. apply W2 in H. eapply Forall_impl; [|exact H]. split; auto.
    + intros c l _ H. apply W3 in H. split; auto.
  - intros [_ _ _ _ C1 C2 C3]. repeat split.
    + intros r w Hw. apply C1 in Hw; auto. destruct w; cbn in *; auto. eapply Forall_impl; [|exact Hw]. intros k []; auto.
    + intros l rs H. apply C2 in H; auto. eapply Forall_impl; [|exact H]. intros k []; auto.
    + intros c l H. apply C3 in H as []; auto.
Qed.
Lemma run_well_formed files (h : list (op O A P)) s vars s' vars' : well_formed s -> Forall (valid s) vars ->
  run files h s vars = (s', vars') -> well_formed s' /\ Forall (valid s') vars'.
Proof.
  intros W V R. apply wf_Inv in W.
  destruct (run_region _ _ _ _ files h s vars s' vars' W) as (I & _ & F); auto.
  - eapply Forall_impl; [|exact V]. intros [r|l|c]; cbn; split; auto.
  - split; [apply wf_Inv; auto|]. eapply Forall_impl; [|exact F]. intros [r|l|c] []; cbn; auto.
Qed.
End Indep.
