(** * Regions of the heap: code that is given references of a region only
    changes that region. *)

From Coq Require Import List ZArith QArith Bool Lia.
Import ListNotations.
From Verif Require Import Py Py_proof ListUtil window_model winheap_model winheap_spec.

Lemma nth_error_snoc_old {X} (l m : list X) k : (k < length l)%nat -> nth_error (l ++ m) k = nth_error l k.
Proof. apply nth_error_app1. Qed.

Lemma nth_error_snoc {X} (l : list X) x k y : nth_error (l ++ [x]) k = Some y ->
  nth_error l k = Some y \/ (k = length l /\ y = x).
Proof.
  intro H. destruct (Nat.lt_ge_cases k (length l)) as [L|L].
  - rewrite nth_error_app1 in H by auto. auto.
  - rewrite nth_error_app2 in H by auto. right. destruct (k - length l)%nat as [|d] eqn:E.
    + cbn in H. injection H as <-. split; auto. lia.
    + destruct d; discriminate.
Qed.

Section Region.
Context {O A P : Type}.
Notation lf := (leaf O nat P).
Notation state := (st O A P).

(** The region: which positions of each store belong to it. *)
Variables VL VX VT VC : nat -> bool.

Definition gL (s : state) r := (r < length (leafs s))%nat /\ VL r = true.
Definition gX (s : state) l := (l < length (lists s))%nat /\ VX l = true.
Definition gT (s : state) c := (c < length (cats s))%nat /\ VT c = true.
Definition gC (s : state) k := (k < length (cells s))%nat /\ VC k = true.
Definition gleaf (s : state) (w : lf) :=
  match w with LA a => Forall (gC s) (a_data a) | _ => True end.
Definition gref (s : state) (v : ref) :=
  match v with RLeaf r => gL s r | RList l => gX s l | RCat c => gT s c end.

Record Inv (s : state) : Prop := {
  iL : forall r, VL r = false -> (r < length (leafs s))%nat;
  iX : forall r, VX r = false -> (r < length (lists s))%nat;
  iT : forall r, VT r = false -> (r < length (cats s))%nat;
  iC : forall r, VC r = false -> (r < length (cells s))%nat;
  cL : forall r w, VL r = true -> nth_error (leafs s) r = Some w -> gleaf s w;
  cX : forall l rs, VX l = true -> nth_error (lists s) l = Some rs -> Forall (gL s) rs;
  cT : forall c l, VT c = true -> nth_error (cats s) c = Some l -> gX s l }.

Record ext (s s' : state) : Prop := {
  lL : (length (leafs s) <= length (leafs s'))%nat;
  lX : (length (lists s) <= length (lists s'))%nat;
  lT : (length (cats s) <= length (cats s'))%nat;
  lC : (length (cells s) <= length (cells s'))%nat;
  fL : forall r, VL r = false -> nth_error (leafs s') r = nth_error (leafs s) r;
  fX : forall r, VX r = false -> nth_error (lists s') r = nth_error (lists s) r;
  fT : forall r, VT r = false -> nth_error (cats s') r = nth_error (cats s) r;
  fC : forall r, VC r = false -> nth_error (cells s') r = nth_error (cells s) r }.

Lemma ext_refl s : ext s s.
Proof. constructor; auto. Qed.
Lemma ext_trans a b c : ext a b -> ext b c -> ext a c.
Proof.
  intros [] []. constructor; try lia; intros r H.
  - rewrite fL1, fL0; auto.
  - rewrite fX1, fX0; auto.
  - rewrite fT1, fT0; auto.
  - rewrite fC1, fC0; auto.
Qed.

Lemma gL_ext s s' r : ext s s' -> gL s r -> gL s' r.
Proof. intros [] []. split; auto; lia. Qed.
Lemma gX_ext s s' r : ext s s' -> gX s r -> gX s' r.
Proof. intros [] []. split; auto; lia. Qed.
Lemma gT_ext s s' r : ext s s' -> gT s r -> gT s' r.
Proof. intros [] []. split; auto; lia. Qed.
Lemma gC_ext s s' r : ext s s' -> gC s r -> gC s' r.
Proof. intros [] []. split; auto; lia. Qed.
Lemma gleaf_ext s s' w : ext s s' -> gleaf s w -> gleaf s' w.
Proof. destruct w; cbn; auto. intros E. apply Forall_impl. intro. apply gC_ext. auto. Qed.
Lemma gref_ext s s' v : ext s s' -> gref s v -> gref s' v.
Proof. destruct v; cbn; intros; eauto using gL_ext, gX_ext, gT_ext. Qed.

(** What may be read: the cells found belong to the region. *)
Definition rL (s : state) r := forall w, nth_error (leafs s) r = Some w -> gleaf s w.
Definition rX (s : state) l := forall rs, nth_error (lists s) l = Some rs -> Forall (rL s) rs.
Definition rT (s : state) c := forall l, nth_error (cats s) c = Some l -> rX s l.
Definition rref (s : state) (v : ref) :=
  match v with RLeaf r => rL s r | RList l => rX s l | RCat c => rT s c end.

Lemma gL_rL s r : Inv s -> gL s r -> rL s r.
Proof. intros I [_ G] w. apply (cL s I r w G). Qed.
Lemma gX_rX s r : Inv s -> gX s r -> rX s r.
Proof. intros I [_ G] w Hw. eapply Forall_impl; [|eapply (cX s I); eauto]. intros. apply gL_rL; auto. Qed.
Lemma gT_rT s r : Inv s -> gT s r -> rT s r.
Proof. intros I [_ G] w Hw. apply gX_rX; auto. eapply (cT s I); eauto. Qed.
Lemma gref_rref s v : Inv s -> gref s v -> rref s v.
Proof. destruct v; cbn; intros; eauto using gL_rL, gX_rX, gT_rT. Qed.

Lemma rL_ext s s' r : Inv s' -> ext s s' -> rL s r -> rL s' r.
Proof.
  intros I E R w Hw. destruct (VL r) eqn:EV; [eapply (cL s' I); eauto|].
  eapply gleaf_ext; eauto. apply R. rewrite <- (fL s s' E) by auto. auto.
Qed.
Lemma rX_ext s s' r : Inv s' -> ext s s' -> rX s r -> rX s' r.
Proof.
  intros I E R w Hw. destruct (VX r) eqn:EV.
  - eapply Forall_impl; [|eapply (cX s' I); eauto]. intros. apply gL_rL; auto.
  - eapply Forall_impl; [|apply R; rewrite <- (fX s s' E) by auto; eauto]. intros. eapply rL_ext; eauto.
Qed.
Lemma rT_ext s s' r : Inv s' -> ext s s' -> rT s r -> rT s' r.
Proof.
  intros I E R w Hw. destruct (VT r) eqn:EV.
  - apply gX_rX; auto. eapply (cT s' I); eauto.
  - eapply rX_ext; eauto. apply R. rewrite <- (fT s s' E) by auto. auto.
Qed.

(** ** Code that stays in the region. *)
Definition at_ (s : state) {X} (m : M X) (Q : state -> X -> Prop) : Prop :=
  Inv (snd (m s)) /\ ext s (snd (m s)) /\ (forall x, fst (m s) = Ok x -> Q (snd (m s)) x).

Lemma at_ret s X (x : X) (Q : state -> X -> Prop) : Inv s -> Q s x -> at_ s (ret x) Q.
Proof. intros I H. split; auto. split; [apply ext_refl|]. intros y [= <-]. auto. Qed.
Lemma at_lift s X (r : result X) (Q : state -> X -> Prop) : Inv s -> (forall x, r = Ok x -> Q s x) -> at_ s (lift r) Q.
Proof. intros I H. split; auto. split; [apply ext_refl|]. auto. Qed.
Lemma at_bind s X Y (m : M X) (f : X -> M Y) (R : state -> X -> Prop) (Q : state -> Y -> Prop) :
  at_ s m R -> (forall s1 x, Inv s1 -> ext s s1 -> R s1 x -> at_ s1 (f x) Q) -> at_ s (bindM m f) Q.
Proof.
  intros (I & E & H) F. unfold at_, bindM. destruct (m s) as [[x|e] s1]; cbn in *.
  - destruct (F s1 x I E (H x eq_refl)) as (I2 & E2 & H2). split; auto. split; auto. eapply ext_trans; eauto.
  - split; auto. split; auto. discriminate.
Qed.
Lemma at_weaken s X (m : M X) (Q R : state -> X -> Prop) :
  at_ s m Q -> (forall s1 x, ext s s1 -> Q s1 x -> R s1 x) -> at_ s m R.
Proof. intros (I & E & H) F. split; auto. Qed.

Lemma at_mapMM X Y (f : X -> M Y) (Q : state -> Y -> Prop) (Pre : state -> X -> Prop) l :
  (forall s s' y, ext s s' -> Q s y -> Q s' y) ->
  (forall s s' x, Inv s' -> ext s s' -> Pre s x -> Pre s' x) ->
  (forall s x, Inv s -> Pre s x -> at_ s (f x) Q) ->
  forall s, Inv s -> Forall (Pre s) l -> at_ s (mapMM f l) (fun s' ys => Forall (Q s') ys).
Proof.
  intros MQ MP H. induction l as [|x l IH]; intros s I F; cbn [mapMM]; [apply at_ret; auto|].
  inversion F; subst. eapply at_bind; [apply H; auto|]. intros s1 y I1 E1 Qy.
  eapply at_bind; [apply IH; auto|].
  - eapply Forall_impl; [|eassumption]. intros. eapply MP; eauto.
  - intros s2 ys I2 E2 Qys. apply at_ret; auto. constructor; eauto.
Qed.

Lemma at_get_leaf s r : Inv s -> rL s r -> at_ s (get_leaf r) (fun s' w => gleaf s' w).
Proof.
  intros I R. split; auto. split; [apply ext_refl|]. cbn. intros w. 
  destruct (nth_error (leafs s) r) eqn:E; [|discriminate]. intros [= <-]. auto.
Qed.
Lemma at_get_list s l : Inv s -> rX s l -> at_ s (get_list l) (fun s' rs => Forall (rL s') rs).
Proof.
  intros I R. split; auto. split; [apply ext_refl|]. cbn. intros w. 
  destruct (nth_error (lists s) l) eqn:E; [|discriminate]. intros [= <-]. auto.
Qed.
Lemma at_get_list_g s l : Inv s -> gX s l -> at_ s (get_list l) (fun s' rs => Forall (gL s') rs).
Proof.
  intros I R. split; auto. split; [apply ext_refl|]. cbn. intros w. 
  destruct (nth_error (lists s) l) eqn:E; [|discriminate]. intros [= <-]. eapply (cX s I); eauto. apply R.
Qed.
Lemma at_get_cat s c : Inv s -> rT s c -> at_ s (get_cat c) (fun s' l => rX s' l).
Proof.
  intros I R. split; auto. split; [apply ext_refl|]. cbn. intros w. 
  destruct (nth_error (cats s) c) eqn:E; [|discriminate]. intros [= <-]. auto.
Qed.
Lemma at_get_cat_g s c : Inv s -> gT s c -> at_ s (get_cat c) (fun s' l => gX s' l).
Proof.
  intros I R. split; auto. split; [apply ext_refl|]. cbn. intros w. 
  destruct (nth_error (cats s) c) eqn:E; [|discriminate]. intros [= <-]. eapply (cT s I); eauto. apply R.
Qed.
Lemma at_read_cell s k : Inv s -> at_ s (read_cell k) (fun _ _ => True).
Proof. intros I. split; auto. split; [apply ext_refl|]. auto. Qed.

Lemma fresh_in (V : nat -> bool) n : (forall r, V r = false -> (r < n)%nat) ->
  forall k, (n <= k)%nat -> V k = true.
Proof. intros H k L. destruct (V k) eqn:E; auto. apply H in E. lia. Qed.

Lemma at_alloc_leaf s w : Inv s -> gleaf s w -> at_ s (alloc_leaf w) (fun s' r => gL s' r).
Proof.
  intros I G. unfold at_, alloc_leaf. cbn [fst snd].
  assert (E : ext s (St (leafs s ++ [w]) (lists s) (cats s) (cells s))).
  { constructor; cbn; auto; try (rewrite app_length; cbn; lia).
    intros r H. apply nth_error_app1. apply (iL s I). auto. }
  split; [|split; auto].
  - constructor; cbn; try (intros; apply I; assumption); intros.
    + rewrite app_length. apply (iL s I) in H. lia.
    + apply nth_error_snoc in H0 as [H0|[-> ->]]; eapply gleaf_ext; eauto. eapply (cL s I); eauto.
    + eapply Forall_impl; [|eapply (cX s I); eauto]. intros. eapply gL_ext; eauto.
    + eapply gX_ext; eauto. eapply (cT s I); eauto.
  - intros r [= <-]. split; cbn; [rewrite app_length; cbn; lia|].
    eapply fresh_in; [apply (iL s I)|lia].
Qed.
Lemma at_alloc_list s rs : Inv s -> Forall (gL s) rs -> at_ s (alloc_list rs) (fun s' l => gX s' l).
Proof.
  intros I G. unfold at_, alloc_list. cbn [fst snd].
  assert (E : ext s (St (leafs s) (lists s ++ [rs]) (cats s) (cells s))).
  { constructor; cbn; auto; try (rewrite app_length; cbn; lia).
    intros r H. apply nth_error_app1. apply (iX s I). auto. }
  split; [|split; auto].
  - constructor; cbn; try (intros; apply I; assumption); intros.
    + rewrite app_length. apply (iX s I) in H. lia.
    + eapply gleaf_ext; eauto. eapply (cL s I); eauto.
    + eapply Forall_impl; [intros ? ?; eapply gL_ext; eauto|].
      apply nth_error_snoc in H0 as [H0|[-> ->]]; auto. eapply (cX s I); eauto.
    + eapply gX_ext; eauto. eapply (cT s I); eauto.
  - intros r [= <-]. split; cbn; [rewrite app_length; cbn; lia|].
    eapply fresh_in; [apply (iX s I)|lia].
Qed.
Lemma at_alloc_cat s l : Inv s -> gX s l -> at_ s (alloc_cat l) (fun s' c => gT s' c).
Proof.
  intros I G. unfold at_, alloc_cat. cbn [fst snd].
  assert (E : ext s (St (leafs s) (lists s) (cats s ++ [l]) (cells s))).
  { constructor; cbn; auto; try (rewrite app_length; cbn; lia).
    intros r H. apply nth_error_app1. apply (iT s I). auto. }
  split; [|split; auto].
  - constructor; cbn; try (intros; apply I; assumption); intros.
    + rewrite app_length. apply (iT s I) in H. lia.
    + eapply gleaf_ext; eauto. eapply (cL s I); eauto.
    + eapply Forall_impl; [|eapply (cX s I); eauto]. intros. eapply gL_ext; eauto.
    + eapply gX_ext; eauto. apply nth_error_snoc in H0 as [H0|[-> ->]]; auto. eapply (cT s I); eauto.
  - intros r [= <-]. split; cbn; [rewrite app_length; cbn; lia|].
    eapply fresh_in; [apply (iT s I)|lia].
Qed.
Lemma at_alloc_cells s xs : Inv s -> at_ s (alloc_cells xs) (fun s' ks => Forall (gC s') ks).
Proof.
  intros I. unfold at_, alloc_cells. cbn [fst snd].
  assert (E : ext s (St (leafs s) (lists s) (cats s) (cells s ++ xs))).
  { constructor; cbn; auto; try (rewrite app_length; cbn; lia).
    intros r H. apply nth_error_app1. apply (iC s I). auto. }
  split; [|split; auto].
  - constructor; cbn; try (intros; apply I; assumption); intros.
    + rewrite app_length. apply (iC s I) in H. lia.
    + eapply gleaf_ext; eauto. eapply (cL s I); eauto.
    + eapply Forall_impl; [|eapply (cX s I); eauto]. intros. eapply gL_ext; eauto.
    + eapply gX_ext; eauto. eapply (cT s I); eauto.
  - intros r [= <-]. apply Forall_forall. intros k Hk. apply in_seq in Hk.
    split; cbn; [rewrite app_length; lia|]. eapply fresh_in; [apply (iC s I)|lia].
Qed.
Lemma at_put_leaf s r w : Inv s -> gL s r -> gleaf s w -> at_ s (put_leaf r w) (fun _ _ => True).
Proof.
  intros I [Lr Gr] G. unfold at_, put_leaf. cbn [fst snd].
  assert (E : ext s (St (list_set (leafs s) r w) (lists s) (cats s) (cells s))).
  { constructor; cbn; auto; try (rewrite list_set_length; lia).
    intros k H. rewrite nth_error_list_set. destruct (Nat.eqb_spec k r); [congruence|auto]. }
  split; [|split; auto].
  constructor; cbn; try rewrite !list_set_length; try (intros; apply I; assumption); intros.
  - eapply gleaf_ext; eauto. rewrite nth_error_list_set in H0. destruct (Nat.eqb_spec r0 r).
    + destruct (r <? length (leafs s))%nat; [|discriminate]. congruence.
    + eapply (cL s I); eauto.
  - eapply Forall_impl; [|eapply (cX s I); eauto]. intros. eapply gL_ext; eauto.
  - eapply gX_ext; eauto. eapply (cT s I); eauto.
Qed.
Lemma at_put_list s l rs : Inv s -> gX s l -> Forall (gL s) rs -> at_ s (put_list l rs) (fun _ _ => True).
Proof.
  intros I [Lr Gr] G. unfold at_, put_list. cbn [fst snd].
  assert (E : ext s (St (leafs s) (list_set (lists s) l rs) (cats s) (cells s))).
  { constructor; cbn; auto; try (rewrite list_set_length; lia).
    intros k H. rewrite nth_error_list_set. destruct (Nat.eqb_spec k l); [congruence|auto]. }
  split; [|split; auto].
  constructor; cbn; try rewrite !list_set_length; try (intros; apply I; assumption); intros.
  - eapply gleaf_ext; eauto. eapply (cL s I); eauto.
  - eapply Forall_impl; [intros ? ?; eapply gL_ext; eauto|].
    rewrite nth_error_list_set in H0. destruct (Nat.eqb_spec l0 l).
    + destruct (l <? length (lists s))%nat; [|discriminate]. congruence.
    + eapply (cX s I); eauto.
  - eapply gX_ext; eauto. eapply (cT s I); eauto.
Qed.
Lemma at_put_cell s k x : Inv s -> gC s k -> at_ s (put_cell k x) (fun _ _ => True).
Proof.
  intros I [Lr Gr]. unfold at_, put_cell. cbn [fst snd].
  assert (E : ext s (St (leafs s) (lists s) (cats s) (list_set (cells s) k x))).
  { constructor; cbn; auto; try (rewrite list_set_length; lia).
    intros j H. rewrite nth_error_list_set. destruct (Nat.eqb_spec j k); [congruence|auto]. }
  split; [|split; auto].
  constructor; cbn; try rewrite !list_set_length; try (intros; apply I; assumption); intros.
  - eapply gleaf_ext; eauto. eapply (cL s I); eauto.
  - eapply Forall_impl; [|eapply (cX s I); eauto]. intros. eapply gL_ext; eauto.
  - eapply gX_ext; eauto. eapply (cT s I); eauto.
Qed.

(** ** The pure functions keep the cells of array windows. *)
Lemma new_array_cells ks start rate (a : arrw nat) : new_array_window ks start rate = Ok a -> a_data a = ks.
Proof. unfold new_array_window. intro H. apply bind_ok in H as (d & _ & H). injection H as <-. reflexivity. Qed.
Lemma gleaf_move s w d : gleaf s w -> gleaf s (move w d).
Proof. destruct w; auto. Qed.
Lemma gleaf_copy s w w' : gleaf s w -> copy no_files w = Ok w' -> gleaf s w'.
Proof.
  destruct w; cbn; intros G H.
  - injection H as <-. exact Logic.I.
  - apply bind_ok in H as (a & H & K). injection K as <-. apply new_array_cells in H. cbn. rewrite H. auto.
  - apply bind_ok in H as (a & H & K). injection K as <-. exact Logic.I.
Qed.
Lemma slice_incl {X} (l : list X) i j x : In x (slice l i j) -> In x l.
Proof.
  unfold slice. generalize (clamp_slice (length l) i). intro m.
  generalize (clamp_slice (length l) j - m)%nat. intros n H.
  assert (K : In x (skipn m l)).
  { revert H. generalize (skipn m l). intros l'. rewrite <- (firstn_skipn n l') at 2. intro H. apply in_or_app. auto. }
  rewrite <- (firstn_skipn m l). apply in_or_app. auto.
Qed.
Lemma gleaf_sub s w w' a b : gleaf s w -> get_subwindow no_files w a b = Ok w' -> gleaf s w'.
Proof.
  destruct w; cbn; intros G H.
  - apply bind_ok in H as (x & H & K). injection K as <-. exact Logic.I.
  - apply bind_ok in H as (x & H & K). injection K as <-. unfold array_get_subwindow in H.
    apply bind_ok in H as (i & _ & H). apply bind_ok in H as (j & _ & H). apply bind_ok in H as (d & _ & H).
    apply new_array_cells in H. cbn. rewrite H. apply Forall_forall. intros k Hk. apply slice_incl in Hk.
    rewrite Forall_forall in G. auto.
  - apply bind_ok in H as (x & H & K). injection K as <-. exact Logic.I.
Qed.

(** ** Operations. *)
Lemma Forall_rL_ext s s' l : Inv s' -> ext s s' -> Forall (rL s) l -> Forall (rL s') l.
Proof. intros I E. apply Forall_impl. intros. eapply rL_ext; eauto. Qed.
Lemma Forall_gL_ext s s' l : ext s s' -> Forall (gL s) l -> Forall (gL s') l.
Proof. intros E. apply Forall_impl. intros. eapply gL_ext; eauto. Qed.
Lemma Forall_gL_rL s l : Inv s -> Forall (gL s) l -> Forall (rL s) l.
Proof. intros I. apply Forall_impl. intros. apply gL_rL; auto. Qed.

Lemma at_leaf_move s r d : Inv s -> gL s r -> at_ s (leaf_move r d) (fun _ _ => True).
Proof.
  intros I G. eapply at_bind; [apply at_get_leaf; auto using gL_rL|]. intros s1 w I1 E1 Gw.
  apply at_put_leaf; eauto using gL_ext, gleaf_move.
Qed.
Lemma at_leaf_set_obj s r o : Inv s -> gL s r -> at_ s (leaf_set_obj r o) (fun _ _ => True).
Proof.
  intros I G. eapply at_bind; [apply at_get_leaf; auto using gL_rL|]. intros s1 w I1 E1 Gw.
  destruct w; try (apply at_ret; auto). apply at_put_leaf; eauto using gL_ext.
Qed.
Lemma at_leaf_set_times s r a b : Inv s -> gL s r -> at_ s (leaf_set_times r a b) (fun _ _ => True).
Proof.
  intros I G. eapply at_bind; [apply at_get_leaf; auto using gL_rL|]. intros s1 w I1 E1 Gw.
  apply at_put_leaf; eauto using gL_ext. destruct w; auto.
Qed.
Lemma at_leaf_copy s r : Inv s -> rL s r -> at_ s (leaf_copy r) (fun s' r' => gL s' r').
Proof.
  intros I G. eapply at_bind; [apply at_get_leaf; auto|]. intros s1 w I1 E1 Gw.
  eapply at_bind; [apply at_lift with (Q := fun s' w' => gleaf s' w'); eauto using gleaf_copy|].
  intros s2 w' I2 E2 Gw'. apply at_alloc_leaf; auto.
Qed.
Lemma at_leaf_sub s r a b : Inv s -> rL s r -> at_ s (leaf_sub r a b) (fun s' r' => gL s' r').
Proof.
  intros I G. eapply at_bind; [apply at_get_leaf; auto|]. intros s1 w I1 E1 Gw.
  eapply at_bind; [apply at_lift with (Q := fun s' w' => gleaf s' w'); eauto using gleaf_sub|].
  intros s2 w' I2 E2 Gw'. apply at_alloc_leaf; auto.
Qed.
Lemma py_nth_In {X} (l : list X) i x : py_nth l i = Ok x -> In x l.
Proof.
  unfold py_nth. intro H. apply bind_ok in H as (k & _ & H). destruct (nth_error l k) eqn:E; [|discriminate].
  injection H as <-. eapply nth_error_In; eauto.
Qed.
Lemma at_leaf_write s r i x : Inv s -> gL s r -> at_ s (leaf_write r i x) (fun _ _ => True).
Proof.
  intros I G. eapply at_bind; [apply at_get_leaf; auto using gL_rL|]. intros s1 w I1 E1 Gw.
  destruct w as [b|a|v]; try (apply at_lift; auto; discriminate).
  eapply at_bind; [apply at_lift with (Q := fun s' k => gC s' k); auto|].
  - intros k Hk. apply py_nth_In in Hk. cbn in Gw. rewrite Forall_forall in Gw. auto.
  - intros s2 k I2 E2 Gk. apply at_put_cell; auto.
Qed.
Lemma at_leaf_to_array s files r : Inv s -> rL s r -> at_ s (leaf_to_array files r) (fun s' r' => gL s' r').
Proof.
  intros I G. eapply at_bind; [apply at_get_leaf; auto|]. intros s1 w I1 E1 Gw.
  destruct w as [b|a|v].
  - apply at_lift; auto; discriminate.
  - eapply at_bind; [apply at_lift with (Q := fun s' a' => gleaf s' (LA a')); auto|].
    + intros a' H. apply new_array_cells in H. cbn. rewrite H. auto.
    + intros s2 a' I2 E2 G2. apply at_alloc_leaf; auto.
  - eapply at_bind; [apply at_lift with (Q := fun _ _ => True); auto|]. intros s2 content I2 E2 _.
    eapply at_bind; [apply at_alloc_cells; auto|]. intros s3 ks I3 E3 Gk.
    eapply at_bind; [apply at_lift with (Q := fun s' a' => gleaf s' (LA a')); auto|].
    + intros a' H. apply new_array_cells in H. cbn. rewrite H. auto.
    + intros s4 a' I4 E4 G4. apply at_alloc_leaf; auto.
Qed.
Lemma at_values s rs : Inv s -> Forall (rL s) rs -> at_ s (mapMM get_leaf rs) (fun s' ws => Forall (gleaf s') ws).
Proof.
  intros I F. apply at_mapMM with (Pre := rL); auto using at_get_leaf.
  - intros. eapply gleaf_ext; eauto.
  - intros. eapply rL_ext; eauto.
Qed.
Lemma at_copies s rs : Inv s -> Forall (rL s) rs -> at_ s (mapMM leaf_copy rs) (fun s' ws => Forall (gL s') ws).
Proof.
  intros I F. apply at_mapMM with (Pre := rL); auto using at_leaf_copy.
  - intros. eapply gL_ext; eauto.
  - intros. eapply rL_ext; eauto.
Qed.
Lemma at_new_cat s l : Inv s -> gX s l -> at_ s (new_cat l) (fun s' c => gT s' c).
Proof.
  intros I G. eapply at_bind; [apply at_get_list_g; auto|]. intros s1 rs I1 E1 G1.
  eapply at_bind; [apply at_values; auto using Forall_gL_rL|]. intros s2 ws I2 E2 G2.
  eapply at_bind; [apply at_lift with (Q := fun _ _ => True); auto|]. intros s3 ? I3 E3 _.
  apply at_alloc_cat; eauto using gX_ext.
Qed.
Lemma at_cat_windows s c : Inv s -> rT s c -> at_ s (cat_windows c) (fun s' rs => Forall (rL s') rs).
Proof.
  intros I G. eapply at_bind; [apply at_get_cat; auto|]. intros s1 l I1 E1 G1. apply at_get_list; auto.
Qed.
Lemma at_cat_windows_g s c : Inv s -> gT s c -> at_ s (cat_windows c) (fun s' rs => Forall (gL s') rs).
Proof.
  intros I G. eapply at_bind; [apply at_get_cat_g; auto|]. intros s1 l I1 E1 G1. apply at_get_list_g; auto.
Qed.
Lemma at_cat_move s c d : Inv s -> gT s c -> at_ s (cat_move c d) (fun _ _ => True).
Proof.
  intros I G. eapply at_bind; [apply at_cat_windows_g; auto|]. intros s1 rs I1 E1 G1.
  eapply at_bind; [|intros; apply at_ret; auto].
  eapply at_mapMM with (Pre := gL) (Q := fun _ _ => True); auto; intros; eauto using gL_ext, at_leaf_move.
Qed.
Lemma at_cat_copy s c : Inv s -> rT s c -> at_ s (cat_copy c) (fun s' c' => gT s' c').
Proof.
  intros I G. eapply at_bind; [apply at_cat_windows; auto|]. intros s1 rs I1 E1 G1.
  eapply at_bind; [apply at_copies; auto|]. intros s2 new I2 E2 G2.
  eapply at_bind; [apply at_alloc_list; auto|]. intros s3 l I3 E3 G3. apply at_new_cat; auto.
Qed.
Lemma at_cat_file_index s c t : Inv s -> rT s c -> at_ s (cat_file_index c t) (fun _ _ => True).
Proof.
  intros I G. eapply at_bind; [apply at_cat_windows; auto|]. intros s1 rs I1 E1 G1.
  eapply at_bind; [apply at_values; auto|]. intros. apply at_lift; auto.
Qed.
Lemma at_cat_sub_at s c t : Inv s -> gT s c -> at_ s (cat_sub_at c t) (fun s' r => gL s' r).
Proof.
  intros I G. eapply at_bind; [apply at_cat_file_index; auto using gT_rT|]. intros s1 i I1 E1 _.
  eapply at_bind; [apply at_cat_windows_g; eauto using gT_ext|]. intros s2 rs I2 E2 G2.
  apply at_lift; auto. intros r H. apply py_nth_In in H. rewrite Forall_forall in G2. auto.
Qed.
Lemma list_set_Forall {X} (Q : X -> Prop) l k x : Forall Q l -> Q x -> Forall Q (list_set l k x).
Proof. intros F Hx. revert k. induction F; intros [|k]; cbn; auto. Qed.
Lemma py_set_Forall {X} (Q : X -> Prop) l i x l' : Forall Q l -> Q x -> py_set l i x = Ok l' -> Forall Q l'.
Proof.
  unfold py_set. intros F Hx H. apply bind_ok in H as (k & _ & H). injection H as <-. apply list_set_Forall; auto.
Qed.
Lemma at_py_nth s l i : Inv s -> Forall (gL s) l -> at_ s (lift (py_nth l i)) (fun s' r => gL s' r).
Proof. intros I F. apply at_lift; auto. intros x H. apply py_nth_In in H. rewrite Forall_forall in F. auto. Qed.
Lemma at_py_set s l i x : Inv s -> Forall (gL s) l -> gL s x ->
  at_ s (lift (py_set l i x)) (fun s' l' => Forall (gL s') l').
Proof. intros I F Hx. apply at_lift; auto. intros l'. apply py_set_Forall; auto. Qed.
Lemma at_cat_sub s c a b : Inv s -> rT s c -> at_ s (cat_sub c a b) (fun s' c' => gT s' c').
Proof.
  intros I G. eapply at_bind; [apply at_cat_file_index; auto|]. intros s1 i I1 E1 _.
  eapply at_bind; [apply at_cat_file_index; eauto using rT_ext|]. intros s2 j I2 E2 _.
  eapply at_bind; [apply at_cat_windows; eauto using rT_ext|]. intros s3 rs I3 E3 G3.
  eapply at_bind; [apply at_copies; auto|].
  { apply Forall_forall. intros r Hr. apply slice_incl in Hr. rewrite Forall_forall in G3. auto. }
  intros s4 new I4 E4 G4.
  eapply at_bind; [apply at_py_nth; auto|]. intros s5 r0 I5 E5 G5.
  eapply at_bind; [apply at_get_leaf; auto using gL_rL|]. intros s6 w0 I6 E6 _.
  eapply at_bind; [apply at_leaf_sub; eauto using gL_rL, gL_ext|]. intros s7 r0' I7 E7 G7.
  assert (E47 : ext s4 s7) by (eapply ext_trans; [|eassumption]; eapply ext_trans; eauto).
  eapply at_bind; [apply at_py_set; [auto|exact (Forall_gL_ext _ _ _ E47 G4)|auto]|].
  intros s8 new' I8 E8 G8.
  eapply at_bind; [apply at_py_nth; auto|]. intros s9 r1 I9 E9 G9.
  eapply at_bind; [apply at_get_leaf; auto using gL_rL|]. intros s10 w1 I10 E10 _.
  eapply at_bind; [apply at_leaf_sub; eauto using gL_rL, gL_ext|]. intros s11 r1' I11 E11 G11.
  assert (E811 : ext s8 s11) by (eapply ext_trans; [|eassumption]; eapply ext_trans; eauto).
  eapply at_bind; [apply at_py_set; [auto|exact (Forall_gL_ext _ _ _ E811 G8)|auto]|].
  intros s12 new'' I12 E12 G12.
  eapply at_bind; [apply at_alloc_list; auto|]. intros s13 l I13 E13 G13. apply at_new_cat; auto.
Qed.
Lemma at_get_array s r : Inv s -> gL s r -> at_ s (get_array r) (fun s' a => gleaf s' (LA a)).
Proof.
  intros I G. eapply at_bind; [apply at_get_leaf; auto using gL_rL|]. intros s1 w I1 E1 G1.
  destruct w; try (apply at_lift; auto; discriminate). apply at_ret; auto.
Qed.
Lemma at_cat_to_array s files c : Inv s -> rT s c -> at_ s (cat_to_array files c) (fun s' r => gL s' r).
Proof.
  intros I G. eapply at_bind; [apply at_cat_windows; auto|]. intros s1 rs I1 E1 G1.
  eapply at_bind.
  { apply at_mapMM with (Pre := rL) (Q := gL); 
    eauto using gL_ext, rL_ext, at_leaf_to_array. }
  intros s2 arrs I2 E2 G2.
  eapply at_bind.
  { apply at_mapMM with (Pre := gL) (Q := fun s a => gleaf s (LA a)); auto.
    - intros. eapply gleaf_ext; eauto.
    - intros. eapply gL_ext; eauto.
    - intros. apply at_get_array; auto. }
  intros s3 ws I3 E3 G3.
  eapply at_bind; [apply at_lift with (Q := fun _ _ => True); auto|]. intros s4 a I4 E4 _.
  eapply at_bind.
  { apply at_mapMM with (Pre := fun _ _ => True) (Q := fun _ _ => True); auto.
    - intros. apply at_read_cell; auto.
    - apply Forall_forall. auto. }
  intros s5 xs I5 E5 _.
  eapply at_bind; [apply at_alloc_cells; auto|]. intros s6 ks I6 E6 G6. apply at_alloc_leaf; auto.
Qed.
Lemma at_align_heap rs : forall s t, Inv s -> Forall (gL s) rs -> at_ s (align_heap t rs) (fun _ _ => True).
Proof.
  induction rs as [|r rs IH]; intros s t I F; cbn [align_heap]; [apply at_ret; auto|].
  inversion F; subst.
  eapply at_bind; [apply at_get_leaf; auto using gL_rL|]. intros s1 w I1 E1 _.
  eapply at_bind; [apply at_leaf_move; eauto using gL_ext|]. intros s2 ? I2 E2 _.
  eapply at_bind; [apply at_get_leaf; eauto using gL_rL, gL_ext|]. intros s3 w' I3 E3 _.
  assert (E03 : ext s s3) by (eapply ext_trans; [|eassumption]; eapply ext_trans; eauto).
  apply IH; auto. eapply Forall_gL_ext; [exact E03|auto].
Qed.
Lemma at_align_list s l start : Inv s -> gX s l -> at_ s (align_list l start) (fun _ _ => True).
Proof.
  intros I G. eapply at_bind; [apply at_get_list_g; auto|]. intros s1 rs I1 E1 G1.
  eapply at_bind with (R := fun _ _ => True).
  - destruct start; [apply at_ret; auto|].
    eapply at_bind; [apply at_py_nth; auto|]. intros s2 r I2 E2 G2.
    eapply at_bind; [apply at_get_leaf; auto using gL_rL|]. intros. apply at_ret; auto.
  - intros s2 t I2 E2 _. apply at_align_heap; eauto using Forall_gL_ext.
Qed.

Lemma at_copy_ref s v : Inv s -> rref s v -> at_ s (copy_ref v) gref.
Proof.
  intros I R. destruct v; cbn in *.
  - eapply at_bind; [apply at_leaf_copy; auto|]. intros. apply at_ret; auto.
  - apply at_lift; auto; discriminate.
  - eapply at_bind; [apply at_cat_copy; auto|]. intros. apply at_ret; auto.
Qed.
Lemma at_sub_ref s v a b : Inv s -> rref s v -> at_ s (sub_ref v a b) gref.
Proof.
  intros I R. destruct v; cbn in *.
  - eapply at_bind; [apply at_leaf_sub; auto|]. intros. apply at_ret; auto.
  - apply at_lift; auto; discriminate.
  - eapply at_bind; [apply at_cat_sub; auto|]. intros. apply at_ret; auto.
Qed.
Lemma at_array_ref s files v : Inv s -> rref s v -> at_ s (array_ref files v) gref.
Proof.
  intros I R. destruct v; cbn in *.
  - eapply at_bind; [apply at_leaf_to_array; auto|]. intros. apply at_ret; auto.
  - apply at_lift; auto; discriminate.
  - eapply at_bind; [apply at_cat_to_array; auto|]. intros. apply at_ret; auto.
Qed.
Lemma at_move_ref s v d : Inv s -> gref s v -> at_ s (move_ref v d) (fun _ _ => True).
Proof.
  intros I R. destruct v; cbn in *.
  - apply at_leaf_move; auto.
  - apply at_lift; auto.
  - apply at_cat_move; auto.
Qed.

Lemma at_var s vars x : Inv s -> Forall (gref s) vars -> at_ s (var vars x) gref.
Proof.
  intros I F. apply at_lift; auto. intros v H. destruct (nth_error vars x) eqn:E; [|discriminate].
  injection H as <-. rewrite Forall_forall in F. apply F. eapply nth_error_In; eauto.
Qed.
Lemma at_leaf_var s vars x : Inv s -> Forall (gref s) vars -> at_ s (leaf_var vars x) (fun s' r => gL s' r).
Proof.
  intros I F. eapply at_bind; [apply at_var; auto|]. intros s1 v I1 E1 G. apply at_lift; auto.
  intros r H. destruct v; try discriminate. injection H as <-. auto.
Qed.
Lemma at_list_var s vars x : Inv s -> Forall (gref s) vars -> at_ s (list_var vars x) (fun s' r => gX s' r).
Proof.
  intros I F. eapply at_bind; [apply at_var; auto|]. intros s1 v I1 E1 G. apply at_lift; auto.
  intros r H. destruct v; try discriminate. injection H as <-. auto.
Qed.
Lemma at_cat_var s vars x : Inv s -> Forall (gref s) vars -> at_ s (cat_var vars x) (fun s' r => gT s' r).
Proof.
  intros I F. eapply at_bind; [apply at_var; auto|]. intros s1 v I1 E1 G. apply at_lift; auto.
  intros r H. destruct v; try discriminate. injection H as <-. auto.
Qed.
Lemma Forall_gref_ext s s' l : ext s s' -> Forall (gref s) l -> Forall (gref s') l.
Proof. intros E. apply Forall_impl. intros. eapply gref_ext; eauto. Qed.

Definition gopt (s : state) (v : option ref) := match v with Some v => gref s v | None => True end.

Lemma at_exec files s vars o : Inv s -> Forall (gref s) vars -> at_ s (exec files vars o) gopt.
Proof.
  intros I F. destruct o; cbn [exec].
  - eapply at_bind; [apply at_var; auto|]. intros. eapply at_bind; [apply at_move_ref; auto|]. intros. apply at_ret; cbn; auto.
  - eapply at_bind; [apply at_leaf_var; auto|]. intros. eapply at_bind; [apply at_leaf_set_obj; auto|]. intros. apply at_ret; cbn; auto.
  - eapply at_bind; [apply at_leaf_var; auto|]. intros. eapply at_bind; [apply at_leaf_set_times; auto|]. intros. apply at_ret; cbn; auto.
  - eapply at_bind; [apply at_var; auto|]. intros. eapply at_bind; [apply at_copy_ref; auto using gref_rref|]. intros. apply at_ret; cbn; auto.
  - eapply at_bind; [apply at_var; auto|]. intros. eapply at_bind; [apply at_sub_ref; auto using gref_rref|]. intros. apply at_ret; cbn; auto.
  - eapply at_bind; [apply at_cat_var; auto|]. intros. eapply at_bind; [apply at_cat_sub_at; auto|]. intros. apply at_ret; cbn; auto.
  - eapply at_bind; [apply at_var; auto|]. intros. eapply at_bind; [apply at_array_ref; auto using gref_rref|]. intros. apply at_ret; cbn; auto.
  - eapply at_bind; [apply at_cat_var; auto|]. intros. eapply at_bind; [apply at_get_cat_g; auto|]. intros. apply at_ret; cbn; auto.
  - eapply at_bind; [apply at_list_var; auto|]. intros. eapply at_bind; [apply at_get_list_g; auto|]. intros.
    eapply at_bind; [apply at_py_nth; auto|]. intros. apply at_ret; cbn; auto.
  - eapply at_bind.
    { eapply at_mapMM with (Pre := fun s _ => Forall (gref s) vars) (Q := gL).
      - intros. eapply gL_ext; eauto.
      - intros. eapply Forall_gref_ext; eauto.
      - intros. apply at_leaf_var; auto.
      - auto.
      - apply Forall_forall. auto. }
    intros. eapply at_bind; [apply at_alloc_list; auto|]. intros. apply at_ret; cbn; auto.
  - eapply at_bind; [apply at_list_var; auto|]. intros s1 l I1 E1 G1.
    eapply at_bind; [apply at_leaf_var; eauto using Forall_gref_ext|]. intros s2 r I2 E2 G2.
    eapply at_bind; [apply at_get_list_g; eauto using gX_ext|]. intros s3 rs I3 E3 G3.
    eapply at_bind; [apply at_put_list; auto|].
    + eapply gX_ext; [|eassumption]. eapply ext_trans; eauto.
    + apply Forall_app. split; auto. constructor; auto. eapply gL_ext; eauto.
    + intros. apply at_ret; cbn; auto.
  - eapply at_bind; [apply at_list_var; auto|]. intros s1 l I1 E1 G1.
    eapply at_bind; [apply at_leaf_var; eauto using Forall_gref_ext|]. intros s2 r I2 E2 G2.
    eapply at_bind; [apply at_get_list_g; eauto using gX_ext|]. intros s3 rs I3 E3 G3.
    eapply at_bind; [apply at_py_set; eauto using gL_ext|]. intros s4 rs' I4 E4 G4.
    eapply at_bind; [apply at_put_list; auto|].
    + eapply gX_ext; [|eassumption]. eapply ext_trans; [eauto|]. eapply ext_trans; eauto.
    + intros. apply at_ret; cbn; auto.
  - eapply at_bind; [apply at_list_var; auto|]. intros. eapply at_bind; [apply at_new_cat; auto|]. intros. apply at_ret; cbn; auto.
  - eapply at_bind; [apply at_list_var; auto|]. intros. eapply at_bind; [apply at_align_list; auto|]. intros.
    apply at_ret; cbn; eauto using gX_ext.
  - eapply at_bind; [apply at_alloc_leaf; cbn; auto|]. intros. apply at_ret; cbn; auto.
  - eapply at_bind; [apply at_alloc_cells; auto|]. intros s1 ks I1 E1 G1.
    eapply at_bind; [apply at_lift with (Q := fun s' a' => gleaf s' (LA a')); auto|].
    + intros a' H. apply new_array_cells in H. cbn. rewrite H. auto.
    + intros. eapply at_bind; [apply at_alloc_leaf; auto|]. intros. apply at_ret; cbn; auto.
  - eapply at_bind; [apply at_lift with (Q := fun _ _ => True); auto|]. intros.
    eapply at_bind; [apply at_alloc_leaf; cbn; auto|]. intros. apply at_ret; cbn; auto.
  - eapply at_bind; [apply at_leaf_var; auto|]. intros. eapply at_bind; [apply at_leaf_write; auto|]. intros. apply at_ret; cbn; auto.
Qed.

Lemma run_region files h : forall s vars s' vars', Inv s -> Forall (gref s) vars ->
  run files h s vars = (s', vars') -> Inv s' /\ ext s s' /\ Forall (gref s') vars'.
Proof.
  induction h as [|o h IH]; intros s vars s' vars' I F R; cbn [run] in R.
  - injection R as <- <-. split; auto. split; auto. apply ext_refl.
  - destruct (at_exec files s vars o I F) as (I1 & E1 & G1).
    destruct (exec files vars o s) as [[[v|]|e] s1]; cbn in *.
    + apply IH in R as (I2 & E2 & F2); auto.
      * split; auto. split; auto. eapply ext_trans; eauto.
      * apply Forall_app. split; [eapply Forall_gref_ext; eauto|]. constructor; auto. apply (G1 _ eq_refl).
    + apply IH in R as (I2 & E2 & F2); eauto using Forall_gref_ext. split; auto. split; auto. eapply ext_trans; eauto.
    + apply IH in R as (I2 & E2 & F2); eauto using Forall_gref_ext. split; auto. split; auto. eapply ext_trans; eauto.
Qed.
End Region.
