(** * Structural correctness of the Hungarian method model.

    These lemmas hold for any arithmetic in which the minimum of two numbers is
    one of them and equality is reflexive. *)

From Coq Require Import List Arith Bool Lia Permutation.
Import ListNotations.
From Verif Require Import Py Py_proof ListUtil munkres_model.

Section Structure.
Context (A : arith).
Notation num := (num A).
Notation bgraph := (bgraph A).
Notation slack := (slack A).

(** ** Attaching a list of edges to the tree. *)

Definition attach_all (l : list (nat * nat)) (t : tree) : tree :=
  fold_left (fun t p => attach (fst p) t (snd p)) l t.

Lemma attach_all_spec l : forall t,
  tS (attach_all l t) = tS t /\ tT (attach_all l t) = tT t /\
  (forall v u, tfather t v = Some u -> tfather (attach_all l t) v = Some u) /\
  (forall v u, tfather (attach_all l t) v = Some u ->
     tfather t v = Some u \/ (tfather t v = None /\ In (u, v) l)) /\
  (forall u v, In (u, v) l -> tfather (attach_all l t) v <> None) /\
  (exists new, tstack (attach_all l t) = tstack t ++ new /\ NoDup new /\
     forall v, In v new <->
       (tfather t v = None /\ tfather (attach_all l t) v <> None)).
Proof.
  induction l as [|[u v] l IH]; intros t.
  - simpl. split; [reflexivity|]. split; [reflexivity|]. split; [auto|].
    split; [auto|]. split; [tauto|].
    exists []. rewrite app_nil_r. split; [reflexivity|]. split; [constructor|].
    simpl. tauto.
  - change (attach_all ((u, v) :: l) t) with (attach_all l (attach u t v)).
    destruct (IH (attach u t v)) as (HS & HT & Hk & Hn & Hin & new & Hst & Hnd & Hnew).
    unfold attach in *. destruct (tfather t v) as [u0|] eqn:Ev.
    + split; [exact HS|]. split; [exact HT|]. split; [exact Hk|].
      split; [|split].
      * intros v' u' H. destruct (Hn v' u' H) as [|[]]; [auto|right; simpl; auto].
      * intros u' v' [E|H]; [|eauto]. injection E as -> ->.
        rewrite (Hk _ _ Ev). discriminate.
      * exists new; auto.
    + simpl in *. split; [exact HS|]. split; [exact HT|].
      assert (Hk' : forall v' u', tfather t v' = Some u' ->
        tfather (attach_all l
          {| tS := tS t; tT := tT t; tfather := upd (tfather t) v (Some u);
             tstack := tstack t ++ [v] |}) v' = Some u').
      { intros v' u' H. apply Hk. rewrite upd_neq; [exact H|]. congruence. }
      assert (Hv : tfather (attach_all l
          {| tS := tS t; tT := tT t; tfather := upd (tfather t) v (Some u);
             tstack := tstack t ++ [v] |}) v = Some u).
      { apply Hk. apply upd_eq. }
      split; [exact Hk'|]. split; [|split].
      * intros v' u' H. destruct (Hn v' u' H) as [H1|[H1 H2]].
        -- destruct (Nat.eq_dec v' v) as [->|Hne].
           ++ rewrite upd_eq in H1. injection H1 as ->. right; auto.
           ++ rewrite upd_neq in H1 by exact Hne. auto.
        -- right. destruct (Nat.eq_dec v' v) as [->|Hne].
           ++ rewrite upd_eq in H1; discriminate.
           ++ rewrite upd_neq in H1 by exact Hne. auto.
      * intros u' v' [E|H]; [|eauto]. injection E as -> ->.
        rewrite Hv. discriminate.
      * exists (v :: new). rewrite Hst, <- app_assoc. split; [reflexivity|]. split.
        -- constructor; [|exact Hnd]. intros H. apply Hnew in H as [H _].
           rewrite upd_eq in H; discriminate.
        -- intros v'. simpl. rewrite Hnew.
           destruct (Nat.eq_dec v' v) as [->|Hne].
           ++ rewrite upd_eq, Hv. split; [intros _; split; [exact Ev|discriminate]|auto].
           ++ rewrite upd_neq by exact Hne. split; [intros [->|H]; [congruence|exact H]|auto].
Qed.

(** ** Invariants. *)

(** The two matching arrays are mutually inverse and stay below [n]. *)
Definition minv (n : nat) (m0 m1 : nat -> option nat) : Prop :=
  (forall u v, m0 u = Some v <-> m1 v = Some u) /\
  (forall u v, m0 u = Some v -> u < n /\ v < n).

(** Explored vertices in reverse exploration order: each but the root was
    reached through its matched partner, whose father was explored before. *)
Fixpoint chain (father m0 : nat -> option nat) (r : nat) (o : list nat) : Prop :=
  match o with
  | [] => False
  | u :: rest =>
      (u = r /\ rest = []) \/
      (u <> r /\ (exists v u', m0 u = Some v /\ father v = Some u' /\ In u' rest)
       /\ chain father m0 r rest)
  end.

Record TI (g : bgraph) (r : nat) (o : list nat) (t : tree) : Prop := {
  ti_nodup : NoDup o;
  ti_lt : forall u, In u o -> u < bg_n A g;
  ti_S : forall u, tS t u = true <-> In u o;
  ti_chain : chain (tfather t) (mat0 A g) r o;
  ti_father : forall v u, tfather t v = Some u -> v < bg_n A g /\ In u o;
  ti_stack : forall v, In v (tstack t) <-> (tfather t v <> None /\ tT t v = false);
  ti_stack_nd : NoDup (tstack t);
  ti_T : forall v, tT t v = true <-> exists u, In u o /\ mat0 A g u = Some v;
  ti_Tf : forall v, tT t v = true -> tfather t v <> None;
  ti_root : mat0 A g r = None /\ In r o;
  ti_minv : minv (bg_n A g) (mat0 A g) (mat1 A g)
}.

Lemma chain_mono f f' m0 r o :
  (forall v u, f v = Some u -> f' v = Some u) ->
  chain f m0 r o -> chain f' m0 r o.
Proof.
  intros Hf. induction o as [|u o IH]; simpl; [auto|].
  intros [H|(Hne & (v & u' & H1 & H2 & H3) & Hc)]; [left; exact H|].
  right. split; [exact Hne|]. split; [|auto]. exists v, u'. auto.
Qed.

(** Number of vertices without father, below n. *)
Definition cnt (n : nat) (f : nat -> option nat) : nat :=
  length (filter (fun v => match f v with None => true | Some _ => false end) (seq 0 n)).

Lemma cnt_attach n (f f' : nat -> option nat) new :
  (forall v u, f v = Some u -> f' v = Some u) ->
  NoDup new -> (forall v, In v new -> v < n) ->
  (forall v, In v new <-> (f v = None /\ f' v <> None)) ->
  cnt n f = cnt n f' + length new.
Proof.
  intros Hk Hnd Hlt Hnew. unfold cnt. rewrite <- app_length.
  apply Permutation_length, NoDup_Permutation.
  - apply NoDup_filter, seq_NoDup.
  - apply NoDup_app_intro; [apply NoDup_filter, seq_NoDup|exact Hnd|].
    intros x Hx Hx'. apply filter_In in Hx as [_ Hx]. apply Hnew in Hx' as [_ Hx'].
    destruct (f' x); congruence.
  - intros x. rewrite in_app_iff, !filter_In, in_seq, Hnew. split.
    + intros [Hx Hf]. destruct (f x) eqn:E; [discriminate|].
      destruct (f' x) eqn:E'; [right; split; [reflexivity|discriminate]|left; auto].
    + intros [[Hx Hf]|[Hf Hf']].
      * split; [exact Hx|]. destruct (f x) eqn:E; [|reflexivity].
        rewrite (Hk _ _ E) in Hf; discriminate.
      * rewrite Hf. split; [|reflexivity].
        assert (In x new) by (apply Hnew; auto). apply Hlt in H. lia.
Qed.

Definition mu (g : bgraph) (t : tree) : nat :=
  2 * cnt (bg_n A g) (tfather t) + length (tstack t).

(** Generic step: attaching edges whose sources are explored. *)
Lemma TI_attach g r o t l :
  TI g r o t ->
  (forall u v, In (u, v) l -> In u o /\ v < bg_n A g) ->
  TI g r o (attach_all l t) /\
  mu g t = mu g (attach_all l t) +
           (length (tstack (attach_all l t)) - length (tstack t)) /\
  length (tstack t) <= length (tstack (attach_all l t)) /\
  ((exists u v, In (u, v) l /\ tfather t v = None) ->
     length (tstack t) < length (tstack (attach_all l t))).
Proof.
  intros HT Hl.
  destruct (attach_all_spec l t) as (ES & ET & Hk & Hn & Hin & new & Hst & Hnd & Hnew).
  destruct HT as [h1 h2 h3 h4 h5 h6 h7 h8 h9 h10 h11].
  assert (Hf : forall v u, tfather (attach_all l t) v = Some u ->
                v < bg_n A g /\ In u o).
  { intros v u H. destruct (Hn _ _ H) as [H'|[_ H']]; [eauto|].
    apply Hl in H'. tauto. }
  assert (Hstack : forall v, In v (tstack (attach_all l t)) <->
     (tfather (attach_all l t) v <> None /\ tT t v = false)).
  { intros v. rewrite Hst, in_app_iff, h6, Hnew. split.
    - intros [[H1 H2]|[H1 H2]].
      + split; [|exact H2]. destruct (tfather t v) eqn:E; [|congruence].
        rewrite (Hk _ _ E). discriminate.
      + split; [exact H2|]. destruct (tT t v) eqn:E; [|reflexivity].
        apply h9 in E. congruence.
    - intros [H1 H2]. destruct (tfather t v) eqn:E; [left|right]; split;
        congruence || auto. }
  split; [|split; [|split]].
  - constructor; auto.
    + rewrite ES. exact h3.
    + eapply chain_mono; [|exact h4]. exact Hk.
    + rewrite ET. exact Hstack.
    + rewrite Hst.
      apply NoDup_app_intro; [exact h7|exact Hnd|].
      intros x Hx Hx'. apply Hnew in Hx' as [E _]. apply h6 in Hx as [Hx _].
      congruence.
    + rewrite ET. exact h8.
    + rewrite ET. intros v Hv. specialize (h9 v Hv).
      destruct (tfather t v) eqn:E; [|congruence]. rewrite (Hk _ _ E); discriminate.
  - unfold mu. rewrite Hst, app_length.
    rewrite (cnt_attach (bg_n A g) (tfather t) (tfather (attach_all l t)) new); auto.
    + lia.
    + intros v Hv. apply Hnew in Hv as [_ Hv].
      destruct (tfather (attach_all l t) v) eqn:E; [|congruence].
      apply Hf in E. tauto.
  - rewrite Hst, app_length. lia.
  - intros (u & v & Huv & Hv). rewrite Hst, app_length.
    assert (In v new). { apply Hnew. split; [exact Hv|]. eauto. }
    destruct new; [contradiction|simpl; lia].
Qed.

(** ** Exploration. *)

Lemma fold_attach_pairs u l t :
  fold_left (attach u) l t = attach_all (map (fun v => (u, v)) l) t.
Proof.
  revert t; induction l as [|v l IH]; intros t; simpl; [reflexivity|].
  rewrite IH. reflexivity.
Qed.

Lemma explore_pairs (g : bgraph) t u : tS t u = false ->
  explore A g t u =
  attach_all (map (fun v => (u, v)) (neighbours A g u))
    (Tree (upd (tS t) u true) (tT t) (tfather t) (tstack t)).
Proof. intros H. unfold explore. rewrite H. apply fold_attach_pairs. Qed.

Lemma TI_new_tree g r :
  minv (bg_n A g) (mat0 A g) (mat1 A g) ->
  r < bg_n A g -> mat0 A g r = None ->
  TI g r [r] (new_tree A g r) /\ mu g (new_tree A g r) <= 2 * bg_n A g.
Proof.
  intros Hm Hr H0. unfold new_tree. rewrite explore_pairs by reflexivity.
  set (t0 := Tree _ _ _ _).
  assert (HT : TI g r [r] t0).
  { subst t0; constructor; simpl.
    - constructor; [simpl; tauto|constructor].
    - intros u [<-|[]]. exact Hr.
    - intros u. unfold upd. destruct (Nat.eqb_spec u r); subst; split; auto;
        try discriminate. intros [H|[]]; congruence.
    - left. auto.
    - discriminate.
    - intros v. split; [tauto|]. intros [H _]; congruence.
    - constructor.
    - intros v. split; [discriminate|]. intros (u & [<-|[]] & H). congruence.
    - discriminate.
    - auto.
    - exact Hm. }
  destruct (TI_attach g r [r] t0 (map (fun v => (r, v)) (neighbours A g r)) HT)
    as (H1 & H2 & H3 & _).
  { intros u v H. apply in_map_iff in H as (v' & E & H). injection E as <- <-.
    apply filter_In in H as [H _]. apply in_seq in H. simpl. split; [auto|lia]. }
  split; [exact H1|].
  assert (mu g t0 = 2 * cnt (bg_n A g) (fun _ => None)) as E.
  { unfold mu. subst t0; simpl. lia. }
  assert (cnt (bg_n A g) (fun _ => None) <= bg_n A g).
  { unfold cnt. rewrite <- (seq_length (bg_n A g) 0) at 2.
    generalize (seq 0 (bg_n A g)). clear. induction l; simpl; lia. }
  lia.
Qed.

Lemma TI_pop g r o t v rest u :
  TI g r o t -> tstack t = v :: rest -> mat1 A g v = Some u ->
  let t' := Tree (tS t) (upd (tT t) v true) (tfather t) rest in
  tS t' u = false /\
  TI g r (u :: o) (explore A g t' u) /\ mu g (explore A g t' u) < mu g t.
Proof.
  intros HT Est Em t'.
  destruct HT as [h1 h2 h3 h4 h5 h6 h7 h8 h9 h10 h11].
  assert (Hv : tfather t v <> None /\ tT t v = false).
  { apply h6. rewrite Est. left; reflexivity. }
  destruct Hv as [Hvf HvT].
  assert (Hm0 : mat0 A g u = Some v) by (apply h11; exact Em).
  assert (Huo : ~ In u o).
  { intros H. assert (tT t v = true) by (apply h8; eauto). congruence. }
  assert (Hur : u <> r) by (intros ->; destruct h10; congruence).
  assert (HSu : tS t' u = false).
  { simpl. destruct (tS t u) eqn:E; [|reflexivity]. apply h3 in E. contradiction. }
  split; [exact HSu|].
  rewrite explore_pairs by exact HSu. simpl.
  set (t1 := Tree _ _ _ _).
  destruct (tfather t v) as [u'|] eqn:Ev; [|congruence].
  destruct (h5 _ _ Ev) as [Hvn Hu'].
  assert (Hun : u < bg_n A g) by (apply h11 in Hm0; tauto).
  assert (HT1 : TI g r (u :: o) t1).
  { subst t1; constructor; simpl.
    - constructor; assumption.
    - intros x [<-|H]; auto.
    - intros x. unfold upd. destruct (Nat.eqb_spec x u) as [->|Hne].
      + split; auto.
      + rewrite h3. split; [auto|intros [H|H]; [congruence|exact H]].
    - right. split; [exact Hur|]. split; [|exact h4]. exists v, u'. auto.
    - intros x y H. apply h5 in H. tauto.
    - intros x. rewrite Est in h6, h7. inversion h7 as [|? ? Hnr Hnd]; subst.
      unfold upd. destruct (Nat.eqb_spec x v) as [->|Hne].
      + split; [contradiction|intros [_ H]; discriminate].
      + rewrite <- h6. simpl. split; [auto|intros [H|H]; [congruence|exact H]].
    - rewrite Est in h7. inversion h7; assumption.
    - intros x. unfold upd. destruct (Nat.eqb_spec x v) as [->|Hne].
      + split; [intros _; exists u; auto|reflexivity].
      + rewrite h8. split.
        * intros (y & H1 & H2). exists y. auto.
        * intros (y & [<-|H1] & H2); [congruence|]. exists y; auto.
    - intros x. unfold upd. destruct (Nat.eqb_spec x v) as [->|Hne]; [congruence|].
      apply h9.
    - destruct h10; auto.
    - exact h11. }
  destruct (TI_attach g r (u :: o) t1 (map (fun v => (u, v)) (neighbours A g u)) HT1)
    as (H1 & H2 & H3 & _).
  { intros x y H. apply in_map_iff in H as (y' & E & H). injection E as <- <-.
    apply filter_In in H as [H _]. apply in_seq in H. simpl. split; [auto|lia]. }
  split; [exact H1|].
  assert (mu g t = S (mu g t1)).
  { unfold mu. subst t1; simpl. rewrite Est. simpl. lia. }
  lia.
Qed.

(** ** Label update. *)

Lemma order_lt_T g r o t : TI g r o t ->
  exists v, v < bg_n A g /\ tT t v = false.
Proof.
  intros [h1 h2 h3 h4 h5 h6 h7 h8 h9 h10 h11].
  destruct (existsb (fun v => negb (tT t v)) (seq 0 (bg_n A g))) eqn:E.
  { apply existsb_exists in E as (v & Hv & HT). exists v.
    apply in_seq in Hv. apply negb_true_iff in HT. split; [lia|exact HT]. }
  exfalso.
  (* every column is the partner of an explored row other than the root *)
  pose (others := filter (fun u => negb (u =? r)) o).
  assert (Hlen : length others < length o).
  { subst others. destruct h10 as [_ Hr]. clear -Hr. revert Hr.
    induction o as [|u o IH]; simpl; [tauto|]. intros [->|Hr].
    - rewrite Nat.eqb_refl. simpl.
      pose proof (filter_length_le (fun u => negb (u =? r)) o). lia.
    - specialize (IH Hr). destruct (u =? r); simpl; lia. }
  assert (Hle : length o <= bg_n A g).
  { rewrite <- (seq_length (bg_n A g) 0). apply NoDup_incl_length; [exact h1|].
    intros u Hu. apply in_seq. specialize (h2 u Hu). lia. }
  pose (img := map (fun u => match mat0 A g u with Some v => v | None => 0 end) others).
  assert (Hinc : incl (seq 0 (bg_n A g)) img).
  { intros v Hv.
    assert (HT : tT t v = true).
    { destruct (tT t v) eqn:ET; [reflexivity|]. exfalso.
      assert (existsb (fun v => negb (tT t v)) (seq 0 (bg_n A g)) = true) as C.
      { apply existsb_exists. exists v. rewrite ET. auto. }
      congruence. }
    apply h8 in HT as (u & Hu & Huv). apply in_map_iff. exists u.
    rewrite Huv. split; [reflexivity|]. apply filter_In. split; [exact Hu|].
    apply negb_true_iff, Nat.eqb_neq. intros ->. destruct h10; congruence. }
  pose proof (NoDup_incl_length (seq_NoDup (bg_n A g) 0) Hinc) as Hc.
  rewrite seq_length in Hc. unfold img in Hc. rewrite map_length in Hc. lia.
Qed.

Definition nmin_select : Prop := forall a b : num, nmin A a b = a \/ nmin A a b = b.
Definition neqb_reflexive : Prop := forall a : num, neqb A a a = true.

Lemma fold_nmin_in (Hsel : nmin_select) l : forall x,
  In (fold_left (nmin A) l x) (x :: l).
Proof.
  induction l as [|y l IH]; intros x; [left; reflexivity|].
  change (fold_left (nmin A) (y :: l) x) with (fold_left (nmin A) l (nmin A x y)).
  destruct (IH (nmin A x y)) as [H|H].
  - rewrite <- H. destruct (Hsel x y) as [->| ->]; simpl; auto.
  - simpl; auto.
Qed.

Lemma fold_cond_attach l : forall t,
  fold_left (fun t' p => if tS t' (fst p) then attach (fst p) t' (snd p) else t') l t
  = attach_all (filter (fun p => tS t (fst p)) l) t.
Proof.
  induction l as [|[u v] l IH]; intros t; simpl; [reflexivity|].
  destruct (tS t u) eqn:E.
  - rewrite IH. simpl.
    replace (tS (attach u t v)) with (tS t); [reflexivity|].
    unfold attach. destruct (tfather t v); reflexivity.
  - apply IH.
Qed.

(** The pairs attached by the label update, given alpha. *)
Definition argmin_pairs (g : bgraph) (t : tree) (alpha : num) : list (nat * nat) :=
  filter (fun p => tS t (fst p))
    (filter (fun p => neqb A (slack g (fst p) (snd p)) alpha)
      (flat_map (fun u => map (fun v => (u, v)) (seq 0 (bg_n A g)))
                (seq 0 (bg_n A g)))).

Lemma in_argmin_pairs g t alpha u v :
  In (u, v) (argmin_pairs g t alpha) <->
  u < bg_n A g /\ v < bg_n A g /\ tS t u = true /\ neqb A (slack g u v) alpha = true.
Proof.
  unfold argmin_pairs. rewrite !filter_In, in_flat_map. simpl. split.
  - intros [[(x & Hx & Hin) Hq] HS]. apply in_map_iff in Hin as (y & E & Hy).
    injection E as -> ->. apply in_seq in Hx, Hy. repeat split; auto; lia.
  - intros (Hu & Hv & HS & Hq). repeat split; auto. exists u.
    split; [apply in_seq; lia|]. apply in_map. apply in_seq; lia.
Qed.

Definition update_labels (g : bgraph) (t : tree) (alpha : num) : bgraph :=
  BG A (bg_n A g) (bg_w A g)
    (fun i => if (i <? bg_n A g) && tS t i then nsub A (lab0 A g i) alpha else lab0 A g i)
    (fun i => if (i <? bg_n A g) && tT t i then nadd A (lab1 A g i) alpha else lab1 A g i)
    (mat0 A g) (mat1 A g).

Lemma TI_same_graph g g' r o t :
  bg_n A g' = bg_n A g -> mat0 A g' = mat0 A g -> mat1 A g' = mat1 A g ->
  TI g r o t -> TI g' r o t.
Proof.
  intros En E0 E1 [h1 h2 h3 h4 h5 h6 h7 h8 h9 h10 h11].
  constructor; rewrite ?En, ?E0, ?E1; assumption.
Qed.

(** Slacks over which the minimum is taken. *)
Definition open_slacks (g : bgraph) (t : tree) : list num :=
  flat_map (fun u => map (fun v => slack g u v)
              (filter (fun v => negb (tT t v)) (seq 0 (bg_n A g))))
           (filter (fun u => tS t u) (seq 0 (bg_n A g))).

Lemma in_open_slacks g t x :
  In x (open_slacks g t) <->
  exists u v, u < bg_n A g /\ v < bg_n A g /\ tS t u = true /\ tT t v = false /\
              x = slack g u v.
Proof.
  unfold open_slacks. rewrite in_flat_map. split.
  - intros (u & Hu & Hx). apply filter_In in Hu as [Hu HS].
    apply in_map_iff in Hx as (v & <- & Hv). apply filter_In in Hv as [Hv HT].
    apply in_seq in Hu, Hv. apply negb_true_iff in HT.
    exists u, v. repeat split; auto; lia.
  - intros (u & v & Hu & Hv & HS & HT & ->). exists u. split.
    + apply filter_In. split; [apply in_seq; lia|exact HS].
    + apply (in_map (fun v => slack g u v)). apply filter_In.
      split; [apply in_seq; lia|]. rewrite HT; reflexivity.
Qed.

Lemma augment_labels_eq (g : bgraph) t :
  augment_labels A g t =
  bind (np_min A (open_slacks g t))
    (fun alpha => Ok (update_labels g t alpha, attach_all (argmin_pairs g t alpha) t)).
Proof.
  unfold augment_labels, open_slacks.
  destruct (np_min A _) as [alpha|e]; simpl; [|reflexivity].
  rewrite fold_cond_attach. reflexivity.
Qed.

Lemma open_slacks_nonempty g r o t : TI g r o t -> open_slacks g t <> [].
Proof.
  intros HT. destruct (order_lt_T _ _ _ _ HT) as (v & Hv & HvT).
  assert (Hin : In (slack g r v) (open_slacks g t)).
  { apply in_open_slacks. exists r, v. destruct HT. destruct ti_root0 as [_ Hr].
    repeat split; auto. apply ti_S0; exact Hr. }
  intros E. rewrite E in Hin. exact Hin.
Qed.

Lemma TI_labels (Hsel : nmin_select) (Hrefl : neqb_reflexive) g r o t :
  TI g r o t -> tstack t = [] ->
  exists alpha,
    In alpha (open_slacks g t) /\
    np_min A (open_slacks g t) = Ok alpha /\
    augment_labels A g t =
      Ok (update_labels g t alpha, attach_all (argmin_pairs g t alpha) t) /\
    TI (update_labels g t alpha) r o (attach_all (argmin_pairs g t alpha) t) /\
    mu (update_labels g t alpha) (attach_all (argmin_pairs g t alpha) t) < mu g t.
Proof.
  intros HT Est.
  destruct (open_slacks g t) as [|x l] eqn:Eo.
  { exfalso. exact (open_slacks_nonempty _ _ _ _ HT Eo). }
  exists (fold_left (nmin A) l x). set (alpha := fold_left (nmin A) l x).
  assert (Ha : In alpha (x :: l)) by (apply fold_nmin_in; exact Hsel).
  rewrite augment_labels_eq, Eo. simpl. fold alpha.
  split; [exact Ha|]. split; [reflexivity|]. split; [reflexivity|].
  rewrite <- Eo in Ha. apply in_open_slacks in Ha as (u & v & Hu & Hv & HS & HvT & Ealpha).
  assert (Hfn : tfather t v = None).
  { destruct (tfather t v) as [w|] eqn:E; [exfalso|reflexivity].
    assert (In v (tstack t)) as Hin.
    { apply (ti_stack _ _ _ _ HT). rewrite E. split; [discriminate|exact HvT]. }
    rewrite Est in Hin. exact Hin. }
  assert (Hpair : In (u, v) (argmin_pairs g t alpha)).
  { apply in_argmin_pairs. repeat split; auto. rewrite <- Ealpha. apply Hrefl. }
  destruct (TI_attach g r o t (argmin_pairs g t alpha) HT) as (H1 & H2 & H3 & H4).
  { intros a b H. apply in_argmin_pairs in H as (Ha' & Hb & HSa & _).
    split; [apply (ti_S _ _ _ _ HT); exact HSa|exact Hb]. }
  split.
  - eapply TI_same_graph; [| | |exact H1]; reflexivity.
  - specialize (H4 (ex_intro _ u (ex_intro _ v (conj Hpair Hfn)))).
    change (mu (update_labels g t alpha) (attach_all (argmin_pairs g t alpha) t))
      with (mu g (attach_all (argmin_pairs g t alpha) t)). lia.
Qed.

(** ** The search terminates. *)

Record found (g : bgraph) (r : nat) (g' : bgraph) (t' : tree) (v : nat)
    (o : list nat) : Prop := {
  fd_n : bg_n A g' = bg_n A g;
  fd_w : bg_w A g' = bg_w A g;
  fd_m0 : mat0 A g' = mat0 A g;
  fd_m1 : mat1 A g' = mat1 A g;
  fd_chain : chain (tfather t') (mat0 A g) r o;
  fd_nodup : NoDup o;
  fd_len : length o <= bg_n A g;
  fd_father : forall x u, tfather t' x = Some u -> x < bg_n A g /\ In u o;
  fd_lt : forall u, In u o -> u < bg_n A g;
  fd_v : v < bg_n A g;
  fd_free : mat1 A g v = None;
  fd_leaf : exists u, tfather t' v = Some u /\ In u o
}.

Lemma TI_found g r o t v rest :
  TI g r o t -> tstack t = v :: rest -> mat1 A g v = None ->
  found g r g (Tree (tS t) (upd (tT t) v true) (tfather t) rest) v o.
Proof.
  intros HT Est Em. destruct HT as [h1 h2 h3 h4 h5 h6 h7 h8 h9 h10 h11].
  assert (Hv : tfather t v <> None /\ tT t v = false).
  { apply h6. rewrite Est. left; reflexivity. }
  destruct Hv as [Hvf _]. destruct (tfather t v) as [u|] eqn:Ev; [|congruence].
  destruct (h5 _ _ Ev) as [Hvn Hu].
  constructor; simpl; auto.
  - rewrite <- (seq_length (bg_n A g) 0). apply NoDup_incl_length; [exact h1|].
    intros x Hx. apply in_seq. specialize (h2 x Hx). lia.
  - exists u. auto.
Qed.

Lemma find_path_total (Hsel : nmin_select) (Hrefl : neqb_reflexive) r :
  forall fuel g o t, TI g r o t -> mu g t < fuel ->
  exists g' t' v o', find_path A fuel g t = Ok (g', t', v) /\ found g r g' t' v o'.
Proof.
  induction fuel as [|fuel IH]; intros g o t HT Hmu; [lia|].
  simpl. destruct (tstack t) as [|v rest] eqn:Est.
  - destruct (TI_labels Hsel Hrefl _ _ _ _ HT Est)
      as (alpha & _ & _ & Eq & HT' & Hmu').
    rewrite Eq. simpl.
    destruct (IH (update_labels g t alpha) o _ HT') as (g' & t' & v & o' & E & F);
      [lia|].
    exists g', t', v, o'. split; [exact E|].
    destruct F; constructor; auto.
  - destruct (mat1 A g v) as [u|] eqn:Em.
    + destruct (TI_pop _ _ _ _ _ _ _ HT Est Em) as (_ & HT' & Hmu').
      destruct (IH g (u :: o) _ HT') as (g' & t' & v' & o' & E & F); [lia|].
      exists g', t', v', o'. auto.
    + exists g, (Tree (tS t) (upd (tT t) v true) (tfather t) rest), v, o.
      split; [reflexivity|]. apply TI_found; auto.
Qed.

(** ** Augmentation of the matching. *)

(** During augmentation the arrays are inverse of each other except at the
    current vertex v, which no row claims. *)
Definition near (n : nat) (m0 m1 : nat -> option nat) (v : nat) : Prop :=
  (forall x y, x <> v -> (m1 x = Some y <-> m0 y = Some x)) /\
  (forall y, m0 y <> Some v) /\
  (forall y x, m0 y = Some x -> y < n /\ x < n).

Lemma augment_total n r father m0 :
  m0 r = None ->
  (forall x u, father x = Some u -> x < n /\ u < n) ->
  forall o fuel (g : bgraph) v u,
  chain father m0 r o -> NoDup o ->
  (forall x, In x o -> mat0 A g x = m0 x) ->
  father v = Some u -> In u o -> length o <= fuel -> bg_n A g = n ->
  near n (mat0 A g) (mat1 A g) v ->
  exists g', augment_matching A fuel father g v = Ok g' /\
    minv n (mat0 A g') (mat1 A g') /\
    bg_n A g' = n /\ bg_w A g' = bg_w A g /\
    lab0 A g' = lab0 A g /\ lab1 A g' = lab1 A g /\
    (forall x, mat0 A g' x <> None <-> (mat0 A g x <> None \/ x = r)) /\
    (forall x y, mat0 A g' x = Some y -> mat0 A g x = Some y \/ father y = Some x).
Proof.
  intros Hr Hfl. induction o as [|w o IH]; intros fuel g v u Hc Hnd Hag Hfv Hu Hfuel Hn Hnear;
    [destruct Hu|].
  inversion Hnd as [|? ? Hwo Hndo]; subst.
  destruct (Nat.eq_dec u w) as [->|Hne].
  - (* u is the head *)
    destruct fuel as [|fuel]; [simpl in Hfuel; lia|]. simpl in Hfuel.
    simpl. rewrite Hfv.
    assert (Ew : mat0 A g w = m0 w) by (apply Hag; left; reflexivity).
    destruct Hnear as (Hinv & Hno & Hrg).
    destruct (Hfl _ _ Hfv) as [Hvlt Hwlt].
    destruct Hc as [[-> ->]|(Hwr & (v' & u' & Hm0 & Hf' & Hu') & Hc)].
    + rewrite Ew, Hr. eexists; split; [reflexivity|]. simpl.
      split; [|repeat split; auto].
      * split.
        -- intros a b. destruct (Nat.eq_dec a r) as [->|Ha].
           ++ rewrite upd_eq. destruct (Nat.eq_dec b v) as [->|Hb].
              ** rewrite upd_eq. tauto.
              ** rewrite upd_neq by exact Hb. split; [congruence|].
                 intros H. apply Hinv in H; [|exact Hb]. congruence.
           ++ rewrite upd_neq by exact Ha. destruct (Nat.eq_dec b v) as [->|Hb].
              ** rewrite upd_eq. split; [intros H; destruct (Hno _ H)|congruence].
              ** rewrite upd_neq by exact Hb. symmetry. apply Hinv; exact Hb.
        -- intros a b. destruct (Nat.eq_dec a r) as [->|Ha].
           ++ rewrite upd_eq. intros E. injection E as <-. auto.
           ++ rewrite upd_neq by exact Ha. apply Hrg.
      * intros H. destruct (Nat.eq_dec x r) as [->|Ha]; [auto|].
        rewrite upd_neq in H by exact Ha. auto.
      * intros H. destruct (Nat.eq_dec x r) as [->|Ha].
        -- rewrite upd_eq; discriminate.
        -- rewrite upd_neq by exact Ha. destruct H; [assumption|contradiction].
      * intros x y H. destruct (Nat.eq_dec x r) as [->|Ha].
        -- rewrite upd_eq in H. injection H as <-. auto.
        -- rewrite upd_neq in H by exact Ha. auto.
    + rewrite Ew, Hm0.
      assert (Hvv' : v' <> v).
      { intros ->. apply (Hno w). congruence. }
      destruct (IH fuel (BG A (bg_n A g) (bg_w A g) (lab0 A g) (lab1 A g)
                 (upd (mat0 A g) w (Some v)) (upd (mat1 A g) v (Some w))) v' u')
        as (g' & E & Hm & H1 & H2 & H3 & H4 & H5 & H6); auto; simpl.
      * intros x Hx. rewrite upd_neq by congruence. apply Hag; right; exact Hx.
      * lia.
      * split; [|split].
        -- intros x y Hx. destruct (Nat.eq_dec x v) as [->|Hxv].
           ++ rewrite upd_eq. destruct (Nat.eq_dec y w) as [->|Hy].
              ** rewrite upd_eq. tauto.
              ** rewrite upd_neq by exact Hy. split; [congruence|].
                 intros H; destruct (Hno _ H).
           ++ rewrite upd_neq by exact Hxv. destruct (Nat.eq_dec y w) as [->|Hy].
              ** rewrite upd_eq. rewrite Hinv by exact Hxv. rewrite Ew, Hm0.
                 split; congruence.
              ** rewrite upd_neq by exact Hy. apply Hinv; exact Hxv.
        -- intros y. destruct (Nat.eq_dec y w) as [->|Hy].
           ++ rewrite upd_eq. congruence.
           ++ rewrite upd_neq by exact Hy. intros H. apply Hy.
              apply Hinv in H; [|exact Hvv'].
              assert (H' : mat1 A g v' = Some w) by (apply Hinv; congruence).
              congruence.
        -- intros y x. destruct (Nat.eq_dec y w) as [->|Hy].
           ++ rewrite upd_eq. intros E'. injection E' as <-. auto.
           ++ rewrite upd_neq by exact Hy. apply Hrg.
      * simpl in *. exists g'. repeat (split; [assumption|]). split.
        -- intros x. rewrite H5. destruct (Nat.eq_dec x w) as [->|Hxw].
           ++ rewrite upd_eq. split; [|left; discriminate]. intros _. left.
              rewrite Ew, Hm0. discriminate.
           ++ rewrite upd_neq by exact Hxw. tauto.
        -- intros x y H. destruct (H6 x y H) as [H'|H']; [|auto].
           destruct (Nat.eq_dec x w) as [->|Hxw].
           ++ rewrite upd_eq in H'. injection H' as <-. auto.
           ++ rewrite upd_neq in H' by exact Hxw. auto.
  - (* u is further down *)
    destruct Hu as [Hu|Hu]; [congruence|].
    destruct Hc as [[-> ->]|(_ & _ & Hc)]; [destruct Hu|].
    eapply IH; eauto.
    + intros x Hx. apply Hag; right; exact Hx.
    + simpl in Hfuel; lia.
Qed.

(** ** The main loop. *)

Lemma search_step (Hsel : nmin_select) (Hrefl : neqb_reflexive) inner (g : bgraph) u :
  2 * bg_n A g < inner ->
  minv (bg_n A g) (mat0 A g) (mat1 A g) ->
  u < bg_n A g -> mat0 A g u = None ->
  exists g1 t v o g2,
    find_path A inner g (new_tree A g u) = Ok (g1, t, v) /\
    found g u g1 t v o /\
    augment_matching A inner (tfather t) g1 v = Ok g2 /\
    minv (bg_n A g) (mat0 A g2) (mat1 A g2) /\
    bg_n A g2 = bg_n A g /\ bg_w A g2 = bg_w A g /\
    lab0 A g2 = lab0 A g1 /\ lab1 A g2 = lab1 A g1 /\
    (forall x, mat0 A g2 x <> None <-> (mat0 A g x <> None \/ x = u)) /\
    (forall x y, mat0 A g2 x = Some y -> mat0 A g x = Some y \/ tfather t y = Some x).
Proof.
  intros Hin Hm Hu H0.
  destruct (TI_new_tree g u Hm Hu H0) as [HT Hmu].
  destruct (find_path_total Hsel Hrefl u inner g [u] (new_tree A g u) HT)
    as (g1 & t & v & o & E & F); [lia|].
  destruct F as [f1 f2 f3 f4 f5 f6 f7 f8 f9 f10 f11 (w & Hw & Hwo)].
  destruct (augment_total (bg_n A g) u (tfather t) (mat0 A g) H0) with
    (o := o) (fuel := inner) (g := g1) (v := v) (u := w)
    as (g2 & E2 & G1 & G2 & G3 & G4 & G5 & G6 & G7); auto.
  - intros x y H. apply f8 in H as [H1 H2]. auto.
  - intros x Hx. rewrite f3. reflexivity.
  - lia.
  - rewrite f3, f4. destruct Hm as [Hm1 Hm2]. split; [|split].
    + intros x y Hx. symmetry. apply Hm1.
    + intros y Hy. apply Hm1 in Hy. congruence.
    + exact Hm2.
  - exists g1, t, v, o, g2. rewrite f3 in G6, G7. rewrite f2 in G3.
    repeat (split; [first [assumption|constructor; eauto]|]). assumption.
Qed.

Lemma matching_loop_total (Hsel : nmin_select) (Hrefl : neqb_reflexive) inner :
  forall k fuel (g : bgraph) u,
  2 * bg_n A g < inner -> bg_n A g - u = k -> u <= bg_n A g -> 2 * k < fuel ->
  minv (bg_n A g) (mat0 A g) (mat1 A g) ->
  (forall x, x < u -> mat0 A g x <> None) ->
  exists g', matching_loop A fuel inner g u = Ok g' /\
    bg_n A g' = bg_n A g /\ bg_w A g' = bg_w A g /\
    minv (bg_n A g) (mat0 A g') (mat1 A g') /\
    (forall x, x < bg_n A g -> mat0 A g' x <> None).
Proof.
  induction k as [|k IH]; intros fuel g u Hin Hk Hu Hfuel Hm Hdone.
  - destruct fuel as [|fuel]; [lia|]. simpl.
    destruct (Nat.ltb_spec u (bg_n A g)); [lia|].
    exists g. split; [reflexivity|]. split; [reflexivity|]. split; [reflexivity|].
    split; [exact Hm|]. intros x Hx. apply Hdone. lia.
  - assert (Hlt : u < bg_n A g) by lia.
    assert (Hnext : forall fuel' (g' : bgraph), 2 * k < fuel' ->
      bg_n A g' = bg_n A g -> bg_w A g' = bg_w A g ->
      minv (bg_n A g) (mat0 A g') (mat1 A g') ->
      (forall x, x <= u -> mat0 A g' x <> None) ->
      exists g'', matching_loop A (S fuel') inner g' u = Ok g'' /\
        bg_n A g'' = bg_n A g /\ bg_w A g'' = bg_w A g /\
        minv (bg_n A g) (mat0 A g'') (mat1 A g'') /\
        (forall x, x < bg_n A g -> mat0 A g'' x <> None)).
    { intros fuel' g' Hf Hn Hw Hm' Hd. simpl. rewrite Hn.
      destruct (Nat.ltb_spec u (bg_n A g)); [|lia].
      destruct (mat0 A g' u) eqn:E; [|destruct (Hd u); auto].
      destruct (IH fuel' g' (S u)) as (g'' & E'' & H1 & H2 & H3 & H4);
        try (rewrite Hn); auto; try lia.
      - intros x Hx. apply Hd. lia.
      - rewrite Hn in *. rewrite Hw in *. exists g''. auto 10. }
    destruct fuel as [|[|fuel]]; try lia.
    destruct (mat0 A g u) as [v|] eqn:E0.
    + apply (Hnext (S fuel) g); auto; [lia|].
      intros x Hx. destruct (Nat.eq_dec x u) as [->|]; [congruence|].
      apply Hdone; lia.
    + destruct (search_step Hsel Hrefl inner g u Hin Hm Hlt E0)
        as (g1 & t & v & o & g2 & E1 & _ & E2 & Hm2 & Hn2 & Hw2 & _ & _ & Hd2 & _).
      remember (S fuel) as fuel1 eqn:Ef1.
      simpl. destruct (Nat.ltb_spec u (bg_n A g)); [|lia].
      rewrite E0, E1. simpl. rewrite E2. simpl. subst fuel1.
      apply Hnext; auto; [lia|].
      intros x Hx. apply Hd2. destruct (Nat.eq_dec x u) as [->|]; [auto|].
      left. apply Hdone; lia.
Qed.

(** ** Reading the permutation off a perfect matching. *)

Definition unopt (o : option nat) : nat := match o with Some v => v | None => 0 end.

Lemma perfect_matching_perm n m0 m1 :
  minv n m0 m1 -> (forall x, x < n -> m0 x <> None) ->
  map m0 (seq 0 n) = map Some (map (fun u => unopt (m0 u)) (seq 0 n)) /\
  Permutation (map (fun u => unopt (m0 u)) (seq 0 n)) (seq 0 n).
Proof.
  intros [Hm Hr] Hp. split.
  - rewrite map_map. apply map_ext_in. intros u Hu. apply in_seq in Hu.
    destruct (m0 u) eqn:E; [reflexivity|]. destruct (Hp u); auto; lia.
  - symmetry. apply NoDup_Permutation_bis.
    + apply seq_NoDup.
    + rewrite map_length, seq_length. auto.
    + intros v Hv.
      (* surjectivity by counting *)
      assert (Hnd : NoDup (map (fun u => unopt (m0 u)) (seq 0 n))).
      { assert (Hinj : forall u u', u < n -> u' < n -> unopt (m0 u) = unopt (m0 u') -> u = u').
        { intros u u' Hu Hu' E.
          destruct (m0 u) as [a|] eqn:Ea; [|destruct (Hp u Hu); auto].
          destruct (m0 u') as [b|] eqn:Eb; [|destruct (Hp u' Hu'); auto].
          simpl in E; subst b. apply Hm in Ea, Eb. congruence. }
        assert (Hg : forall l, NoDup l -> (forall x, In x l -> x < n) ->
                  NoDup (map (fun u => unopt (m0 u)) l)).
        { induction l as [|x l IHl]; simpl; intros Hl Hlt; constructor.
          - intros H. apply in_map_iff in H as (y & E & Hy).
            inversion Hl; subst. apply Hinj in E; auto. subst; contradiction.
          - inversion Hl; subst. apply IHl; auto. }
        apply Hg; [apply seq_NoDup|]. intros x Hx; apply in_seq in Hx; lia. }
      apply (NoDup_length_incl Hnd (l' := seq 0 n)); auto.
      * rewrite map_length, !seq_length. lia.
      * intros x Hx. apply in_map_iff in Hx as (u & <- & Hu).
        apply in_seq in Hu. apply in_seq.
        destruct (m0 u) as [w|] eqn:E; [|destruct (Hp u); auto; lia].
        apply Hr in E. simpl. lia.
Qed.

Lemma np_max_nonempty l : l <> [] -> exists x, np_max A l = Ok x.
Proof. destruct l; [congruence|]. intros _. eexists; reflexivity. Qed.

Lemma init_labels_ok n w : exists l0, init_labels A n w = Ok l0 /\
  forall u, u < n -> np_max A (map (w u) (seq 0 n)) = Ok (l0 u).
Proof.
  unfold init_labels.
  destruct (mapM (fun u => np_max A (map (w u) (seq 0 n))) (seq 0 n)) as [ls|e] eqn:E.
  - eexists; split; [reflexivity|]. intros u Hu.
    apply mapM_ok in E.
    assert (Hnth : forall l1 l2 k, Forall2 (fun x y => np_max A (map (w x) (seq 0 n)) = Ok y) l1 l2 ->
       k < length l1 -> np_max A (map (w (nth k l1 0)) (seq 0 n)) = Ok (nth k l2 (nzero A))).
    { clear. intros l1 l2 k H. revert k. induction H; intros k Hk; simpl in *; [lia|].
      destruct k; [assumption|]. apply IHForall2. lia. }
    specialize (Hnth _ _ u E). rewrite seq_length, seq_nth in Hnth by exact Hu.
    apply Hnth; exact Hu.
  - exfalso.
    assert (Hall : forall l, (forall u, In u l -> u < n) ->
       exists ys, mapM (fun u => np_max A (map (w u) (seq 0 n))) l = Ok ys).
    { induction l as [|u l IH]; intros Hl; simpl; [eauto|].
      destruct (np_max_nonempty (map (w u) (seq 0 n))) as [x Hx].
      { intros H. apply map_eq_nil in H. specialize (Hl u (or_introl eq_refl)).
        destruct n; [lia|discriminate]. }
      rewrite Hx. simpl. destruct IH as [ys Hys]; [intros; apply Hl; right; auto|].
      rewrite Hys. simpl. eauto. }
    destruct (Hall (seq 0 n)) as [ys Hys]; [intros u Hu; apply in_seq in Hu; lia|].
    congruence.
Qed.

Lemma max_weight_matching_structure (Hsel : nmin_select) (Hrefl : neqb_reflexive)
    fuel n w :
  2 * n < fuel ->
  exists s, max_weight_matching A fuel n w = Ok (map Some s) /\
            Permutation s (seq 0 n).
Proof.
  intros Hfuel. unfold max_weight_matching.
  destruct (init_labels_ok n w) as (l0 & E & _). rewrite E. simpl.
  destruct (matching_loop_total Hsel Hrefl fuel n fuel
     (BG A n w l0 (fun _ => nzero A) (fun _ => None) (fun _ => None)) 0)
    as (g' & E' & H1 & H2 & H3 & H4); simpl; try lia.
  - split; [split; discriminate|discriminate].
  - rewrite E'. simpl. simpl in *.
    destruct (perfect_matching_perm n _ _ H3 H4) as [Hs Hp].
    rewrite Hs. eexists; split; [reflexivity|exact Hp].
Qed.

Lemma np_max_entries (m : matrix A) : all_entries m <> [] ->
  exists x, np_max A (all_entries m) = Ok x.
Proof. apply np_max_nonempty. Qed.

Lemma all_entries_nonempty (m : matrix A) :
  wf_matrix m -> 0 < nrows m -> 0 < mcols m -> all_entries m <> [].
Proof.
  unfold wf_matrix, nrows, all_entries. intros Hw Hr Hc.
  destruct (mrows m) as [|r rs]; simpl in *; [lia|].
  inversion Hw; subst. destruct r; simpl in *; [lia|discriminate].
Qed.

Lemma square_structure (Hsel : nmin_select) (Hrefl : neqb_reflexive) fuel (m : matrix A) :
  wf_matrix m -> 0 < nrows m -> 0 < mcols m ->
  2 * nrows m < fuel ->
  exists s, min_weight_perm_square A fuel m = Ok (map Some s) /\
            Permutation s (seq 0 (nrows m)).
Proof.
  intros Hw Hr Hc Hf. unfold min_weight_perm_square.
  destruct (np_max_entries m (all_entries_nonempty m Hw Hr Hc)) as [x Hx].
  rewrite Hx. simpl. apply max_weight_matching_structure; auto.
Qed.

(** ** NaN: if no comparison for equality ever succeeds on the slacks, the
    search never returns. *)

End Structure.
