(** * Proofs about associate_to_window. *)

From Coq Require Import List ZArith QArith Bool Lia Permutation.
Import ListNotations.
From Verif Require Import Py Py_proof ListUtil window_model window_spec window_proof window_concat
  window_slider pairing_model pairing_spec pairing_proof framing_model framing_spec.
Open Scope py_scope.

(** ** Lists. *)
Lemma NoDup_concat {X} (ls : list (list X)) :
  (forall k l, nth_error ls k = Some l -> NoDup l) ->
  (forall k k' l l' x, nth_error ls k = Some l -> nth_error ls k' = Some l' ->
     In x l -> In x l' -> k = k') ->
  NoDup (concat ls).
Proof.
  induction ls as [|l ls IH]; intros H1 H2; cbn; [constructor|].
  apply NoDup_app_intro.
  - apply (H1 0%nat l). reflexivity.
  - apply IH.
    + intros k l' Hk. apply (H1 (S k) l' Hk).
    + intros k k' a b x Ha Hb Hx Hy. specialize (H2 (S k) (S k') a b x Ha Hb Hx Hy). lia.
  - intros x Hx Hc. apply in_concat in Hc as (m & Hm & Hxm). apply In_nth_error in Hm as (k & Hk).
    specialize (H2 0%nat (S k) l m x eq_refl Hk Hx Hxm). discriminate.
Qed.

Lemma list_set_split {X} (l1 : list X) x l2 y : list_set (l1 ++ x :: l2) (length l1) y = l1 ++ y :: l2.
Proof. induction l1; cbn; auto. f_equal. auto. Qed.

Lemma concat_take {X} (ls : list (list X)) k b e : nth_error ls k = Some (b ++ [e]) ->
  Permutation (concat ls) (e :: concat (list_set ls k b)).
Proof.
  intro H. apply nth_error_split in H as (l1 & l2 & -> & <-). rewrite list_set_split.
  rewrite !concat_app. cbn. rewrite <- !app_assoc. cbn.
  etransitivity; [|symmetry; apply Permutation_middle].
  apply Permutation_app_head. symmetry. apply Permutation_middle.
Qed.

Lemma map_list_set {X Y} (f : X -> Y) l k x : map f (list_set l k x) = list_set (map f l) k (f x).
Proof. revert k. induction l; intros [|k]; cbn; auto. f_equal. auto. Qed.

(** ** Groups. *)
Lemma in_group_unique n k k' x : (k < n)%nat -> (k' < n)%nat ->
  in_group n k x = true -> in_group n k' x = true -> k = k'.
Proof.
  unfold in_group. intros L L' H H'. apply orb_true_iff in H, H'. rewrite !Z.eqb_eq in *. lia.
Qed.
Lemma in_group_same n k x y : (k < n)%nat -> in_group n k x = true -> in_group n k y = true -> same_group n x y.
Proof.
  unfold in_group, same_group. intros L H H'. apply orb_true_iff in H, H'. rewrite !Z.eqb_eq in *. lia.
Qed.
Lemma norm_in_group n x k : norm_index n x = Ok k ->
  (k < n)%nat /\ forall k', (k' < n)%nat -> in_group n k' x = (k' =? k)%nat.
Proof. intro H. apply norm_index_sel in H. exact H. Qed.

Section Framing.
Context {I A P : Type}.
Notation item := (nat * (I * Z))%type.
Definition idx (e : item) : I := fst (snd e).
Definition lab (e : item) : Z := snd (snd e).

Definition demand n (asked : list Z) (TB : list (list item)) : Prop :=
  (forall x, In x asked -> (- Z.of_nat n <= x < Z.of_nat n)%Z) /\
  (forall k b, nth_error TB k = Some b -> (group_size n k asked <= length b)%nat).

Definition grouped n (items : list item) (TB : list (list item)) : Prop :=
  length TB = n /\
  forall k b e, nth_error TB k = Some b -> In e b -> In e items /\ in_group n k (lab e) = true.

Lemma group_size_cons n k x l :
  group_size n k (x :: l) = ((if in_group n k x then 1 else 0) + group_size n k l)%nat.
Proof. unfold group_size. cbn. destruct (in_group n k x); reflexivity. Qed.

(** pop_from on grouped items. *)
Lemma pop_cases n items TB x : grouped n items TB ->
  (exists k b e, nth_error TB k = Some (b ++ [e]) /\ in_group n k x = true /\
     (- Z.of_nat n <= x < Z.of_nat n)%Z /\
     pop_from (map (map idx) TB) x = Ok (idx e, map (map idx) (list_set TB k b)) /\
     grouped n items (list_set TB k b)) \/
  (pop_from (map (map idx) TB) x = Err IndexError /\
   ((~ (- Z.of_nat n <= x < Z.of_nat n)%Z) \/
    exists k, nth_error TB k = Some [] /\ in_group n k x = true)).
Proof.
  intros [L G]. unfold pop_from. rewrite map_length, L.
  destruct (norm_index n x) as [k|e] eqn:E; cbn [bind].
  - destruct (norm_in_group n x k E) as [Hk Hg]. assert (Hx := Hg k Hk). rewrite Nat.eqb_refl in Hx.
    assert (Rg : (- Z.of_nat n <= x < Z.of_nat n)%Z) by (apply norm_index_iff; eauto).
    rewrite nth_error_map. destruct (nth_error TB k) as [b|] eqn:Eb.
    2:{ exfalso. apply nth_error_None in Eb. lia. }
    cbn [option_map]. destruct b as [|e0 b0] using rev_ind.
    + right. split; auto. right. eauto.
    + clear IHb0. left. exists k, b0, e0. rewrite map_app, rev_app_distr. cbn.
      split; auto. split; auto. split; auto. rewrite removelast_last.
      split; [rewrite map_list_set; reflexivity|]. split; [rewrite list_set_length; auto|].
      intros k' b' e' Hk' He'. rewrite nth_error_list_set in Hk'.
      destruct (Nat.eqb_spec k' k) as [->|Ne].
      * destruct (k <? length TB)%nat; [|discriminate]. injection Hk' as <-.
        apply (G k (b0 ++ [e0])); auto. apply in_or_app. auto.
      * apply (G k' b'); auto.
  - right. assert (e = IndexError) by (eapply norm_index_err; eauto). subst e. split; auto. left.
    intro K. apply norm_index_iff in K as (k & K). congruence.
Qed.

Variable labels : list (leaf Z A P).
Definition looked_up (f : leaf I A P) (x : Z) : Prop :=
  exists b w, f = LB b /\ get_subwindow_at labels (b_start b) = Ok (LB w) /\ b_obj w = Some x.

Lemma loop_cases n items : forall fs asked TB used,
  Forall2 looked_up fs asked -> grouped n items TB -> NoDup (used ++ concat TB) ->
  (demand n asked TB /\ exists gs es, frame_loop labels (map (map idx) TB) fs = Ok gs /\
     length es = length fs /\ length gs = length fs /\ NoDup (used ++ es) /\
     forall k b x, nth_error fs k = Some (LB b) -> nth_error asked k = Some x ->
       exists e, nth_error es k = Some e /\ In e items /\ same_group n x (lab e) /\
         nth_error gs k = Some (LB (Basic (b_start b) (b_end b) (Some (idx e))))) \/
  (~ demand n asked TB /\ frame_loop labels (map (map idx) TB) fs = Err ValueError).
Proof.
  intros fs asked TB used F. revert TB used.
  induction F as [|f x fs asked (b & w & -> & Hw & Hx) F IH]; intros TB used G ND.
  - left. split; [split; [intros ? []|intros; cbn; lia]|]. exists [], []. cbn. repeat split; auto.
    + rewrite app_nil_r. clear -ND. induction used as [|u used IHu]; [constructor|].
      cbn in ND. inversion ND; subst. constructor; auto. intro Hu. apply H1. apply in_or_app. auto.
    + intros [|k]; discriminate.
  - cbn [frame_loop]. unfold frame_step. change (w_start (LB b)) with (b_start b). rewrite Hw. cbn [bind get_obj]. rewrite Hx. cbn [bind].
    destruct (pop_cases n items TB x G) as [(k & b' & e & Hk & Hg & Rg & -> & G')|[-> Bad]].
    + assert (Perm := concat_take TB k b' e Hk).
      assert (Ke : (k < n)%nat) by (destruct G as [<- _]; apply nth_error_Some; congruence).
      assert (ND' : NoDup ((used ++ [e]) ++ concat (list_set TB k b'))).
      { rewrite <- app_assoc. cbn. eapply Permutation_NoDup; [|exact ND]. apply Permutation_app_head. auto. }
      cbn [bind]. destruct (IH (list_set TB k b') (used ++ [e]) G' ND')
        as [[D (gs & es & Hl & L1 & L2 & N & Sp)]|[D Hl]]; rewrite Hl; cbn [bind].
      * left. split.
        -- destruct D as [D1 D2]. split.
           ++ intros y [<-|Hy]; auto.
           ++ intros k' c Hc. rewrite group_size_cons.
              assert (Hk' : (k' < n)%nat) by (destruct G as [<- _]; apply nth_error_Some; congruence).
              destruct (Nat.eq_dec k' k) as [->|Ne].
              ** assert (c = b' ++ [e]) by congruence. subst c. rewrite Hg, app_length. cbn.
                 assert (nth_error (list_set TB k b') k = Some b').
                 { rewrite nth_error_list_set, Nat.eqb_refl.
                   assert (k < length TB)%nat by (apply nth_error_Some; congruence).
                   destruct (Nat.ltb_spec k (length TB)); auto; lia. }
                 specialize (D2 k b' H). lia.
              ** destruct (in_group n k' x) eqn:E'; [exfalso; apply Ne; eapply in_group_unique; eauto|].
                 apply (D2 k' c). rewrite nth_error_list_set. destruct (Nat.eqb_spec k' k); [contradiction|auto].
        -- eexists (_ :: gs), (e :: es). split; [reflexivity|]. cbn. split; auto. split; auto.
           split; [rewrite <- app_assoc in N; exact N|].
           intros [|m] b0 y; cbn.
           ++ intros [= <-] [= <-]. exists e. split; auto. 
              destruct G as [_ G]. destruct (G k _ e Hk ltac:(apply in_or_app; right; left; reflexivity)) as [G1 G2].
              split; auto. split; auto. eapply in_group_same; eauto.
           ++ apply Sp.
      * right. split; auto. intros [D1 D2]. apply D. split.
        -- intros y Hy. apply D1. right. auto.
        -- intros k' c Hc. rewrite nth_error_list_set in Hc.
           destruct (Nat.eqb_spec k' k) as [->|Ne].
           ++ destruct (k <? length TB)%nat; [|discriminate]. injection Hc as <-.
              specialize (D2 k _ Hk). rewrite group_size_cons, Hg, app_length in D2. cbn in D2. lia.
           ++ specialize (D2 k' c Hc). rewrite group_size_cons in D2. lia.
    + right. split; [|reflexivity]. intros [D1 D2]. destruct Bad as [Bad|(k & Hk & Hg)].
      * apply Bad. apply D1. left. auto.
      * specialize (D2 k [] Hk). rewrite group_size_cons, Hg in D2. cbn in D2. lia.
Qed.

(** ** The buckets. *)
Lemma selected_items n k (pairs : list (I * Z)) :
  selected n k pairs = map idx (filter (fun e => in_group n k (lab e)) (enumerate pairs)).
Proof.
  unfold selected, enumerate. generalize 0%nat. induction pairs as [|[i x] ps IH]; intro m; cbn; auto.
  unfold lab at 1. cbn. unfold in_group at 1. destruct (_ || _)%bool; cbn; rewrite (IH (S m)); reflexivity.
Qed.

Lemma enumerate_nth {X} (l : list X) p x : In (p, x) (enumerate l) <-> nth_error l p = Some x.
Proof.
  split; intro H.
  - apply In_nth_error in H as (k & Hk). rewrite nth_error_enumerate in Hk.
    destruct (nth_error l k) eqn:E; [|discriminate]. congruence.
  - apply nth_error_In with (n := p). rewrite nth_error_enumerate, H. reflexivity.
Qed.
Lemma enumerate_NoDup {X} (l : list X) : NoDup (enumerate l).
Proof.
  unfold enumerate. generalize 0%nat. induction l as [|x l IH]; intro m; cbn; [constructor|].
  constructor; auto. intro H. apply in_combine_l in H. apply in_seq in H. lia.
Qed.

Lemma group_size_items n k (pairs : list (I * Z)) :
  length (filter (fun e => in_group n k (lab e)) (enumerate pairs)) = group_size n k (map snd pairs).
Proof.
  unfold group_size, enumerate. generalize 0%nat. induction pairs as [|[i x] ps IH]; intro m; auto.
  specialize (IH (S m)). cbn. change (lab (m, (i, x))) with x. destruct (in_group n k x); cbn; rewrite <- IH; reflexivity.
Qed.

Lemma shuffled_groups n (pairs : list (I * Z)) buckets (shuf : nat -> list I -> list I) :
  (forall k l, Permutation (shuf k l) l) -> length buckets = n ->
  (forall k, (k < n)%nat -> nth_error buckets k = Some (selected n k pairs)) ->
  exists TB, map (fun p => shuf (fst p) (snd p)) (enumerate buckets) = map (map idx) TB /\
    grouped n (enumerate pairs) TB /\ NoDup (concat TB) /\
    (forall k b, nth_error TB k = Some b -> length b = group_size n k (map snd pairs)).
Proof.
  intros Sh L B.
  set (items := enumerate pairs).
  assert (T : forall m, (m <= n)%nat -> exists TB, length TB = m /\
     (forall k, (k < m)%nat -> exists b, nth_error TB k = Some b /\
        Permutation b (filter (fun e => in_group n k (lab e)) items) /\
        shuf k (selected n k pairs) = map idx b)).
  { induction m as [|m IH]; intro Hm.
    - exists []. split; auto. intros; lia.
    - destruct IH as (TB & LT & HT); [lia|].
      assert (Pm := Sh m (selected n m pairs)). rewrite (selected_items n m pairs) in Pm at 2.
      apply Permutation_map_inv in Pm as (b & Hb & Pb).
      exists (TB ++ [b]). split; [rewrite app_length; cbn; lia|].
      intros k Hk. destruct (Nat.eq_dec k m) as [->|Ne].
      + exists b. rewrite nth_error_app2 by lia. rewrite LT, Nat.sub_diag. cbn.
        split; auto. split; auto. symmetry. auto.
      + destruct (HT k) as (c & Hc & R); [lia|]. exists c. rewrite nth_error_app1 by lia. auto. }
  destruct (T n (le_n n)) as (TB & LT & HT). clear T.
  assert (HT' : forall k b, nth_error TB k = Some b ->
     Permutation b (filter (fun e => in_group n k (lab e)) items) /\ shuf k (selected n k pairs) = map idx b).
  { intros k b Hk. assert (k < n)%nat by (rewrite <- LT; apply nth_error_Some; congruence).
    destruct (HT k H) as (c & Hc & R). assert (c = b) by congruence. subst c. auto. }
  exists TB. split; [|split; [|split]].
  - apply nth_error_ext. intro k. rewrite !nth_error_map, nth_error_enumerate.
    destruct (nth_error TB k) as [b|] eqn:Eb.
    + assert (k < n)%nat by (rewrite <- LT; apply nth_error_Some; congruence).
      rewrite B by auto. cbn. f_equal. apply HT'. auto.
    + apply nth_error_None in Eb. assert (nth_error buckets k = None) as -> by (apply nth_error_None; lia).
      reflexivity.
  - split; auto. intros k b e Hk He. destruct (HT' k b Hk) as [Pm _].
    apply (Permutation_in _ Pm) in He. apply filter_In in He. exact He.
  - apply NoDup_concat.
    + intros k b Hk. destruct (HT' k b Hk) as [Pm _]. eapply Permutation_NoDup; [symmetry; exact Pm|].
      apply NoDup_filter. apply enumerate_NoDup.
    + intros k k' b b' e Hk Hk' He He'. destruct (HT' k b Hk) as [Pm _]. destruct (HT' k' b' Hk') as [Pm' _].
      apply (Permutation_in _ Pm) in He. apply (Permutation_in _ Pm') in He'.
      apply filter_In in He, He'. eapply (in_group_unique n); try apply He; try apply He';
      rewrite <- LT; apply nth_error_Some; congruence.
  - intros k b Hk. destruct (HT' k b Hk) as [Pm _]. rewrite (Permutation_length Pm).
    apply group_size_items.
Qed.
End Framing.

(** ** The whole function. *)
Section Whole.
Context {I A P : Type}.
Local Open Scope Q_scope.

Lemma frames_looked_up (bs : list (basic Z)) s e (fs : list (basic I)) :
  chained TOL (map bspan bs) -> Forall (fun b => b_obj b <> None) bs ->
  @concat_start Z A P (map LB bs) = Ok s -> @concat_end Z A P (map LB bs) = Ok e ->
  Forall (fun f => within s e (b_start f)) fs ->
  exists asked, Forall2 (looked_up (map LB bs)) (map (@LB I A P) fs) asked.
Proof.
  intros C O Hs He F. induction F as [|f fs Wf F (asked & IH)]; [exists []; constructor|].
  destruct (@lookup_spec Z A P (map LB bs) (b_start f) s e) as (i & w & _ & Hg & Hi & _); auto.
  { rewrite map_map. exact C. }
  rewrite nth_error_map in Hi. destruct (nth_error bs i) as [b|] eqn:Eb; [|discriminate]. cbn in Hi. injection Hi as <-.
  destruct (b_obj b) as [x|] eqn:Ex.
  - exists (x :: asked). constructor; auto. exists f, b. auto.
  - exfalso. rewrite Forall_forall in O. apply (O b); auto. eapply nth_error_In; eauto.
Qed.

Lemma associate_to_window_cases (shuf : nat -> list I -> list I) (bs : list (basic Z)) s e
    (frame_index : list I) (frame_labels : list Z) rate :
  (forall k l, Permutation (shuf k l) l) ->
  chained TOL (map bspan bs) -> Forall (fun b => b_obj b <> None) bs ->
  @concat_start Z A P (map LB bs) = Ok s -> @concat_end Z A P (map LB bs) = Ok e ->
  0 < rate -> TOL * rate <= 1 # 2 -> s + TOL <= e ->
  exists n, (exists d, NoDup d /\ (forall x, In x d <-> In x frame_labels) /\ n = length d) /\
  let pairs := combine frame_index frame_labels in
  let offered := map snd pairs in
  ((exists x, In x offered /\ ~ (- Z.of_nat n <= x < Z.of_nat n)%Z) /\
   @associate_to_window I A P shuf (map LB bs) frame_index frame_labels rate = Err IndexError) \/
  ((forall x, In x offered -> (- Z.of_nat n <= x < Z.of_nat n)%Z) /\
   exists fs asked, concat_of_frames s e rate = Ok (map (@LB I A P) fs) /\
     tiles s (map bspan fs) e /\
     Forall2 (fun f x => exists w, @get_subwindow_at Z A P (map LB bs) (b_start f) = Ok (LB w) /\ b_obj w = Some x) fs asked /\
     ((enough n offered asked /\
       exists gs ps, @associate_to_window I A P shuf (map LB bs) frame_index frame_labels rate = Ok (map LB gs) /\
         length gs = length fs /\ length ps = length fs /\ NoDup ps /\
         forall k f x, nth_error fs k = Some f -> nth_error asked k = Some x ->
           exists p i y, nth_error ps k = Some p /\
             nth_error frame_index p = Some i /\ nth_error frame_labels p = Some y /\
             same_group n x y /\ nth_error gs k = Some (Basic (b_start f) (b_end f) (Some i))) \/
      (~ enough n offered asked /\
       @associate_to_window I A P shuf (map LB bs) frame_index frame_labels rate = Err ValueError))).
Proof.
  intros Sh C O Hs He R T L.
  destruct (organize_default frame_labels frame_index) as (n & En & Hd).
  exists n. split; auto. cbv zeta.
  unfold associate_to_window. rewrite En.
  set (pairs := combine frame_index frame_labels).
  assert (Dec : (forall x, In x (map snd pairs) -> (- Z.of_nat n <= x < Z.of_nat n)%Z) \/
                (exists x, In x (map snd pairs) /\ ~ (- Z.of_nat n <= x < Z.of_nat n)%Z)).
  { generalize (map snd pairs). induction l as [|x l [IH|(y & Hy & Ny)]].
    - left. intros ? [].
    - destruct (Z_le_dec (- Z.of_nat n) x) as [K|K]; [destruct (Z_lt_dec x (Z.of_nat n)) as [K'|K']|].
      + left. intros y [<-|Hy]; auto.
      + right. exists x. split; [left; auto|lia].
      + right. exists x. split; [left; auto|lia].
    - right. exists y. split; [right; auto|auto]. }
  destruct Dec as [Dec|Dec].
  2:{ left. split; auto. destruct Dec as (x & Hx & Nx). apply in_map_iff in Hx as ([i y] & E & Hin). cbn in E. subst y.
      rewrite organize_err by eauto. reflexivity. }
  right. split; auto.
  destruct (organize_ok frame_labels n frame_index) as (buckets & -> & LB' & HB).
  { intros i x Hin. apply Dec. apply in_map_iff. exists (i, x). auto. }
  cbn [bind]. rewrite Hs, He. cbn [bind].
  destruct (@frames_ok I A P s e rate R T L) as (fs & Hf & Nf & Tf & _).
  unfold leaves in Hf. rewrite Hf. cbn [bind]. exists fs.
  assert (W : Forall (fun f => within s e (b_start f)) fs).
  { apply Forall_forall. intros f Hin. apply In_nth_error in Hin as (k & Hk).
    assert (Hk' : nth_error (map (@LB I A P) fs) k = Some (LB f)) by (rewrite nth_error_map, Hk; auto).
    assert (Tf' : tiles s (map span (map (@LB I A P) fs)) e) by (rewrite map_map; exact Tf).
    destruct (tiles_ends_mono s _ e k k _ _ Tf' (le_n k) Hk' Hk') as (K1 & K2 & _ & K4 & _).
    cbn in K1, K2, K4. split; auto. eapply Qle_trans; eauto. }
  destruct (frames_looked_up bs s e fs C O Hs He W) as (asked & Ask). exists asked.
  split; auto. split; auto.
  split.
  { clear -Ask. revert asked Ask. induction fs as [|f fs IH]; intros asked H; inversion H; subst; constructor; auto.
    destruct H2 as (b & w & E & G & X). injection E as <-. eauto. }
  destruct (shuffled_groups n pairs buckets shuf Sh LB' HB) as (TB & -> & G & ND & Len).
  assert (Dm : demand n asked TB <-> enough n (map snd pairs) asked).
  { unfold demand, enough. split; intros [D1 D2]; split; auto.
    - intros k Hk. destruct (nth_error TB k) as [b|] eqn:Eb; [|apply nth_error_None in Eb; destruct G; lia].
      rewrite <- (Len k b Eb). auto.
    - intros k b Hb. rewrite (Len k b Hb). apply D2. destruct G as [<- _]. apply nth_error_Some. congruence. }
  destruct (loop_cases (map LB bs) n (enumerate pairs) (map LB fs) asked TB [] Ask G ND)
    as [[D (gs & es & Hl & L1 & L2 & N & Sp)]|[D Hl]]; rewrite Hl.
  - left. split; [apply Dm; auto|]. rewrite map_length in *.
    assert (La : length asked = length fs).
    { apply Forall2_len in Ask. rewrite map_length in Ask. auto. }
    assert (Gs : exists gs', gs = map LB gs' /\ length gs' = length fs /\ 
       forall k f x, nth_error fs k = Some f -> nth_error asked k = Some x -> exists e0,
         nth_error es k = Some e0 /\ In e0 (enumerate pairs) /\ same_group n x (lab e0) /\
         nth_error gs' k = Some (Basic (b_start f) (b_end f) (Some (idx e0)))).
    { assert (Sp' : forall k f x, nth_error fs k = Some f -> nth_error asked k = Some x -> exists e0,
         nth_error es k = Some e0 /\ In e0 (enumerate pairs) /\ same_group n x (lab e0) /\
         nth_error gs k = Some (LB (Basic (b_start f) (b_end f) (Some (idx e0))))).
      { intros k f x Hk Hx. apply (Sp k f x); auto. rewrite nth_error_map, Hk. auto. }
      assert (AllB : exists gs', gs = map LB gs').
      { assert (Q : forall k g, nth_error gs k = Some g -> exists b, g = LB b).
        { intros k g Hg. assert (k < length gs)%nat by (apply nth_error_Some; congruence).
          destruct (nth_error fs k) as [f|] eqn:Ef; [|apply nth_error_None in Ef; lia].
          destruct (nth_error asked k) as [x|] eqn:Ex; [|apply nth_error_None in Ex; lia].
          destruct (Sp' k f x Ef Ex) as (e0 & _ & _ & _ & K). rewrite Hg in K. injection K as ->. eauto. }
        clear -Q. induction gs as [|g gs IH]; [exists []; auto|].
        destruct (Q 0%nat g eq_refl) as (b & ->). destruct IH as (gs' & ->); [intros k; apply (Q (S k))|].
        exists (b :: gs'). auto. }
      destruct AllB as (gs' & ->). exists gs'. rewrite map_length in L2. split; auto. split; auto.
      intros k f x Hk Hx. destruct (Sp' k f x Hk Hx) as (e0 & K1 & K2 & K3 & K4). exists e0.
      rewrite nth_error_map in K4. destruct (nth_error gs' k); [|discriminate]. cbn in K4.
      injection K4 as ->. auto. }
    destruct Gs as (gs' & -> & Lg & Sp').
    exists gs', (map fst es). rewrite map_length. split; auto. split; auto. split; auto.
    assert (Items : forall e0, In e0 es -> In e0 (enumerate pairs)).
    { intros e0 Hin. apply In_nth_error in Hin as (k & Hk). assert (k < length es)%nat by (apply nth_error_Some; congruence).
      destruct (nth_error fs k) as [f|] eqn:Ef; [|apply nth_error_None in Ef; lia].
      destruct (nth_error asked k) as [x|] eqn:Ex; [|apply nth_error_None in Ex; lia].
      destruct (Sp' k f x Ef Ex) as (e1 & K1 & K2 & _). congruence. }
    split.
    { apply NoDup_map_inj_in; auto. intros [p a] [q b] H1 H2 E. cbn in E. subst q.
      apply Items in H1, H2. apply enumerate_nth in H1, H2. congruence. }
    intros k f x Hk Hx. destruct (Sp' k f x Hk Hx) as ([p [i y]] & K1 & K2 & K3 & K4).
    exists p, i, y. rewrite nth_error_map, K1. apply enumerate_nth in K2.
    split; auto.
    assert (K : nth_error frame_index p = Some i /\ nth_error frame_labels p = Some y).
    { unfold pairs in K2. clear -K2. revert frame_labels p K2. induction frame_index as [|a l IH]; intros [|c m] [|p]; cbn; try discriminate.
      - intros [= -> ->]. auto.
      - apply IH. }
    destruct K. auto.
  - right. split; auto. intro K. apply D. apply Dm. auto.
Qed.
End Whole.

Section Final.
Context {I A P : Type}.
Local Open Scope Q_scope.
Definition label_at (bs : list (basic Z)) (t : Q) (x : Z) : Prop :=
  exists w, @get_subwindow_at Z A P (map LB bs) t = Ok (LB w) /\ b_obj w = Some x.

Lemma framing_success (shuf : nat -> list I -> list I) (bs : list (basic Z)) s e
    (frame_index : list I) (frame_labels : list Z) rate ws :
  (forall k l, Permutation (shuf k l) l) ->
  chained TOL (map bspan bs) -> Forall (fun b => b_obj b <> None) bs ->
  @concat_start Z A P (map LB bs) = Ok s -> @concat_end Z A P (map LB bs) = Ok e ->
  0 < rate -> TOL * rate <= 1 # 2 -> s + TOL <= e ->
  @associate_to_window I A P shuf (map LB bs) frame_index frame_labels rate = Ok ws ->
  exists gs fs ps, ws = map LB gs /\ @concat_of_frames I A P s e rate = Ok (map LB fs) /\
    map bspan gs = map bspan fs /\ tiles s (map bspan gs) e /\
    length ps = length gs /\ NoDup ps /\
    forall k g, nth_error gs k = Some g ->
      exists p i x y, nth_error ps k = Some p /\
        nth_error frame_index p = Some i /\ nth_error frame_labels p = Some y /\
        b_obj g = Some i /\ label_at bs (b_start g) x /\
        (forall n d, NoDup d -> (forall z, In z d <-> In z frame_labels) -> n = length d -> same_group n x y) /\
        ((0 <= x)%Z -> (0 <= y)%Z -> x = y).
Proof.
  intros Sh C O Hs He R T L Hok.
  destruct (associate_to_window_cases shuf bs s e frame_index frame_labels rate Sh C O Hs He R T L)
    as (n & (d & Nd & Hd & ->) & [[_ K]|[Off (fs & asked & Hf & Tf & Ask & [[En (gs & ps & K & Lg & Lp & Np & Sp)]|[_ K]])]]);
    rewrite Hok in K; try discriminate.
  injection K as ->.
  assert (La := Forall2_len _ _ _ Ask).
  assert (All : forall k g, nth_error gs k = Some g -> exists f x p i y,
     nth_error fs k = Some f /\ nth_error asked k = Some x /\ nth_error ps k = Some p /\
     nth_error frame_index p = Some i /\ nth_error frame_labels p = Some y /\ same_group (length d) x y /\
     g = Basic (b_start f) (b_end f) (Some i)).
  { intros k g Hg. assert (k < length gs)%nat by (apply nth_error_Some; congruence).
    destruct (nth_error fs k) as [f|] eqn:Ef; [|apply nth_error_None in Ef; lia].
    destruct (nth_error asked k) as [x|] eqn:Ex; [|apply nth_error_None in Ex; lia].
    destruct (Sp k f x Ef Ex) as (p & i & y & K1 & K2 & K3 & K4 & K5). exists f, x, p, i, y.
    repeat (split; auto). congruence. }
  assert (Sp2 : map bspan gs = map bspan fs).
  { apply nth_error_ext. intro k. rewrite !nth_error_map. destruct (nth_error gs k) as [g|] eqn:Eg.
    - destruct (All k g Eg) as (f & x & p & i & y & K1 & _ & _ & _ & _ & _ & ->). rewrite K1. reflexivity.
    - apply nth_error_None in Eg. assert (nth_error fs k = None) as -> by (apply nth_error_None; lia). reflexivity. }
  exists gs, fs, ps. split; auto. split; auto. split; auto. split; [rewrite Sp2; auto|].
  split; [lia|]. split; auto.
  intros k g Hg. destruct (All k g Hg) as (f & x & p & i & y & K1 & K2 & K3 & K4 & K5 & K6 & ->).
  exists p, i, x, y. repeat (split; auto).
  - destruct (Forall2_nth _ _ _ Ask k f K1) as (x' & Hx' & w & Hw & Ow).
    assert (x' = x) by congruence. subst x'. exists w. auto.
  - intros n d' N' H' ->. replace (length d') with (length d); auto.
    apply Nat.le_antisymm; apply NoDup_incl_length; auto; intros z Hz.
    + apply H'. apply Hd. auto.
    + apply Hd. apply H'. auto.
  - intros X Y. destruct En as [En1 _].
    assert (Rx := En1 x (nth_error_In _ _ K2)).
    assert (Ry : (- Z.of_nat (length d) <= y < Z.of_nat (length d))%Z).
    { apply Off. apply in_map_iff. exists (i, y). split; auto. clear -K4 K5.
      revert frame_labels p K4 K5. induction frame_index as [|a l IH]; intros [|c m] [|p]; cbn; try discriminate.
      - intros [= ->] [= ->]. auto.
      - intros. right. eauto. }
    unfold same_group in K6. lia.
Qed.

Lemma framing_decides (shuf : nat -> list I -> list I) (bs : list (basic Z)) s e
    (frame_index : list I) (frame_labels : list Z) rate n d :
  (forall k l, Permutation (shuf k l) l) ->
  chained TOL (map bspan bs) -> Forall (fun b => b_obj b <> None) bs ->
  @concat_start Z A P (map LB bs) = Ok s -> @concat_end Z A P (map LB bs) = Ok e ->
  0 < rate -> TOL * rate <= 1 # 2 -> s + TOL <= e ->
  NoDup d -> (forall z, In z d <-> In z frame_labels) -> n = length d ->
  (forall x, In x (map snd (combine frame_index frame_labels)) -> (- Z.of_nat n <= x < Z.of_nat n)%Z) ->
  exists fs asked, @concat_of_frames I A P s e rate = Ok (map LB fs) /\
    Forall2 (fun f x => label_at bs (b_start f) x) fs asked /\
    let r := @associate_to_window I A P shuf (map LB bs) frame_index frame_labels rate in
    (enough n (map snd (combine frame_index frame_labels)) asked -> exists ws, r = Ok ws) /\
    (~ enough n (map snd (combine frame_index frame_labels)) asked -> r = Err ValueError).
Proof.
  intros Sh C O Hs He R T L Nd Hd -> Off.
  destruct (associate_to_window_cases shuf bs s e frame_index frame_labels rate Sh C O Hs He R T L)
    as (n & (d' & Nd' & Hd' & ->) & Cases).
  assert (Len : length d' = length d).
  { apply Nat.le_antisymm; apply NoDup_incl_length; auto; intros z Hz.
    + apply Hd. apply Hd'. auto.
    + apply Hd'. apply Hd. auto. }
  rewrite Len in Cases. destruct Cases as [[(x & Hx & Nx) _]|[_ (fs & asked & Hf & Tf & Ask & Cases)]].
  { exfalso. auto. }
  exists fs, asked. split; auto. split; auto. cbv zeta.
  destruct Cases as [[En (gs & ps & K & _)]|[En K]]; split; intro H; try contradiction; eauto.
Qed.

Lemma framing_bad_label (shuf : nat -> list I -> list I) (labels : list (leaf Z A P))
    (frame_index : list I) (frame_labels : list Z) rate n d x :
  NoDup d -> (forall z, In z d <-> In z frame_labels) -> n = length d ->
  In x (map snd (combine frame_index frame_labels)) -> ~ (- Z.of_nat n <= x < Z.of_nat n)%Z ->
  associate_to_window shuf labels frame_index frame_labels rate = Err IndexError.
Proof.
  intros Nd Hd -> Hx Nx.
  destruct (organize_default frame_labels frame_index) as (n & En & d' & Nd' & Hd' & ->).
  assert (Len : length d' = length d).
  { apply Nat.le_antisymm; apply NoDup_incl_length; auto; intros z Hz.
    + apply Hd. apply Hd'. auto.
    + apply Hd'. apply Hd. auto. }
  unfold associate_to_window. rewrite En, Len.
  apply in_map_iff in Hx as ([i y] & E & Hin). cbn in E. subst y.
  rewrite organize_err by eauto. reflexivity.
Qed.
End Final.
