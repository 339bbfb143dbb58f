From Coq Require Import List ZArith Arith Bool Lia Permutation Sorted.
Import ListNotations.
From Verif Require Import Py Py_proof ListUtil pairing_model pairing_spec.

(** ** zip. *)

Definition head_res {A} (l : list A) : result A :=
  match l with [] => Err IndexError | x :: _ => Ok x end.

Lemma nth_error_tl {A} (l : list A) t : nth_error (tl l) t = nth_error l (S t).
Proof. destruct l; [destruct t|]; reflexivity. Qed.

Lemma Forall2_map_l {A B C} (f : A -> B) (R : B -> C -> Prop) l l' :
  Forall2 R (map f l) l' <-> Forall2 (fun a c => R (f a) c) l l'.
Proof.
  revert l'; induction l as [|a l IH]; intros l'; simpl.
  - split; intros H; inversion H; constructor.
  - split; intros H; inversion H; subst; constructor; auto; apply IH; assumption.
Qed.

Lemma zip_star_aux_nth {A} n : forall (ls : list (list A)) t tup,
  (exists l, In l ls /\ length l <= n) ->
  nth_error (zip_star_aux n ls) t = Some tup <->
  Forall2 (fun l x => nth_error l t = Some x) ls tup.
Proof.
  induction n as [|n IH]; intros ls t tup (l & Hl & Hn); simpl.
  - destruct l; [|simpl in Hn; lia]. split.
    + destruct t; discriminate.
    + intros H. exfalso. clear -Hl H. induction H as [|l0 x ls tup Hx H IH]; [destruct Hl|].
      destruct Hl as [->|Hl]; [destruct t; discriminate|auto].
  - change (mapM _ ls) with (mapM head_res ls).
    destruct (mapM head_res ls) as [heads|e] eqn:E.
    + assert (HF := proj1 (mapM_ok _ _ _) E).
      destruct t as [|t]; simpl.
      * split.
        -- intros H. injection H as <-. clear -HF.
           induction HF as [|l x ls xs Hx _ IH]; constructor; [|exact IH].
           destruct l; [discriminate|]. injection Hx as ->. reflexivity.
        -- intros H. f_equal. clear -HF H. revert tup H.
           induction HF as [|l x ls xs Hx _ IH]; intros tup H; inversion H; subst; [reflexivity|].
           f_equal; [|apply IH; assumption].
           destruct l; [discriminate|]. simpl in *. congruence.
      * rewrite IH.
        -- rewrite Forall2_map_l. split; intros H; eapply Forall2_impl; try exact H;
             simpl; intros a b; rewrite nth_error_tl; auto.
        -- exists (tl l). split; [apply in_map; exact Hl|]. destruct l; simpl in *; lia.
    + split; [destruct t; discriminate|]. intros H. exfalso.
      clear -E H. revert e E. induction H as [|l x ls tup Hx _ IH]; intros e E; [discriminate|].
      simpl in E. destruct l as [|y l]; [destruct t; discriminate|].
      simpl in E. destruct (mapM head_res ls); [discriminate|]. eapply IH; reflexivity.
Qed.

Lemma zip_star_nth {A} (ls : list (list A)) t tup : ls <> [] ->
  nth_error (zip_star ls) t = Some tup <->
  Forall2 (fun l x => nth_error l t = Some x) ls tup.
Proof.
  destruct ls as [|l ls]; [congruence|]. intros _.
  apply (zip_star_aux_nth (length l) (l :: ls)). exists l. split; [left; reflexivity|lia].
Qed.

Lemma zip_star_length_lt {A} (ls : list (list A)) t : ls <> [] ->
  t < length (zip_star ls) <-> (forall l, In l ls -> t < length l).
Proof.
  intros Hne. rewrite <- nth_error_Some. split.
  - intros H l Hl. destruct (nth_error (zip_star ls) t) as [tup|] eqn:E; [|congruence].
    apply (zip_star_nth ls t tup Hne) in E. clear -E Hl.
    induction E as [|l0 x ls tup Hx _ IH]; [destruct Hl|].
    destruct Hl as [->|Hl]; [|auto]. apply nth_error_Some. congruence.
  - intros H.
    assert (exists tup, Forall2 (fun l x => nth_error l t = Some x) ls tup) as [tup Htup].
    { clear Hne. induction ls as [|l ls IH]; [exists []; constructor|].
      destruct IH as [tup Htup]; [intros l' Hl'; apply H; right; exact Hl'|].
      specialize (H l (or_introl eq_refl)). apply nth_error_Some in H.
      destruct (nth_error l t) as [x|] eqn:E; [|congruence].
      exists (x :: tup). constructor; assumption. }
    apply (zip_star_nth ls t tup Hne) in Htup. rewrite Htup. discriminate.
Qed.

Lemma zip_star_length {A} (ls : list (list A)) : ls <> [] ->
  is_min (length (zip_star ls)) (map (@length A) ls).
Proof.
  intros Hne. split.
  - destruct (in_dec Nat.eq_dec (length (zip_star ls)) (map (@length A) ls)) as [H|H];
      [exact H|exfalso].
    assert (Hle : forall l, In l ls -> length (zip_star ls) <= length l).
    { intros l Hl. destruct (Nat.le_gt_cases (length (zip_star ls)) (length l)) as [Hle|Hgt];
        [exact Hle|exfalso].
      pose proof (proj1 (zip_star_length_lt ls (length l) Hne) Hgt l Hl). lia. }
    assert (length (zip_star ls) < length (zip_star ls)); [|lia].
    apply zip_star_length_lt; [exact Hne|]. intros l Hl. specialize (Hle l Hl).
    assert (length (zip_star ls) <> length l); [|lia].
    intros E. apply H. rewrite E. apply in_map; exact Hl.
  - intros x Hx. apply in_map_iff in Hx as (l & <- & Hl).
    destruct (Nat.le_gt_cases (length (zip_star ls)) (length l)) as [Hle|Hgt];
      [exact Hle|exfalso].
    pose proof (proj1 (zip_star_length_lt ls (length l) Hne) Hgt l Hl). lia.
Qed.

(** ** organize_by_values. *)

Lemma norm_index_sel n x k : norm_index n x = Ok k ->
  k < n /\ forall k', k' < n ->
   ((x =? Z.of_nat k') || (x =? Z.of_nat k' - Z.of_nat n))%Z%bool = (k' =? k).
Proof.
  unfold norm_index.
  destruct (Z.leb_spec 0 x), (Z.ltb_spec x (Z.of_nat n)); simpl;
   try (destruct (Z.leb_spec (- Z.of_nat n) x), (Z.ltb_spec x 0); simpl);
   intros E; try discriminate; injection E as <-; (split; [lia|]);
   intros k' Hk';
   destruct (Z.eqb_spec x (Z.of_nat k')), (Z.eqb_spec x (Z.of_nat k' - Z.of_nat n)),
     (Nat.eqb_spec k' (Z.to_nat x)), (Nat.eqb_spec k' (Z.to_nat (x + Z.of_nat n)));
     simpl; try reflexivity; lia.
Qed.

Lemma norm_index_iff n x :
  (exists k, norm_index n x = Ok k) <-> (- Z.of_nat n <= x < Z.of_nat n)%Z.
Proof.
  unfold norm_index.
  destruct (Z.leb_spec 0 x), (Z.ltb_spec x (Z.of_nat n)); simpl;
   try (destruct (Z.leb_spec (- Z.of_nat n) x), (Z.ltb_spec x 0); simpl);
   split; intros HH; try lia; try (destruct HH; discriminate); eauto.
Qed.

Lemma norm_index_err n x e : norm_index n x = Err e -> e = IndexError.
Proof.
  unfold norm_index. destruct (_ && _); [discriminate|].
  destruct (_ && _); [discriminate|congruence].
Qed.

Section Buckets.
Context {I : Type}.

Lemma buckets_ok (pairs : list (I * Z)) : forall init,
  (forall i x, In (i, x) pairs -> (- Z.of_nat (length init) <= x < Z.of_nat (length init))%Z) ->
  exists r, foldM bucket_step pairs init = Ok r /\ length r = length init /\
    forall k b, nth_error init k = Some b ->
      nth_error r k = Some (b ++ selected (length init) k pairs).
Proof.
  induction pairs as [|[i x] pairs IH]; intros init Hr.
  - exists init. simpl. split; [reflexivity|]. split; [reflexivity|].
    intros k b Hb. unfold selected. simpl. rewrite app_nil_r. exact Hb.
  - cbn [foldM bucket_step].
    destruct (proj2 (norm_index_iff (length init) x)) as [k0 Hk0].
    { eapply Hr. left; reflexivity. }
    destruct (norm_index_sel _ _ _ Hk0) as [Hlt Hsel].
    rewrite Hk0. cbn [bind].
    destruct (nth_error init k0) as [b0|] eqn:Eb0; [|apply nth_error_None in Eb0; lia].
    cbn [bind].
    destruct (IH (list_set init k0 (b0 ++ [i]))) as (r & E & Hl & Hn).
    { intros j y Hy. rewrite list_set_length. eapply Hr. right; exact Hy. }
    exists r. rewrite list_set_length in *. split; [exact E|]. split; [exact Hl|].
    intros k b Hb.
    assert (Hk : k < length init) by (apply nth_error_Some; congruence).
    assert (Esel : selected (length init) k ((i, x) :: pairs) =
       (if k =? k0 then [i] else []) ++ selected (length init) k pairs).
    { unfold selected. cbn [filter snd]. rewrite (Hsel k Hk).
      destruct (k =? k0); reflexivity. }
    rewrite Esel. destruct (Nat.eqb_spec k k0) as [->|Hne].
    + rewrite (Hn k0 (b0 ++ [i])).
      * rewrite Eb0 in Hb. injection Hb as ->. rewrite <- app_assoc. reflexivity.
      * rewrite nth_error_list_set, Nat.eqb_refl. apply Nat.ltb_lt in Hlt. rewrite Hlt.
        reflexivity.
    + apply Hn. rewrite nth_error_list_set. apply Nat.eqb_neq in Hne. rewrite Hne.
      exact Hb.
Qed.

Lemma buckets_err (pairs : list (I * Z)) : forall init,
  (exists i x, In (i, x) pairs /\
     ~ (- Z.of_nat (length init) <= x < Z.of_nat (length init))%Z) ->
  foldM bucket_step pairs init = Err IndexError.
Proof.
  induction pairs as [|[i x] pairs IH]; intros init (j & y & Hin & Hy); [destruct Hin|].
  cbn [foldM bucket_step].
  destruct (norm_index (length init) x) as [k|e] eqn:E.
  - cbn [bind]. destruct (norm_index_sel _ _ _ E) as [Hlt _].
    destruct (nth_error init k) as [b|] eqn:Eb; [|apply nth_error_None in Eb; lia].
    cbn [bind]. apply IH. rewrite list_set_length. exists j, y. split; [|exact Hy].
    destruct Hin as [Hin|Hin]; [|exact Hin]. injection Hin as <- <-.
    exfalso. apply Hy. apply norm_index_iff. eauto.
  - cbn [bind]. f_equal. eapply norm_index_err; exact E.
Qed.

Lemma organize_ok (l : list Z) (n : nat) (indices : list I) :
  (forall i x, In (i, x) (combine indices l) -> (- Z.of_nat n <= x < Z.of_nat n)%Z) ->
  exists buckets, organize_indexed l (Some n) indices = Ok buckets /\
    length buckets = n /\
    forall k, k < n -> nth_error buckets k = Some (selected n k (combine indices l)).
Proof.
  intros H. unfold organize_indexed.
  destruct (buckets_ok (combine indices l) (repeat [] n)) as (r & E & Hl & Hn);
    rewrite repeat_length in *; [exact H|].
  exists r. split; [exact E|]. split; [exact Hl|]. intros k Hk.
  rewrite (Hn k []); [reflexivity|].
  rewrite (nth_error_nth' _ []) by (rewrite repeat_length; exact Hk).
  rewrite nth_repeat. reflexivity.
Qed.

Lemma organize_err (l : list Z) (n : nat) (indices : list I) :
  (exists i x, In (i, x) (combine indices l) /\ ~ (- Z.of_nat n <= x < Z.of_nat n)%Z) ->
  organize_indexed l (Some n) indices = Err IndexError.
Proof.
  intros H. unfold organize_indexed. apply buckets_err. rewrite repeat_length. exact H.
Qed.
End Buckets.

Lemma count_distinct_spec (l : list Z) :
  exists d, NoDup d /\ (forall x, In x d <-> In x l) /\ count_distinct Z.eqb l = length d.
Proof.
  induction l as [|x l (d & Hnd & Hin & E)].
  - exists []. split; [constructor|]. split; [tauto|reflexivity].
  - simpl. destruct (existsb (Z.eqb x) l) eqn:Ex.
    + exists d. split; [exact Hnd|]. split; [|exact E].
      intros y. rewrite Hin. split; [auto|]. intros [<-|H]; [|exact H].
      apply existsb_exists in Ex as (z & Hz & Ez). apply Z.eqb_eq in Ez. congruence.
    + exists (x :: d). split; [|split; [|simpl; congruence]].
      * constructor; [|exact Hnd]. rewrite Hin. intros H.
        assert (existsb (Z.eqb x) l = true); [|congruence].
        apply existsb_exists. exists x. split; [exact H|apply Z.eqb_refl].
      * intros y. simpl. rewrite Hin. tauto.
Qed.

Lemma organize_default {I} (l : list Z) (indices : list I) :
  exists n, organize_indexed l None indices = organize_indexed l (Some n) indices /\
    exists d, NoDup d /\ (forall x, In x d <-> In x l) /\ n = length d.
Proof.
  exists (count_distinct Z.eqb l). split; [reflexivity|].
  destruct (count_distinct_spec l) as (d & H1 & H2 & H3). eauto.
Qed.

(** ** Names. *)

Section Names.
Context {L : Type} (eqb : L -> L -> bool).
Hypothesis eqb_spec : forall x y, eqb x y = true <-> x = y.

Lemma eqb_rfl x : eqb x x = true.
Proof. apply eqb_spec. reflexivity. Qed.

Lemma dict_get_set (d : list (L * nat)) k v k' :
  dict_get eqb (dict_set eqb d k v) k' = if eqb k k' then Some v else dict_get eqb d k'.
Proof.
  induction d as [|[k0 v0] d IH]; simpl.
  - destruct (eqb k k'); reflexivity.
  - destruct (eqb k0 k) eqn:E0; simpl.
    + apply eqb_spec in E0; subst k0. destruct (eqb k k'); reflexivity.
    + rewrite IH. destruct (eqb k0 k') eqn:E1; [|reflexivity].
      apply eqb_spec in E1; subst k0.
      destruct (eqb k k') eqn:E2; [|reflexivity].
      apply eqb_spec in E2; subst k. rewrite eqb_rfl in E0. discriminate.
Qed.

Lemma inversion_fold names : forall i0 d x i, NoDup names ->
  dict_get eqb (fold_left (fun d p => dict_set eqb d (snd p) (fst p))
     (combine (seq i0 (length names)) names) d) x = Some i <->
  (exists k, i = i0 + k /\ nth_error names k = Some x) \/
  (~ In x names /\ dict_get eqb d x = Some i).
Proof.
  induction names as [|y names IH]; intros i0 d x i Hnd; simpl.
  - split; [intros H; right; auto|]. intros [(k & _ & H)|[_ H]]; [destruct k; discriminate|exact H].
  - inversion Hnd as [|? ? Hy Hnd']; subst. rewrite IH by exact Hnd'.
    rewrite dict_get_set. split.
    + intros [(k & -> & Hk)|[Hx H]].
      * left. exists (S k). split; [lia|exact Hk].
      * destruct (eqb y x) eqn:E.
        -- apply eqb_spec in E; subst y. injection H as <-. left. exists 0.
           split; [lia|reflexivity].
        -- right. split; [|exact H]. intros [->|Hin]; [|contradiction].
           rewrite eqb_rfl in E; discriminate.
    + intros [(k & -> & Hk)|[Hx H]].
      * destruct k as [|k]; simpl in Hk.
        -- injection Hk as <-. right. split; [exact Hy|]. rewrite eqb_rfl. f_equal; lia.
        -- left. exists k. split; [lia|exact Hk].
      * right. split; [tauto|]. destruct (eqb y x) eqn:E; [|exact H].
        apply eqb_spec in E. tauto.
Qed.

Lemma inversion_get names x i : NoDup names ->
  dict_get eqb (inversion_dict eqb names) x = Some i <-> nth_error names i = Some x.
Proof.
  intros Hnd. unfold inversion_dict, enumerate. rewrite inversion_fold by exact Hnd. split.
  - intros [(k & -> & H)|[_ H]]; [exact H|discriminate].
  - intros H. left. exists i. auto.
Qed.

Lemma named_ok names labels : distinct_labels names labels ->
  exists ls, named_labels_to_range eqb names labels = Ok (names, ls) /\
    Forall2 (fun x i => nth_error names i = Some x) labels ls.
Proof.
  intros [Hnd Hin]. unfold named_labels_to_range.
  set (f := fun n => match dict_get eqb (inversion_dict eqb names) n with
                     | Some i => Ok i | None => Err KeyError end).
  assert (H : forall l, (forall x, In x l -> In x names) ->
     exists ls, mapM f l = Ok ls /\ Forall2 (fun x i => nth_error names i = Some x) l ls).
  { induction l as [|x l IH]; intros Hl; [exists []; split; [reflexivity|constructor]|].
    destruct IH as (ls & E & HF); [intros y Hy; apply Hl; right; exact Hy|].
    destruct (In_nth_error names x (Hl x (or_introl eq_refl))) as [i Hi].
    exists (i :: ls). split; [|constructor; assumption].
    simpl. unfold f at 1. rewrite (proj2 (inversion_get names x i Hnd) Hi).
    simpl. rewrite E. reflexivity. }
  destruct (H labels) as (ls & E & HF); [intros x Hx; apply Hin; exact Hx|].
  rewrite E. simpl. eauto.
Qed.
End Names.

(** ** The whole association. *)

Lemma flatten_concat {X} (l : list (list X)) : flatten l = concat l.
Proof.
  unfold flatten.
  assert (H : forall acc, fold_left (fun a x => a ++ x) l acc = acc ++ concat l).
  { induction l as [|x l IH]; intros acc; simpl; [rewrite app_nil_r; reflexivity|].
    rewrite IH, app_assoc. reflexivity. }
  apply (H []).
Qed.

Lemma Forall2_nth {A B} (R : A -> B -> Prop) l l' : Forall2 R l l' ->
  forall k a, nth_error l k = Some a -> exists b, nth_error l' k = Some b /\ R a b.
Proof.
  induction 1 as [|a b l l' Hab _ IH]; intros k x Hx; [destruct k; discriminate|].
  destruct k as [|k]; simpl in *; [injection Hx as <-; eauto|apply IH; exact Hx].
Qed.
Lemma Forall2_nth_r {A B} (R : A -> B -> Prop) l l' : Forall2 R l l' ->
  forall k b, nth_error l' k = Some b -> exists a, nth_error l k = Some a /\ R a b.
Proof.
  induction 1 as [|a b l l' Hab _ IH]; intros k x Hx; [destruct k; discriminate|].
  destruct k as [|k]; simpl in *; [injection Hx as <-; eauto|apply IH; exact Hx].
Qed.
Lemma Forall2_len {A B} (R : A -> B -> Prop) l l' : Forall2 R l l' -> length l = length l'.
Proof. induction 1; simpl; congruence. Qed.

Lemma nth_error_enumerate_from {X} (l : list X) : forall i0 k,
  nth_error (combine (seq i0 (length l)) l) k =
  match nth_error l k with Some x => Some (i0 + k, x) | None => None end.
Proof.
  induction l as [|x l IH]; intros i0 k; simpl; [destruct k; reflexivity|].
  destruct k as [|k]; simpl; [rewrite Nat.add_0_r; reflexivity|].
  rewrite IH. rewrite Nat.add_succ_r. reflexivity.
Qed.
Lemma nth_error_enumerate {X} (l : list X) k :
  nth_error (enumerate l) k = match nth_error l k with Some x => Some (k, x) | None => None end.
Proof. apply (nth_error_enumerate_from l 0 k). Qed.
Lemma enumerate_length {X} (l : list X) : length (enumerate l) = length l.
Proof. unfold enumerate. rewrite combine_length, seq_length. lia. Qed.

(** Structure of concatenated groups: position t of the concatenation lies in
    group g at offset o. *)
Lemma nth_error_concat {X} (l : list (list X)) : forall t x,
  nth_error (concat l) t = Some x ->
  exists g o grp, nth_error l g = Some grp /\ nth_error grp o = Some x /\
    t = length (concat (firstn g l)) + o.
Proof.
  induction l as [|grp l IH]; intros t x H; [destruct t; discriminate|].
  simpl in H. destruct (Nat.lt_ge_cases t (length grp)) as [Ht|Ht].
  - rewrite nth_error_app1 in H by exact Ht. exists 0, t, grp. auto.
  - rewrite nth_error_app2 in H by exact Ht. apply IH in H as (g & o & grp' & H1 & H2 & H3).
    exists (S g), o, grp'. split; [exact H1|]. split; [exact H2|].
    simpl. rewrite app_length. lia.
Qed.

Lemma nth_error_concat_intro {X} (l : list (list X)) : forall g o grp,
  nth_error l g = Some grp -> o < length grp ->
  nth_error (concat l) (length (concat (firstn g l)) + o) = nth_error grp o.
Proof.
  induction l as [|grp0 l IH]; intros g o grp Hg Ho; [destruct g; discriminate|].
  destruct g as [|g]; simpl in *.
  - injection Hg as ->. rewrite nth_error_app1 by exact Ho. reflexivity.
  - rewrite app_length, <- Nat.add_assoc, nth_error_app2 by lia.
    replace (length grp0 + (length (concat (firstn g l)) + o) - length grp0)
      with (length (concat (firstn g l)) + o) by lia.
    apply IH; assumption.
Qed.

Definition group_labels {X} (l : list (list X)) : list (list nat) :=
  map (fun p => repeat (fst p) (length (snd p))) (enumerate l).

Lemma group_labels_nth {X} (l : list (list X)) g grp :
  nth_error l g = Some grp ->
  nth_error (group_labels l) g = Some (repeat g (length grp)).
Proof.
  intros H. unfold group_labels. rewrite nth_error_map, nth_error_enumerate, H. reflexivity.
Qed.

Lemma group_labels_firstn_from {X} (l : list (list X)) : forall g i0,
  length (concat (firstn g (map (fun p => repeat (fst p) (length (snd p)))
     (combine (seq i0 (length l)) l)))) = length (concat (firstn g l)).
Proof.
  induction l as [|grp l IH]; intros g i0; [destruct g; reflexivity|].
  destruct g as [|g]; [reflexivity|]. simpl. rewrite !app_length, repeat_length, IH.
  reflexivity.
Qed.
Lemma group_labels_firstn {X} (l : list (list X)) g :
  length (concat (firstn g (group_labels l))) = length (concat (firstn g l)).
Proof. apply (group_labels_firstn_from l g 0). Qed.

Lemma group_labels_length {X} (l : list (list X)) :
  length (concat (group_labels l)) = length (concat l).
Proof.
  pose proof (group_labels_firstn l (length l)) as H.
  rewrite (firstn_all l) in H. rewrite firstn_all2 in H; [exact H|].
  unfold group_labels. rewrite map_length, enumerate_length. lia.
Qed.

Lemma in_group_labels_from {X} (l : list (list X)) : forall i0 x,
  In x (concat (map (fun p => repeat (fst p) (length (snd p)))
     (combine (seq i0 (length l)) l))) -> i0 <= x < i0 + length l.
Proof.
  induction l as [|grp l IH]; intros i0 x H; [destruct H|].
  simpl in H. apply in_app_or in H as [H|H].
  - apply repeat_spec in H. simpl in H. subst. simpl. lia.
  - apply IH in H. simpl. lia.
Qed.

Lemma group_labels_sorted_from {X} (l : list (list X)) : forall i0,
  StronglySorted le (concat (map (fun p => repeat (fst p) (length (snd p)))
     (combine (seq i0 (length l)) l))).
Proof.
  induction l as [|grp l IH]; intros i0; simpl; [constructor|].
  induction (length grp) as [|n IHn]; simpl; [apply IH|].
  constructor; [exact IHn|]. apply Forall_forall. intros x Hx.
  apply in_app_or in Hx as [Hx|Hx].
  - apply repeat_spec in Hx. lia.
  - apply in_group_labels_from in Hx. lia.
Qed.

Lemma group_labels_count_from {X} (l : list (list X)) : forall i0 g,
  count_occ Nat.eq_dec (concat (map (fun p => repeat (fst p) (length (snd p)))
     (combine (seq i0 (length l)) l))) (i0 + g) =
  match nth_error l g with Some grp => length grp | None => 0 end.
Proof.
  assert (Hrep : forall n x y, count_occ Nat.eq_dec (repeat x n) y = if x =? y then n else 0).
  { induction n as [|n IH]; intros x y; simpl; [destruct (x =? y); reflexivity|].
    rewrite IH. destruct (Nat.eq_dec x y), (Nat.eqb_spec x y); congruence. }
  induction l as [|grp l IH]; intros i0 g; simpl; [destruct g; reflexivity|].
  rewrite count_occ_app, Hrep. destruct g as [|g].
  - rewrite Nat.add_0_r, Nat.eqb_refl. simpl.
    assert (H0 : count_occ Nat.eq_dec (concat (map (fun p => repeat (fst p) (length (snd p)))
        (combine (seq (S i0) (length l)) l))) i0 = 0); [|lia].
    apply count_occ_not_In. intros H. apply in_group_labels_from in H. lia.
  - replace (i0 =? i0 + S g) with false by (symmetry; apply Nat.eqb_neq; lia).
    rewrite <- Nat.add_succ_comm, IH. reflexivity.
Qed.

Lemma group_labels_count {X} (l : list (list X)) g :
  count_occ Nat.eq_dec (concat (group_labels l)) g =
  match nth_error l g with Some grp => length grp | None => 0 end.
Proof. apply (group_labels_count_from l 0 g). Qed.

(** selected positions of an enumerated label list *)
Lemma combine_nth_error_in {A B} (l : list A) (l' : list B) a b :
  In (a, b) (combine l l') <-> exists k, nth_error l k = Some a /\ nth_error l' k = Some b.
Proof.
  revert l'; induction l as [|x l IH]; intros l'; simpl.
  - split; [tauto|]. intros (k & H & _). destruct k; discriminate.
  - destruct l' as [|y l']; simpl.
    + split; [tauto|]. intros (k & _ & H). destruct k; discriminate.
    + rewrite IH. split.
      * intros [E|(k & H1 & H2)]; [injection E as -> ->; exists 0; auto|exists (S k); auto].
      * intros ([|k] & H1 & H2); simpl in *; [left; congruence|right; eauto].
Qed.

Lemma in_selected_nat (l : list nat) n k idx : k < n -> (forall x, In x l -> x < n) ->
  In idx (selected n k (combine (seq 0 (length l)) (map Z.of_nat l))) <->
  nth_error l idx = Some k.
Proof.
  intros Hk Hl. unfold selected. rewrite in_map_iff. split.
  - intros ([i x] & Hi & H). simpl in Hi; subst i. apply filter_In in H as [H Hx].
    simpl in Hx. rewrite <- (map_length Z.of_nat) in H.
    apply combine_nth_error_in in H as (j & H1 & H2).
    assert (Hj : j < length (map Z.of_nat l)) by (apply nth_error_Some; congruence).
    rewrite (nth_error_nth' _ 0), seq_nth in H1 by (rewrite ?seq_length; exact Hj).
    injection H1 as <-. simpl. rewrite nth_error_map in H2.
    destruct (nth_error l j) as [y|] eqn:Ey; [|discriminate]. injection H2 as <-.
    f_equal. apply nth_error_In, Hl in Ey.
    destruct (Z.eqb_spec (Z.of_nat y) (Z.of_nat k)); [lia|].
    destruct (Z.eqb_spec (Z.of_nat y) (Z.of_nat k - Z.of_nat n)); simpl in Hx; [lia|discriminate].
  - intros H. exists (idx, Z.of_nat k). split; [reflexivity|]. apply filter_In. split.
    + rewrite <- (map_length Z.of_nat). apply combine_nth_error_in. exists idx.
      assert (Hi : idx < length l) by (apply nth_error_Some; congruence).
      split.
      * rewrite (nth_error_nth' _ 0), seq_nth; rewrite ?seq_length, ?map_length; auto.
      * rewrite nth_error_map, H. reflexivity.
    + simpl. rewrite Z.eqb_refl. reflexivity.
Qed.

Lemma combine_seq_fst_filter_NoDup {X} (f : nat * X -> bool) (l : list X) : forall i0,
  NoDup (map fst (filter f (combine (seq i0 (length l)) l))).
Proof.
  assert (Hge : forall (l : list X) i0 x,
     In x (map fst (filter f (combine (seq i0 (length l)) l))) -> i0 <= x).
  { clear. intros l i0 x H. apply in_map_iff in H as ([a b] & <- & H).
    apply filter_In in H as [H _]. apply in_combine_l, in_seq in H. simpl. lia. }
  induction l as [|y l IH]; intros i0; simpl; [constructor|].
  destruct (f (i0, y)); simpl; [|apply IH]. constructor; [|apply IH].
  intros H. apply Hge in H. lia.
Qed.

Lemma selected_NoDup (l : list nat) n k :
  NoDup (selected n k (combine (seq 0 (length l)) (map Z.of_nat l))).
Proof.
  unfold selected. rewrite <- (map_length Z.of_nat). apply combine_seq_fst_filter_NoDup.
Qed.

Section Associate.
Context {L : Type} (eqb : L -> L -> bool).
Hypothesis eqb_spec : forall x y, eqb x y = true <-> x = y.

(** Buckets of one modality, shuffled: bucket k is a rearrangement of the
    positions carrying name k. *)
Definition good_buckets (labels names : list L) (n : nat) (bs : list (list nat)) : Prop :=
  length bs = n /\
  forall k b, nth_error bs k = Some b ->
    NoDup b /\
    forall idx, In idx b <-> exists lab, nth_error names k = Some lab /\
                                         nth_error labels idx = Some lab.

Lemma good_organized names labels ls n :
  NoDup names -> length names = n ->
  Forall2 (fun x i => nth_error names i = Some x) labels ls ->
  exists bs, organize_by_values (map Z.of_nat ls) (Some n) = Ok bs /\
             good_buckets labels names n bs.
Proof.
  intros Hnd Hn HF.
  assert (Hls : forall x, In x ls -> x < n).
  { intros x Hx. apply In_nth_error in Hx as [k Hk].
    destruct (Forall2_nth_r _ _ _ HF k x Hk) as (a & _ & Ha).
    rewrite <- Hn. apply nth_error_Some. congruence. }
  unfold organize_by_values. rewrite map_length.
  destruct (organize_ok (map Z.of_nat ls) n (seq 0 (length ls))) as (bs & E & Hl & Hb).
  { intros i x H. apply in_combine_r, in_map_iff in H as (y & <- & Hy). apply Hls in Hy. lia. }
  exists bs. split; [exact E|]. split; [exact Hl|].
  intros k b Hk. assert (k < n) by (rewrite <- Hl; apply nth_error_Some; congruence).
  rewrite Hb in Hk by assumption. injection Hk as <-.
  split; [apply selected_NoDup|].
  intros idx. rewrite in_selected_nat by assumption. split.
  - intros H'. destruct (Forall2_nth_r _ _ _ HF idx k H') as (lab & H1 & H2). eauto.
  - intros (lab & H1 & H2). destruct (Forall2_nth _ _ _ HF idx lab H2) as (k' & H3 & H4).
    rewrite H3. f_equal. eapply NoDup_nth_error; [exact Hnd| |congruence].
    apply nth_error_Some; congruence.
Qed.

Lemma good_shuffled labels names n bs (sh : nat -> list nat -> list nat) :
  (forall i l, Permutation (sh i l) l) ->
  good_buckets labels names n bs ->
  good_buckets labels names n (map (fun q => sh (fst q) (snd q)) (enumerate bs)).
Proof.
  intros Hsh [Hl Hb]. split; [rewrite map_length, enumerate_length; exact Hl|].
  intros k b Hk. rewrite nth_error_map, nth_error_enumerate in Hk.
  destruct (nth_error bs k) as [b0|] eqn:E; [|discriminate].
  simpl in Hk. injection Hk as <-. destruct (Hb k b0 E) as [Hnd Hin].
  split; [eapply Permutation_NoDup; [symmetry; apply Hsh|exact Hnd]|].
  intros idx. rewrite <- Hin. split; intros H; eapply Permutation_in; try exact H;
    [|symmetry]; apply Hsh.
Qed.

(** Results of the successful part of associate_samples, from good buckets. *)
Lemma associate_samples_cases orders shuf lbm :
  Forall2 distinct_labels orders lbm -> is_shuffle shuf ->
  (lbm = [] /\ associate_samples eqb orders shuf lbm = Err ValueError) \/
  (exists nm0 rest, orders = nm0 :: rest /\
    ((exists nm, In nm orders /\ length nm <> length nm0) /\
       associate_samples eqb orders shuf lbm = Err AssertionError \/
     (forall nm, In nm orders -> length nm = length nm0) /\
       exists by_labels,
         Forall2 (fun (p : list L * list L) bs =>
            good_buckets (snd p) (fst p) (length nm0) bs) (combine orders lbm) by_labels /\
         associate_samples eqb orders shuf lbm =
           Ok (orders, concat (group_labels (associate by_labels)),
               concat (associate by_labels)))).
Proof.
  intros HF Hsh. unfold associate_samples.
  assert (Hp : exists pairs,
     mapM (fun p => named_labels_to_range eqb (fst p) (snd p)) (combine orders lbm) = Ok pairs /\
     Forall2 (fun (p : list L * list L) (q : list L * list nat) => fst q = fst p /\
        Forall2 (fun x i => nth_error (fst p) i = Some x) (snd p) (snd q))
       (combine orders lbm) pairs).
  { clear -HF eqb_spec. induction HF as [|nm ls orders lbm H HF IH]; simpl.
    - exists []. split; [reflexivity|constructor].
    - destruct IH as (pairs & E & HF2).
      destruct (named_ok eqb eqb_spec nm ls H) as (is & Ei & HFi).
      rewrite Ei. simpl. rewrite E. simpl. eexists; split; [reflexivity|].
      constructor; [|exact HF2]. simpl. auto. }
  destruct Hp as (pairs & E & HP). rewrite E. cbn [bind].
  assert (Hnames : map fst pairs = orders).
  { clear -HP HF. revert pairs HP. induction HF as [|nm ls orders lbm H HF IH]; intros pairs HP;
      simpl in HP; inversion HP as [|? q ? ps Hq HPs]; subst; [reflexivity|].
    simpl. f_equal; [|apply IH; exact HPs]. destruct Hq as [Hq _]. exact Hq. }
  destruct pairs as [|[names0 labels0] pairs'].
  { left. split; [|reflexivity]. simpl in Hnames. subst orders. inversion HF; reflexivity. }
  right. simpl in Hnames.
  exists names0, (map fst pairs'). split; [symmetry; exact Hnames|].
  set (n := length names0). set (pairs := (names0, labels0) :: pairs') in *.
  change (names0 :: map fst pairs') with (map fst pairs) in Hnames.
  rewrite Hnames.
  destruct (forallb (fun l => length l =? n) orders) eqn:Eall.
  2:{ left. split; [|reflexivity].
      assert (Hex : exists nm, In nm orders /\ (length nm =? n) = false).
      { clear -Eall. induction orders as [|a l IH]; [discriminate|]. simpl in Eall.
        destruct (length a =? n) eqn:Ea; [|exists a; simpl; auto].
        simpl in Eall. destruct (IH Eall) as (nm & H1 & H2). exists nm; simpl; auto. }
      destruct Hex as (nm & H1 & H2). exists nm. split; [exact H1|].
      apply Nat.eqb_neq in H2. exact H2. }
  right.
  assert (Hall : forall nm, In nm orders -> length nm = n).
  { intros nm Hnm. rewrite forallb_forall in Eall. apply Nat.eqb_eq, Eall; exact Hnm. }
  split; [exact Hall|]. cbn [py_assert bind].
  assert (HB : exists bl, mapM (fun l => organize_by_values (map Z.of_nat l) (Some n))
       (map snd pairs) = Ok bl /\
     Forall2 (fun (p : list L * list L) bs => good_buckets (snd p) (fst p) n bs)
       (combine orders lbm) bl).
  { assert (Hnd : forall p, In p (combine orders lbm) -> NoDup (fst p) /\ length (fst p) = n).
    { intros [a b] Hp. simpl. split; [|apply Hall; eapply in_combine_l; exact Hp].
      clear -HF Hp. induction HF as [|x y l l' Hxy HF IH]; [destruct Hp|].
      destruct Hp as [Hp|Hp]; [|auto]. injection Hp as -> ->. apply Hxy. }
    clear -HP Hnd. induction HP as [|p q ps qs [Hq HFq] HP IH]; simpl.
    - exists []. split; [reflexivity|constructor].
    - destruct IH as (bl & E & HFb); [intros; apply Hnd; right; assumption|].
      destruct (Hnd p (or_introl eq_refl)) as [Hn Hlen].
      destruct (good_organized (fst p) (snd p) (snd q) n Hn Hlen HFq) as (bs & Eb & Hg).
      rewrite Eb. simpl. rewrite E. simpl. eexists; split; [reflexivity|].
      constructor; assumption. }
  destruct HB as (bl & Ebl & HFb). rewrite Ebl. cbn [bind].
  exists (shuffle_all shuf bl). split.
  - unfold shuffle_all. change (enumerate bl) with (combine (seq 0 (length bl)) bl).
    clear -HFb Hsh.
    generalize 0. induction HFb as [|p bs ps bl Hg HFb IH]; intros i0; simpl; constructor.
    + apply (good_shuffled (snd p) (fst p) n bs (shuf i0)); [intros; apply Hsh|exact Hg].
    + apply IH.
  - rewrite !flatten_concat. reflexivity.
Qed.

Lemma associate_nth by_labels k grp : by_labels <> [] ->
  nth_error (@associate nat by_labels) k = Some grp ->
  exists bt, Forall2 (fun bs b => nth_error bs k = Some b) by_labels bt /\ grp = zip_star bt.
Proof.
  intros Hne H. unfold associate in H. rewrite nth_error_map in H.
  destruct (nth_error (zip_star by_labels) k) as [bt|] eqn:E; [|discriminate].
  injection H as <-. exists bt. split; [|reflexivity]. apply zip_star_nth in E; assumption.
Qed.

Lemma group_at by_labels t i tup : by_labels <> [] ->
  nth_error (concat (group_labels (@associate nat by_labels))) t = Some i ->
  nth_error (concat (associate by_labels)) t = Some tup ->
  exists bt o, Forall2 (fun bs b => nth_error bs i = Some b) by_labels bt /\
    Forall2 (fun b x => nth_error b o = Some x) bt tup /\
    t = length (concat (firstn i (associate by_labels))) + o.
Proof.
  intros Hne Hl Ht.
  apply nth_error_concat in Ht as (g & o & grp & Hg & Ho & ->).
  assert (Hlt : o < length grp) by (apply nth_error_Some; congruence).
  rewrite <- group_labels_firstn in Hl.
  rewrite (nth_error_concat_intro _ g o _ (group_labels_nth _ g grp Hg)) in Hl
    by (rewrite repeat_length; exact Hlt).
  apply nth_error_In, repeat_spec in Hl. subst i.
  destruct (associate_nth by_labels g grp Hne Hg) as (bt & HFb & ->).
  exists bt, o. split; [exact HFb|]. split; [|reflexivity].
  apply zip_star_nth in Ho; [exact Ho|].
  intros ->. inversion HFb; subst. congruence.
Qed.

Lemma faithful orders lbm n by_labels :
  length orders = length lbm -> lbm <> [] ->
  Forall2 (fun (p : list L * list L) bs => good_buckets (snd p) (fst p) n bs)
    (combine orders lbm) by_labels ->
  labels_faithful lbm orders (concat (group_labels (associate by_labels)))
    (concat (associate by_labels)).
Proof.
  intros Hlen Hne HF.
  assert (Hbl : length by_labels = length lbm).
  { apply Forall2_len in HF. rewrite combine_length in HF. lia. }
  assert (Hbne : by_labels <> []).
  { intros ->. destruct lbm; [congruence|discriminate]. }
  split; [apply group_labels_length|].
  intros t i tup Ht Htup.
  destruct (group_at by_labels t i tup Hbne Ht Htup) as (bt & o & HFb & HFo & _).
  split.
  { apply Forall2_len in HFb, HFo. congruence. }
  intros m ls Hm.
  destruct (nth_error orders m) as [nm|] eqn:Enm.
  2:{ apply nth_error_None in Enm. assert (m < length lbm) by (apply nth_error_Some; congruence). lia. }
  assert (Ec : nth_error (combine orders lbm) m = Some (nm, ls)).
  { clear -Enm Hm. revert m lbm Enm Hm. induction orders as [|a l IH]; intros m lbm H1 H2;
      [destruct m; discriminate|]. destruct lbm; [destruct m; discriminate|].
    destruct m; simpl in *; [congruence|auto]. }
  destruct (Forall2_nth _ _ _ HF m _ Ec) as (bs & Ebs & [_ Hg]).
  destruct (Forall2_nth _ _ _ HFb m bs Ebs) as (b & Eb & Hb).
  destruct (Forall2_nth _ _ _ HFo m b Eb) as (idx & Ex & Hx).
  destruct (Hg i b Hb) as [_ Hin]. simpl in Hin.
  assert (In idx b) by (eapply nth_error_In; exact Hx).
  apply Hin in H as (lab & H1 & H2). exists idx, nm, lab. auto.
Qed.

Lemma used_once orders lbm n by_labels m ls :
  length orders = length lbm ->
  Forall2 distinct_labels orders lbm ->
  Forall2 (fun (p : list L * list L) bs => good_buckets (snd p) (fst p) n bs)
    (combine orders lbm) by_labels ->
  nth_error lbm m = Some ls ->
  NoDup (used m (concat (associate by_labels))).
Proof.
  intros Hlen Hd HF Hm.
  assert (Hne : lbm <> []) by (intros ->; destruct m; discriminate).
  assert (Hbne : by_labels <> []).
  { intros ->. apply Forall2_len in HF. rewrite combine_length in HF. simpl in HF.
    destruct lbm; [congruence|simpl in *; lia]. }
  apply NoDup_nth_error. unfold used. intros t t' Ht Heq.
  rewrite map_length in Ht. rewrite !nth_error_map in Heq.
  destruct (nth_error (concat (associate by_labels)) t) as [tup|] eqn:E;
    [|apply nth_error_None in E; lia].
  destruct (nth_error (concat (associate by_labels)) t') as [tup'|] eqn:E';
    [|simpl in Heq; discriminate].
  simpl in Heq. injection Heq as Heq.
  destruct (faithful orders lbm n by_labels Hlen Hne HF) as [Hll Hf].
  assert (Hi : exists i, nth_error (concat (group_labels (associate by_labels))) t = Some i).
  { destruct (nth_error (concat (group_labels (associate by_labels))) t) eqn:Ei; [eauto|].
    apply nth_error_None in Ei. assert (t < length (concat (associate by_labels)))
      by (apply nth_error_Some; congruence). lia. }
  assert (Hi' : exists i, nth_error (concat (group_labels (associate by_labels))) t' = Some i).
  { destruct (nth_error (concat (group_labels (associate by_labels))) t') eqn:Ei; [eauto|].
    apply nth_error_None in Ei. assert (t' < length (concat (associate by_labels)))
      by (apply nth_error_Some; congruence). lia. }
  destruct Hi as [i Hi], Hi' as [i' Hi'].
  destruct (Hf t i tup Hi E) as [_ H1]. destruct (Hf t' i' tup' Hi' E') as [_ H2].
  destruct (H1 m ls Hm) as (idx & nm & lab & A1 & A2 & A3 & A4).
  destruct (H2 m ls Hm) as (idx' & nm' & lab' & B1 & B2 & B3 & B4).
  assert (idx' = idx) by congruence. subst idx'.
  assert (nm' = nm) by congruence. subst nm'.
  assert (lab' = lab) by congruence. subst lab'.
  assert (i = i').
  { assert (Hnd : NoDup nm).
    { destruct (Forall2_nth _ _ _ Hd m nm A2) as (ls' & _ & [Hnd _]). exact Hnd. }
    eapply NoDup_nth_error; [exact Hnd|apply nth_error_Some; congruence|congruence]. }
  subst i'.
  destruct (group_at by_labels t i tup Hbne Hi E) as (bt & o & HFb & HFo & Et).
  destruct (group_at by_labels t' i tup' Hbne Hi' E') as (bt' & o' & HFb' & HFo' & Et').
  assert (Hbt : bt' = bt).
  { clear -HFb HFb'. revert bt' HFb'. induction HFb as [|x y l l' Hxy _ IH]; intros bt' H;
      inversion H; subst; [reflexivity|]. f_equal; [congruence|auto]. }
  subst bt'.
  destruct (Forall2_nth_r _ _ _ HFo m idx A1) as (b & Eb & Hb).
  destruct (Forall2_nth_r _ _ _ HFo' m idx B1) as (b' & Eb' & Hb').
  assert (b' = b) by congruence. subst b'.
  destruct (Forall2_nth_r _ _ _ HFb m b Eb) as (bs & Ebs & Hbs).
  destruct (Forall2_nth_r _ _ _ HF m bs Ebs) as (p & _ & [_ Hg]).
  destruct (Hg i b Hbs) as [Hnd _].
  assert (o = o').
  { eapply NoDup_nth_error; [exact Hnd|apply nth_error_Some; congruence|congruence]. }
  lia.
Qed.

Lemma positions_count (lab : L) (ls : list L) (b : list nat) :
  NoDup b -> (forall idx, In idx b <-> nth_error ls idx = Some lab) ->
  length b = count (eqb lab) ls.
Proof.
  intros Hnd Hin. unfold count.
  assert (H : Permutation b (map fst (filter (fun p => eqb lab (snd p)) (enumerate ls)))).
  { apply NoDup_Permutation; [exact Hnd|apply combine_seq_fst_filter_NoDup|].
    intros idx. rewrite Hin, in_map_iff. split.
    - intros H. exists (idx, lab). split; [reflexivity|]. apply filter_In. split.
      + apply nth_error_In with (n := idx). rewrite nth_error_enumerate, H. reflexivity.
      + simpl. apply eqb_spec. reflexivity.
    - intros ([i x] & Hi & H). simpl in Hi; subst i. apply filter_In in H as [H Hx].
      simpl in Hx. apply eqb_spec in Hx. subst x.
      apply In_nth_error in H as [k Hk]. rewrite nth_error_enumerate in Hk.
      destruct (nth_error ls k) eqn:E; [|discriminate]. congruence. }
  rewrite (Permutation_length H), map_length. unfold enumerate. generalize 0.
  clear. induction ls as [|x ls IH]; intros i0; simpl; [reflexivity|].
  destruct (eqb lab x); simpl; rewrite IH; reflexivity.
Qed.

Lemma tuple_counts orders lbm n by_labels i :
  length orders = length lbm -> lbm <> [] ->
  (forall nm, In nm orders -> length nm = n) ->
  Forall2 (fun (p : list L * list L) bs => good_buckets (snd p) (fst p) n bs)
    (combine orders lbm) by_labels ->
  i < n ->
  is_min (count_occ Nat.eq_dec (concat (group_labels (associate by_labels))) i)
    (map (fun p => match nth_error (fst p) i with
                   | Some lab => count (eqb lab) (snd p) | None => 0 end)
         (combine orders lbm)).
Proof.
  intros Hlen Hne Hn HF Hi.
  assert (Hbne : by_labels <> []).
  { intros ->. apply Forall2_len in HF. rewrite combine_length in HF. simpl in HF.
    destruct lbm; [congruence|simpl in *; lia]. }
  rewrite group_labels_count.
  assert (Hbt : exists bt, Forall2 (fun bs b => nth_error bs i = Some b) by_labels bt).
  { clear -HF Hi. induction HF as [|p bs ps bl [Hl _] _ [bt IH]]; [exists []; constructor|].
    destruct (nth_error bs i) as [b|] eqn:E; [|apply nth_error_None in E; lia].
    exists (b :: bt). constructor; assumption. }
  destruct Hbt as [bt Hbt].
  assert (Ea : nth_error (@associate nat by_labels) i = Some (zip_star bt)).
  { unfold associate. rewrite nth_error_map.
    rewrite (proj2 (zip_star_nth by_labels i bt Hbne) Hbt). reflexivity. }
  rewrite Ea.
  assert (Hbtne : bt <> []) by (intros ->; inversion Hbt; subst; congruence).
  assert (Em : map (@length nat) bt =
     map (fun p => match nth_error (fst p) i with
                   | Some lab => count (eqb lab) (snd p) | None => 0 end)
         (combine orders lbm)).
  { assert (Hn' : forall p, In p (combine orders lbm) -> length (fst p) = n).
    { intros [a b] Hp. apply Hn. eapply in_combine_l; exact Hp. }
    clear -HF Hbt Hn' Hi eqb_spec. revert bt Hbt.
    induction HF as [|p bs ps bl [Hl Hg] HF IH]; intros bt Hbt; inversion Hbt as [|? b ? bt' Hb Hbt']; subst;
      [reflexivity|]. simpl. f_equal; [|apply IH; [intros; apply Hn'; right; assumption|assumption]].
    destruct (Hg i b Hb) as [Hnd Hin].
    destruct (nth_error (fst p) i) as [lab|] eqn:E.
    - apply positions_count; [exact Hnd|]. intros idx. rewrite Hin. split.
      + intros (lab' & H1 & H2). congruence.
      + intros H. eauto.
    - apply nth_error_None in E. specialize (Hn' p (or_introl eq_refl)). lia. }
  rewrite <- Em. apply zip_star_length. exact Hbtne.
Qed.

Lemma group_labels_lt {X} (l : list (list X)) x : In x (concat (group_labels l)) -> x < length l.
Proof. intros H. apply (in_group_labels_from l 0) in H. lia. Qed.

End Associate.

Section Final.
Context {L : Type} (eqb : L -> L -> bool).
Hypothesis eqb_spec : forall x y, eqb x y = true <-> x = y.

Lemma associate_samples_faithful orders shuf lbm names labels tuples :
  Forall2 distinct_labels orders lbm -> is_shuffle shuf ->
  associate_samples eqb orders shuf lbm = Ok (names, labels, tuples) ->
  names = orders /\ labels_faithful lbm names labels tuples.
Proof.
  intros HF Hsh E.
  destruct (associate_samples_cases eqb eqb_spec orders shuf lbm HF Hsh)
    as [[_ H]|(nm0 & rest & Ho & [[_ H]|(Hall & bl & HB & H)])]; rewrite H in E;
    try discriminate.
  injection E as <- <- <-. split; [reflexivity|].
  pose proof (Forall2_len _ _ _ HF) as Hlen.
  apply (faithful orders lbm (length nm0) bl); [exact Hlen| |exact HB].
  intros ->. rewrite Ho in Hlen. discriminate.
Qed.

Lemma associate_samples_counts orders shuf lbm names labels tuples :
  Forall2 distinct_labels orders lbm -> is_shuffle shuf ->
  associate_samples eqb orders shuf lbm = Ok (names, labels, tuples) ->
  length labels = length tuples /\ StronglySorted le labels /\
  (forall m ls, nth_error lbm m = Some ls ->
     NoDup (used m tuples) /\
     forall idx, In idx (used m tuples) -> exists i, idx = Some i /\ i < length ls) /\
  (forall i, In i labels -> forall nm, In nm names -> i < length nm) /\
  (forall i, (forall nm, In nm names -> i < length nm) ->
     is_min (count_occ Nat.eq_dec labels i)
       (map (fun p => match nth_error (fst p) i with
                      | Some lab => count (eqb lab) (snd p) | None => 0 end)
          (combine names lbm))).
Proof.
  intros HF Hsh E.
  destruct (associate_samples_faithful _ _ _ _ _ _ HF Hsh E) as [Hno [Hlt Hf]].
  destruct (associate_samples_cases eqb eqb_spec orders shuf lbm HF Hsh)
    as [[_ H]|(nm0 & rest & Ho & [[_ H]|(Hall & bl & HB & H)])]; rewrite H in E;
    try discriminate.
  injection E as <- <- <-.
  pose proof (Forall2_len _ _ _ HF) as Hlen.
  assert (Hne : lbm <> []) by (intros ->; rewrite Ho in Hlen; discriminate).
  split; [exact Hlt|]. split; [apply group_labels_sorted_from|].
  split; [|split].
  - intros m ls Hm. split; [eapply used_once; eassumption|].
    intros idx Hidx. apply in_map_iff in Hidx as (tup & Et & Hin).
    apply In_nth_error in Hin as [t Ht].
    assert (Hi : exists i, nth_error (concat (group_labels (associate bl))) t = Some i).
    { destruct (nth_error (concat (group_labels (associate bl))) t) eqn:Ei; [eauto|].
      apply nth_error_None in Ei. assert (t < length (concat (associate bl)))
        by (apply nth_error_Some; congruence). lia. }
    destruct Hi as [i Hi]. destruct (Hf t i tup Hi Ht) as [_ Hm'].
    destruct (Hm' m ls Hm) as (ix & nm & lab & A1 & _ & _ & A4).
    exists ix. split; [congruence|]. apply nth_error_Some. congruence.
  - intros i Hi nm Hnm. rewrite (Hall nm Hnm).
    apply group_labels_lt in Hi. unfold associate in Hi. rewrite map_length in Hi.
    destruct HB as [|p bs ps bl' [Hl _] HB]; [simpl in Hi; lia|].
    rewrite <- Hl. apply (proj1 (zip_star_length_lt (bs :: bl') i ltac:(discriminate)) Hi).
    left; reflexivity.
  - intros i Hi. apply (tuple_counts eqb eqb_spec orders lbm (length nm0)); auto.
    apply Hi. rewrite Ho. left; reflexivity.
Qed.

Lemma associate_samples_errors orders shuf lbm :
  Forall2 distinct_labels orders lbm -> is_shuffle shuf ->
  (lbm = [] <-> associate_samples eqb orders shuf lbm = Err ValueError) /\
  ((exists d d', In d orders /\ In d' orders /\ length d <> length d') <->
     associate_samples eqb orders shuf lbm = Err AssertionError) /\
  (lbm <> [] -> (forall d d', In d orders -> In d' orders -> length d = length d') ->
     exists names labels tuples,
       associate_samples eqb orders shuf lbm = Ok (names, labels, tuples)).
Proof.
  intros HF Hsh. pose proof (Forall2_len _ _ _ HF) as Hlen.
  destruct (associate_samples_cases eqb eqb_spec orders shuf lbm HF Hsh)
    as [[Hl H]|(nm0 & rest & Ho & [[(nm & Hin & Hd) H]|(Hall & bl & HB & H)])]; rewrite H.
  - subst lbm. destruct orders; [|discriminate]. split; [tauto|]. split; [|congruence].
    split; [|discriminate]. intros (d & d' & [] & _).
  - assert (lbm <> []) by (intros ->; rewrite Ho in Hlen; discriminate).
    assert (In nm0 orders) by (rewrite Ho; left; reflexivity).
    split; [split; [contradiction|discriminate]|]. split.
    + split; [reflexivity|]. intros _. exists nm, nm0. auto.
    + intros _ Heq. exfalso. apply Hd. apply Heq; assumption.
  - assert (lbm <> []) by (intros ->; rewrite Ho in Hlen; discriminate).
    split; [split; [contradiction|discriminate]|]. split.
    + split; [|discriminate]. intros (d & d' & H1 & H2 & Hd). exfalso. apply Hd.
      rewrite (Hall d H1), (Hall d' H2). reflexivity.
    + intros _ _. eauto.
Qed.
End Final.

Lemma organize_spec {I} (l : list Z) (n : nat) (indices : list I) :
  ((forall i x, In (i, x) (combine indices l) -> (- Z.of_nat n <= x < Z.of_nat n)%Z) ->
   exists buckets, organize_indexed l (Some n) indices = Ok buckets /\
    length buckets = n /\
    forall k, k < n -> nth_error buckets k = Some (selected n k (combine indices l))) /\
  ((exists i x, In (i, x) (combine indices l) /\ ~ (- Z.of_nat n <= x < Z.of_nat n)%Z) <->
   organize_indexed l (Some n) indices = Err IndexError).
Proof.
  split; [apply organize_ok|]. split; [apply organize_err|].
  intros E.
  destruct (forallb (fun p : I * Z => (- Z.of_nat n <=? snd p) && (snd p <? Z.of_nat n))%Z
     (combine indices l)) eqn:Ef.
  - rewrite forallb_forall in Ef. destruct (organize_ok l n indices) as (b & Eb & _).
    { intros i x Hx. specialize (Ef _ Hx). simpl in Ef. apply andb_true_iff in Ef as [H1 H2].
      apply Z.leb_le in H1. apply Z.ltb_lt in H2. lia. }
    congruence.
  - clear E. induction (combine indices l) as [|[i x] ps IH]; [discriminate|]. simpl in Ef.
    destruct ((- Z.of_nat n <=? x) && (x <? Z.of_nat n))%Z eqn:Ex.
    + simpl in Ef. destruct (IH Ef) as (j & y & H1 & H2). exists j, y. simpl. auto.
    + exists i, x. split; [left; reflexivity|]. intros [H1 H2].
      apply Z.leb_le in H1. apply Z.ltb_lt in H2. rewrite H1, H2 in Ex. discriminate.
Qed.

(** With the default indices the buckets are increasing position lists. *)
Lemma organize_positions (l : list Z) (n : nat) buckets :
  organize_by_values l (Some n) = Ok buckets ->
  length buckets = n /\
  forall k b, nth_error buckets k = Some b ->
    StronglySorted lt b /\
    forall i, In i b <-> exists x, nth_error l i = Some x /\
                          (x = Z.of_nat k \/ x = Z.of_nat k - Z.of_nat n)%Z.
Proof.
  unfold organize_by_values. intros E.
  destruct (organize_spec l n (seq 0 (length l))) as [Hok Herr].
  assert (Hr : forall i x, In (i, x) (combine (seq 0 (length l)) l) ->
     (- Z.of_nat n <= x < Z.of_nat n)%Z).
  { intros i x Hx. destruct (Z_le_dec (- Z.of_nat n) x), (Z_lt_dec x (Z.of_nat n)); try lia;
      exfalso; assert (organize_indexed l (Some n) (seq 0 (length l)) = Err IndexError)
        by (apply Herr; exists i, x; split; [exact Hx|lia]); congruence. }
  destruct (Hok Hr) as (b' & E' & Hl & Hb). rewrite E in E'. injection E' as <-.
  split; [exact Hl|]. intros k b Hk.
  assert (Hkn : k < n) by (rewrite <- Hl; apply nth_error_Some; congruence).
  rewrite (Hb k Hkn) in Hk. injection Hk as <-. split.
  - unfold selected. generalize 0 as i0. clear.
    induction l as [|x l IH]; intros i0; simpl; [constructor|].
    destruct (_ || _)%bool; simpl; [|apply IH]. constructor; [apply IH|].
    apply Forall_forall. intros y Hy. apply in_map_iff in Hy as ([a c] & <- & Hy).
    apply filter_In in Hy as [Hy _]. apply in_combine_l, in_seq in Hy. simpl. lia.
  - intros i. unfold selected. rewrite in_map_iff. split.
    + intros ([j x] & Hj & H). simpl in Hj; subst j. apply filter_In in H as [H Hx].
      simpl in Hx. apply In_nth_error in H as [t Ht].
      rewrite nth_error_enumerate_from in Ht. destruct (nth_error l t) as [y|] eqn:Ey;
        [|discriminate]. injection Ht as <- <-. exists y. split; [exact Ey|].
      apply orb_true_iff in Hx as [Hx|Hx]; apply Z.eqb_eq in Hx; auto.
    + intros (x & Hx & Hk). exists (i, x). split; [reflexivity|]. apply filter_In. split.
      * apply nth_error_In with (n := i). rewrite nth_error_enumerate_from, Hx. reflexivity.
      * simpl. apply orb_true_iff. rewrite !Z.eqb_eq. exact Hk.
Qed.
