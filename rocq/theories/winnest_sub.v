(** * Proofs about concatenations that contain concatenations: copies and sub-windows. *)

From Coq Require Import List ZArith QArith Bool Lia Lqa.
Import ListNotations.
From Verif Require Import Py Py_proof ListUtil window_model window_spec window_proof window_concat winnest_model winnest_spec winnest_proof winnest_trees.
Open Scope py_scope.
Local Open Scope Q_scope.

Section Sub.
Context {O A P : Type} (files : wavfiles P A).
Notation tree := (tree O A P).
Notation leaf := (leaf O A P).
Notation spans l := (map (fun p : basic O => (b_start p, b_end p)) l).
Implicit Types (w : tree) (ws : list tree) (bs : list (basic O)).

(** ** Trees of basic windows that cut an interval. *)
Lemma span_basic bs : map span (map (@LB O A P) bs) = spans bs.
Proof. rewrite map_map. reflexivity. Qed.
Lemma map_LB_app (l1 l2 : list leaf) bs : l1 ++ l2 = map LB bs -> exists b1 b2, bs = b1 ++ b2 /\ l1 = map LB b1 /\ l2 = map LB b2.
Proof. intro H. symmetry in H. apply map_eq_app in H as (b1 & b2 & -> & <- & <-). eauto. Qed.
Lemma tiles_first lo (ls : list leaf) hi : ls <> [] -> tiles lo (map span ls) hi -> first_of ls == lo.
Proof. destruct ls as [|l ls]; [contradiction|]. intros _ (H & _). exact H. Qed.
Lemma tiles_last lo (ls : list leaf) hi : ls <> [] -> tiles lo (map span ls) hi -> last_of ls == hi.
Proof.
  intros N T. destruct (snoc_case ls N) as (l & x & ->). rewrite map_app in T. apply tiles_app in T as (m & _ & T). cbn in T.
  unfold last_of. rewrite rev_app_distr. cbn. lra.
Qed.
Lemma tiles_proxies ws : forall lo hi, Forall filled ws -> tiles lo (map span (flat_map t_leaves ws)) hi -> tiles lo (map span (map proxy ws)) hi.
Proof.
  induction ws as [|w ws IH]; intros lo hi F T; [exact T|]. inversion F as [|? ? F1 F2]; subst. cbn [flat_map] in T. rewrite map_app in T. apply tiles_app in T as (m & T1 & T2).
  pose proof (tiles_first lo _ m (filled_leaves _ F1) T1) as E1. pose proof (tiles_last lo _ m (filled_leaves _ F1) T1) as E2. pose proof (tiles_le _ _ _ T1).
  cbn. unfold ts, te. split; [exact E1|]. split; [lra|]. apply IH; auto. eapply tiles_comp; [| |exact T2]; [symmetry; exact E2|reflexivity].
Qed.
Lemma tiles_copy w : forall lo hi bs, filled w -> t_leaves w = map LB bs -> tiles lo (spans bs) hi -> t_copy files w = Ok w.
Proof.
  induction w as [l|ws IH] using tree_ind_strong; intros lo hi bs F E T.
  - destruct bs as [|b [|]]; try discriminate E. injection E as ->. reflexivity.
  - inversion F as [|? N Fs]; subst. cbn [t_copy t_leaves] in *.
    assert (C : sequence (map (t_copy files) ws) = Ok ws).
    { apply sequence_ok. clear F N. revert lo bs E T. induction IH as [|w ws H _ IH]; intros lo bs E T; [constructor|]. inversion Fs as [|? ? F1 F2]; subst.
      cbn [flat_map] in E. apply map_LB_app in E as (b1 & b2 & -> & E1 & E2). rewrite map_app in T. apply tiles_app in T as (m & T1 & T2).
      constructor; [eapply H; eauto|eapply IH; eauto]. }
    rewrite C. cbn [bind]. rewrite new_cat_proxy by auto. rewrite (tiles_ok lo (map proxy ws) hi); auto.
    + destruct ws; [contradiction|discriminate].
    + apply tiles_proxies; auto. rewrite E, span_basic. exact T.
Qed.
Lemma single_ok w : filled w -> new_cat [w] = Ok (TCat [w]).
Proof. intro F. rewrite new_cat_proxy by auto. cbn [map]. rewrite (proj2 (new_concat_ok [proxy w])); [reflexivity|]. split; [discriminate|exact I]. Qed.

Lemma depth_child ws w n : (depth (TCat ws) <= S n)%nat -> In w ws -> (depth w <= n)%nat.
Proof.
  cbn. intros H Hw. assert (G : (list_max (map depth ws) <= n)%nat) by lia. apply list_max_le in G. rewrite Forall_forall in G. apply G, in_map, Hw.
Qed.
Lemma depth_cat ws n : Forall (fun w => depth w <= n)%nat ws -> (depth (TCat ws) <= S n)%nat.
Proof. intro H. cbn. apply le_n_S. apply list_max_le. apply Forall_map. exact H. Qed.
Notation sames := (Forall2 same_basic).

Lemma leaf_sub (l : leaf) lo hi bs a b : [l] = map LB bs -> lasting lo bs hi -> lo <= a -> a <= b -> b <= hi ->
  exists q, get_subwindow files l a b = Ok (LB q) /\ sames [q] (to_time b (from_time a bs)).
Proof.
  intros E [T _] La Lab Lb. destruct bs as [|p [|]]; try discriminate E. injection E as ->. cbn in T. destruct T as (T1 & T2 & T3).
  destruct (basic_sub_ok p a b) as (q & Hq & Sq & _ & Eq & Oq); [split; lra|split; lra|].
  exists q. cbn. rewrite Hq. split; [reflexivity|]. destruct (Qlt_le_dec (b_end p) a); [lra|]. cbn. destruct (Qlt_le_dec (b_end p) b); [lra|].
  constructor; [|constructor]. repeat split; cbn; auto. rewrite Sq. reflexivity.
Qed.
Lemma crop_lasting lo bs hi a b bs' : bs <> [] -> lasting lo bs hi -> lo <= a -> a <= b -> b <= hi -> sames bs' (to_time b (from_time a bs)) -> lasting a bs' b.
Proof.
  intros N L La Lab Lb H. apply (lasting_same a (to_time b (from_time a bs))); [now apply sames_sym|].
  assert (N' : from_time a bs <> []).
  { destruct L as [T _]. pose proof (tiles_exists lo bs hi a N T ltac:(lra)) as X. clear - X. induction X as [p l X|p l _ IH]; cbn; destruct (Qlt_le_dec (b_end p) a); try discriminate; auto. lra. }
  apply (lasting_to a (from_time a bs) hi b); auto. apply (lasting_from lo); auto. lra.
Qed.
Lemma child_lasting w lo hi bs : filled w -> t_leaves w = map LB bs -> lasting lo bs hi -> bs <> [] /\ ts w == lo /\ te w == hi /\ lasting (ts w) bs (te w).
Proof.
  intros F E L. pose proof (filled_leaves w F) as N. assert (Nb : bs <> []) by (intros ->; rewrite E in N; contradiction).
  pose proof L as [T _]. rewrite <- span_basic, <- E in T. pose proof (tiles_first _ _ _ N T) as E1. pose proof (tiles_last _ _ _ N T) as E2.
  fold (ts w) in E1. fold (te w) in E2. split; auto. split; auto. split; auto. apply (lasting_comp lo _ _ hi); auto; now symmetry.
Qed.
Lemma flat_split ws1 ws2 bs : flat_map t_leaves (ws1 ++ ws2) = map LB bs ->
  exists b1 b2, bs = b1 ++ b2 /\ flat_map t_leaves ws1 = map LB b1 /\ flat_map t_leaves ws2 = map LB b2.
Proof. rewrite flat_map_app. apply map_LB_app. Qed.
Lemma flat_cons w ws bs : flat_map t_leaves (w :: ws) = map LB bs ->
  exists b1 b2, bs = b1 ++ b2 /\ t_leaves w = map LB b1 /\ flat_map t_leaves ws = map LB b2.
Proof. cbn [flat_map]. apply map_LB_app. Qed.
(** Windows of trees that end before [t] end before [t]. *)
Lemma ends_before t ws : forall lo hi bs, Forall filled ws -> flat_map t_leaves ws = map LB bs -> tiles lo (spans bs) hi -> (forall w, In w ws -> te w < t) ->
  Forall (fun p => b_end p < t) bs.
Proof.
  induction ws as [|w ws IH]; intros lo hi bs F E T H; [destruct bs; [constructor|discriminate E]|]. inversion F as [|? ? F1 F2]; subst.
  apply flat_cons in E as (b1 & b2 & -> & E1 & E2). rewrite map_app in T. apply tiles_app in T as (m & T1 & T2). apply Forall_app. split.
  - specialize (H w (or_introl eq_refl)). assert (X : te w == m).
    { apply (tiles_last lo (t_leaves w) m (filled_leaves w F1)). now rewrite E1, span_basic. }
    eapply Forall_impl; [|exact (tiles_ends _ _ _ T1)]. cbn. intros p Hp. lra.
  - eapply IH; eauto. intros x Hx. apply H. now right.
Qed.
Lemma mapM_copy ws : forall lo hi bs, Forall filled ws -> flat_map t_leaves ws = map LB bs -> tiles lo (spans bs) hi -> mapM (t_copy files) ws = Ok ws.
Proof.
  induction ws as [|w ws IH]; intros lo hi bs F E T; [reflexivity|]. inversion F as [|? ? F1 F2]; subst.
  apply flat_cons in E as (b1 & b2 & -> & E1 & E2). rewrite map_app in T. apply tiles_app in T as (m & T1 & T2).
  cbn [mapM]. rewrite (tiles_copy w lo m b1 F1 E1 T1). cbn [bind]. rewrite (IH m hi b2 F2 E2 T2). reflexivity.
Qed.

Lemma sub_ok n : forall w lo hi bs a b, (depth w <= n)%nat -> filled w -> t_leaves w = map LB bs -> lasting lo bs hi -> lo <= a -> a <= b -> b <= hi ->
  exists w' bs', t_sub files n w a b = Ok w' /\ filled w' /\ (depth w' <= n)%nat /\ t_leaves w' = map LB bs' /\ sames bs' (to_time b (from_time a bs)).
Proof.
  assert (Leaf : forall n (l : leaf) lo hi bs a b, [l] = map LB bs -> lasting lo bs hi -> lo <= a -> a <= b -> b <= hi ->
    exists w' bs', t_sub files n (TLeaf l) a b = Ok w' /\ filled w' /\ (depth w' <= n)%nat /\ t_leaves w' = map LB bs' /\ sames bs' (to_time b (from_time a bs))).
  { intros m l lo hi bs a b E L La Lab Lb. destruct (leaf_sub l lo hi bs a b E L La Lab Lb) as (q & Hq & S). exists (TLeaf (LB q)), [q].
    split; [destruct m; cbn [t_sub]; rewrite Hq; reflexivity|]. split; [constructor|]. split; [cbn; lia|]. split; [reflexivity|exact S]. }
  induction n as [|n IH]; intros w lo hi bs a b D F E L La Lab Lb.
  - destruct w as [l|ws]; [|cbn in D; lia]. eauto.
  - destruct w as [l|ws]; [eauto|].
    inversion F as [|? N Fs]; subst. cbn [t_leaves] in E. pose proof L as [T _].
    assert (Tp : tiles lo (map span (map proxy ws)) hi) by (apply tiles_proxies; auto; rewrite E, span_basic; exact T).
    assert (Np : map proxy ws <> []) by (destruct ws; [contradiction|discriminate]).
    destruct (tiles_two lo _ hi a b Np Tp La Lab Lb) as (i & j & wi & wj & Hi & Hj & Ei & Ej & Lij & Wi & Wj & Fi & Fj).
    cbn [t_sub]. rewrite !t_index_proxy, Hi, Hj by auto. cbn [bind]. rewrite slice_segment.
    rewrite nth_error_map in Ei, Ej. destruct (nth_error ws i) as [ci|] eqn:Ci; [|discriminate]. destruct (nth_error ws j) as [cj|] eqn:Cj; [|discriminate].
    cbn in Ei, Ej. injection Ei as <-. injection Ej as <-. unfold within in Wi, Wj. cbn [proxy w_start w_end b_start b_end] in Wi, Wj.
    assert (Fi' : forall k v, (k < i)%nat -> nth_error ws k = Some v -> te v < a).
    { intros k v Hk Hv. apply (Fi k (proxy v) Hk). now rewrite nth_error_map, Hv. }
    assert (Fj' : forall k v, (k < j)%nat -> nth_error ws k = Some v -> te v < b).
    { intros k v Hk Hv. apply (Fj k (proxy v) Hk). now rewrite nth_error_map, Hv. }
    clear Fi Fj Hi Hj.
    assert (Dc : forall w, In w ws -> (depth w <= n)%nat) by (intros w Hw; eapply depth_child; eauto).
    destruct (Nat.eq_dec i j) as [Eij|Nij].
    + subst j. assert (cj = ci) by congruence. subst cj. rewrite (seg_single ws i ci Ci).
      destruct (nth_error_split ws i Ci) as (pre & post & -> & Lp).
      apply Forall_app in Fs as [F1 F2]. inversion F2 as [|? ? F3 F4]; subst.
      destruct (flat_split _ _ _ E) as (b1 & b' & -> & E1 & E'). destruct (flat_cons _ _ _ E') as (b2 & b3 & -> & E2 & E3).
      destruct (lasting_app _ _ _ _ L) as (m & L1 & L' & _). destruct (lasting_app _ _ _ _ L') as (m' & L2 & L3 & _).
      destruct (child_lasting ci m m' b2 F3 E2 L2) as (Nb & Es & Ee & L2').
      cbn [mapM]. rewrite (tiles_copy ci m m' b2 F3 E2 (proj1 L2)). cbn [bind]. rewrite py_nth_0. cbn [bind]. rewrite t_end_ok by auto. cbn [bind].
      destruct (IH ci (ts ci) (te ci) b2 a (te ci)) as (w0 & s0 & H0 & F0 & D0 & E0 & S0); auto; try lra.
      { apply Dc, in_or_app. right. now left. }
      rewrite H0. cbn [bind]. rewrite py_set_0. cbn [bind]. rewrite py_nth_single. cbn [bind]. rewrite t_start_ok by auto. cbn [bind].
      assert (L0 : lasting a s0 (te ci)) by (apply (crop_lasting (ts ci) b2 (te ci) a (te ci)); auto; lra).
      destruct (child_lasting w0 a (te ci) s0 F0 E0 L0) as (Ns & Es0 & Ee0 & L0').
      destruct (IH w0 (ts w0) (te w0) s0 (ts w0) b) as (w1 & s1 & H1 & F1' & D1 & Ew1 & S1); auto; try lra.
      rewrite H1. cbn [bind]. rewrite py_set_single. cbn [bind]. rewrite single_ok by auto.
      exists (TCat [w1]), s1. split; [reflexivity|]. split; [constructor; [discriminate|auto]|]. split; [apply depth_cat; auto|].
      split; [cbn; now rewrite app_nil_r|]. eapply sames_trans; [exact S1|].
      rewrite (from_skip a b1).
      2:{ apply (ends_before a pre lo m b1); auto; [exact (proj1 L1)|]. intros v Hv. apply In_nth_error in Hv as (k & Hk). assert (Lk : (k < length pre)%nat) by (apply nth_error_Some; congruence).
          apply (Fi' k v Lk). now rewrite nth_error_app1. }
      rewrite (from_stop a b2) by (eapply tiles_exists; [exact Nb|exact (proj1 L2)|lra]).
      rewrite to_stop by (apply from_exists; [eapply tiles_exists; [exact Nb|exact (proj1 L2)|lra]|exact Lab]).
      apply to_same. eapply sames_trans; [exact (from_begin a s0 (te ci) (ts w0) Es0 (proj1 L0))|]. eapply sames_trans; [exact S0|].
      apply (to_end a (from_time a b2) (te ci)); [reflexivity|]. apply (lasting_from (ts ci)); auto; lra.
    + assert (Lt : (i < j)%nat) by lia. destruct (split_two ws i j ci cj Lt Ci Cj) as (pre & mid & post & -> & Lp & Lm).
      rewrite (seg_multi pre mid post ci cj i j Lp Lm).
      apply Forall_app in Fs as [F1 F2]. inversion F2 as [|? ? F3 F4]; subst. apply Forall_app in F4 as [F5 F6]. inversion F6 as [|? ? F7 F8]; subst.
      destruct (flat_split _ _ _ E) as (b1 & b' & -> & E1 & E'). destruct (flat_cons _ _ _ E') as (b2 & b'' & -> & E2 & E'').
      destruct (flat_split _ _ _ E'') as (b3 & b3p & -> & E3 & E3p). destruct (flat_cons _ _ _ E3p) as (b4 & b5 & -> & E4 & E5).
      destruct (lasting_app _ _ _ _ L) as (m1 & L1 & L' & _). destruct (lasting_app _ _ _ _ L') as (m2 & L2 & L'' & _).
      destruct (lasting_app _ _ _ _ L'') as (m3 & L3 & L3p & _). destruct (lasting_app _ _ _ _ L3p) as (m4 & L4 & L5 & _).
      destruct (child_lasting ci m1 m2 b2 F3 E2 L2) as (Nb & Es & Ee & L2').
      destruct (child_lasting cj m3 m4 b4 F7 E4 L4) as (Nb4 & Es4 & Ee4 & L4').
      assert (T1 : tiles m1 (spans (b2 ++ b3 ++ b4)) m4).
      { rewrite !map_app. apply tiles_app. exists m2. split; [exact (proj1 L2)|]. apply tiles_app. exists m3. split; [exact (proj1 L3)|exact (proj1 L4)]. }
      rewrite (mapM_copy (ci :: mid ++ [cj]) m1 m4 (b2 ++ b3 ++ b4)); auto.
      2:{ constructor; auto. apply Forall_app. auto. }
      2:{ cbn [flat_map]. rewrite flat_map_app. cbn [flat_map]. rewrite app_nil_r, E2, E3, E4, !map_app. reflexivity. }
      cbn [bind]. rewrite py_nth_0. cbn [bind]. rewrite t_end_ok by auto. cbn [bind].
      destruct (IH ci (ts ci) (te ci) b2 a (te ci)) as (w0 & s0 & H0 & F0 & D0 & E0 & S0); auto; try lra.
      { apply Dc, in_or_app. right. now left. }
      rewrite H0. cbn [bind]. rewrite py_set_0. cbn [bind]. rewrite app_comm_cons, py_nth_m1. cbn [bind]. rewrite t_start_ok by auto. cbn [bind].
      destruct (IH cj (ts cj) (te cj) b4 (ts cj) b) as (w1 & s1 & H1 & F1' & D1 & Ew1 & S1); auto; try lra.
      { apply Dc, in_or_app. right. right. apply in_or_app. right. now left. }
      rewrite H1. cbn [bind]. rewrite py_set_m1. cbn [bind].
      assert (L0 : lasting a s0 (te ci)) by (apply (crop_lasting (ts ci) b2 (te ci) a (te ci)); auto; lra).
      assert (L1' : lasting (ts cj) s1 b) by (apply (crop_lasting (ts cj) b4 (te cj) (ts cj) b); auto; lra).
      assert (Ff : Forall filled ((w0 :: mid) ++ [w1])) by (apply Forall_app; split; [constructor; auto|auto]).
      assert (El : flat_map t_leaves ((w0 :: mid) ++ [w1]) = map LB (s0 ++ b3 ++ s1)).
      { rewrite flat_map_app. cbn [flat_map]. rewrite app_nil_r, E0, E3, Ew1, !map_app, app_assoc. reflexivity. }
      assert (Tn : tiles a (spans (s0 ++ b3 ++ s1)) b).
      { rewrite !map_app. apply tiles_app. exists (te ci). split; [exact (proj1 L0)|]. apply tiles_app. exists (ts cj). split; [|exact (proj1 L1')].
        eapply tiles_comp; [| |exact (proj1 L3)]; [now symmetry|now symmetry]. }
      rewrite new_cat_proxy by auto. rewrite (tiles_ok a (map proxy ((w0 :: mid) ++ [w1])) b).
      2:{ discriminate. }
      2:{ apply tiles_proxies; auto. rewrite El, span_basic. exact Tn. }
      exists (TCat ((w0 :: mid) ++ [w1])), (s0 ++ b3 ++ s1). split; [reflexivity|]. split; [constructor; [discriminate|auto]|].
      split. { apply depth_cat. apply Forall_app. split; [constructor; auto|auto]. apply Forall_forall. intros x Hx. apply Dc, in_or_app. right. right. apply in_or_app. now left. }
      split; [exact El|].
      assert (Before : forall v, In v (pre ++ ci :: mid) -> te v < b).
      { intros v Hv. apply In_nth_error in Hv as (k & Hk). assert (Lk : (k < length (pre ++ ci :: mid))%nat) by (apply nth_error_Some; congruence).
        apply (Fj' k v). - rewrite app_length in Lk. cbn in Lk. lia. - change (pre ++ ci :: mid ++ cj :: post) with (pre ++ (ci :: mid) ++ cj :: post). rewrite app_assoc, nth_error_app1; auto. }
      rewrite (from_skip a b1).
      2:{ apply (ends_before a pre lo m1 b1); auto; [exact (proj1 L1)|]. intros v Hv. apply In_nth_error in Hv as (k & Hk). assert (Lk : (k < length pre)%nat) by (apply nth_error_Some; congruence).
          apply (Fi' k v Lk). now rewrite nth_error_app1. }
      rewrite (from_stop a b2) by (eapply tiles_exists; [exact Nb|exact (proj1 L2)|lra]).
      rewrite to_pass.
      2:{ apply from_ends; [intros p q Hpq; now rewrite Hpq|]. apply (ends_before b [ci] m1 m2 b2); auto; [cbn; now rewrite app_nil_r|exact (proj1 L2)|].
          intros v [<-|[]]. apply Before, in_or_app. right. now left. }
      rewrite to_pass.
      2:{ apply (ends_before b mid m2 m3 b3); auto; [exact (proj1 L3)|]. intros v Hv. apply Before, in_or_app. right. now right. }
      rewrite to_stop by (eapply tiles_exists; [exact Nb4|exact (proj1 L4)|lra]).
      apply Forall2_app; [|apply Forall2_app; [apply sames_refl|]].
      * eapply sames_trans; [exact S0|]. apply (to_end a (from_time a b2) (te ci)); [reflexivity|]. apply (lasting_from (ts ci)); auto; lra.
      * eapply sames_trans; [exact S1|]. apply to_same. apply (from_begin (ts cj) b4 (te cj)); [reflexivity|exact (proj1 L4')].
Qed.
Lemma subwindow w lo hi bs a b : filled w -> t_leaves w = map LB bs -> lasting lo bs hi -> lo <= a -> a <= b -> b <= hi ->
  exists w' bs', t_get_subwindow files w a b = Ok w' /\ built w' /\ t_leaves w' = map LB bs' /\ sames bs' (to_time b (from_time a bs)) /\ lasting a bs' b.
Proof.
  intros F E L La Lab Lb. destruct (sub_ok (depth w) w lo hi bs a b (le_n _) F E L La Lab Lb) as (w' & bs' & H & F' & _ & E' & S).
  exists w', bs'. split; [exact H|]. destruct (child_lasting w lo hi bs F E L) as (N & _). pose proof (crop_lasting lo bs hi a b bs' N L La Lab Lb S) as L'.
  split; [|auto]. pose proof (proj1 L') as T. clear - F' E' T. revert a b bs' F' E' T.
  induction w' as [l|ws IH] using tree_ind_strong; intros a b bs' F E T; [constructor|]. inversion F as [|? N Fs]; subst. cbn [t_leaves] in E. constructor.
  - clear F N. revert a bs' E T. induction IH as [|w ws H _ IH]; intros a bs' E T; [constructor|]. inversion Fs as [|? ? F1 F2]; subst.
    apply flat_cons in E as (b1 & b2 & -> & E1 & E2). rewrite map_app in T. apply tiles_app in T as (m & T1 & T2). constructor; [eapply H; eauto|eapply IH; eauto].
  - rewrite new_cat_proxy by auto. rewrite (tiles_ok a (map proxy ws) b); auto; [destruct ws; [contradiction|discriminate]|].
    apply tiles_proxies; auto. rewrite E, span_basic. exact T.
Qed.
End Sub.
