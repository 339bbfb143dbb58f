(** * Proofs about concatenations that contain concatenations: trees of windows. *)

From Coq Require Import List ZArith QArith Bool Lia Lqa.
Import ListNotations.
From Verif Require Import Py Py_proof ListUtil window_model window_spec window_proof window_concat winnest_model winnest_spec winnest_proof.
Open Scope py_scope.
Local Open Scope Q_scope.

Section Trees.
Context {O A P : Type} (files : wavfiles P A).
Notation tree := (tree O A P).
Notation leaf := (leaf O A P).
Implicit Types (w : tree) (ws : list tree) (l : leaf) (ls : list leaf).

Lemma tree_ind_strong (R : tree -> Prop) : (forall l, R (TLeaf l)) -> (forall ws, Forall R ws -> R (TCat ws)) -> forall w, R w.
Proof.
  intros Hl Hc. fix IH 1. intros [l|ws]; [apply Hl|]. apply Hc. induction ws as [|w ws IHws]; constructor; [apply IH|exact IHws].
Qed.

Lemma filled_leaves w : filled w -> t_leaves w <> [].
Proof.
  induction w as [l|ws IH] using tree_ind_strong; intros F; [discriminate|]. inversion F as [|? N Fs]; subst. cbn.
  destruct ws as [|w ws]; [contradiction|]. inversion IH as [|? ? I1 I2]; inversion Fs as [|? ? F1 F2]; subst. cbn. intro E. apply app_eq_nil in E as [E _]. exact (I1 F1 E).
Qed.

(** First and last times. *)
Definition first_of ls : Q := match ls with [] => 0 | l :: _ => w_start l end.
Definition last_of ls : Q := match rev ls with [] => 0 | l :: _ => w_end l end.
Definition ts w : Q := first_of (t_leaves w).
Definition te w : Q := last_of (t_leaves w).
Lemma first_app ls ls' : ls <> [] -> first_of (ls ++ ls') = first_of ls.
Proof. destruct ls; [contradiction|reflexivity]. Qed.
Lemma last_app ls ls' : ls' <> [] -> last_of (ls ++ ls') = last_of ls'.
Proof.
  intro N. unfold last_of. rewrite rev_app_distr. destruct (rev ls') eqn:E; [|reflexivity].
  apply (f_equal (@rev _)) in E. rewrite rev_involutive in E. contradiction.
Qed.
Lemma t_start_ok w : filled w -> t_start w = Ok (ts w).
Proof.
  induction w as [l|ws IH] using tree_ind_strong; intros F; [reflexivity|]. inversion F as [|? N Fs]; subst.
  destruct ws as [|w ws]; [contradiction|]. inversion IH as [|? ? H1 H2]; inversion Fs; subst. cbn [t_start]. rewrite H1 by auto. unfold ts. cbn [t_leaves flat_map].
  f_equal. symmetry. apply first_app. now apply filled_leaves.
Qed.
Lemma t_end_ok w : filled w -> t_end w = Ok (te w).
Proof.
  induction w as [l|ws IH] using tree_ind_strong; intros F; [reflexivity|]. inversion F as [|? N Fs]; subst. unfold te. cbn [t_leaves].
  clear F. revert N. induction ws as [|w ws IHws]; intro N; [contradiction|]. inversion IH as [|? ? H1 H2]; inversion Fs as [|? ? F1 F2]; subst.
  destruct ws as [|w' ws].
  - cbn [t_end flat_map]. rewrite app_nil_r. auto.
  - change (t_end (TCat (w :: w' :: ws))) with (t_end (TCat (w' :: ws))). rewrite (IHws H2 F2) by discriminate. f_equal. cbn [flat_map].
    symmetry. apply last_app. inversion F2; subst. intro E. apply app_eq_nil in E as [E _]. revert E. now apply filled_leaves.
Qed.

(** A basic window with the times of a tree. *)
Definition proxy w : leaf := LB (Basic (ts w) (te w) None).
Lemma mapM_start ws : Forall filled ws -> mapM t_start ws = Ok (map w_start (map proxy ws)).
Proof. intro F. rewrite map_map. apply mapM_pure. intros w Hw. cbn. apply t_start_ok. rewrite Forall_forall in F. auto. Qed.
Lemma mapM_end ws : Forall filled ws -> mapM t_end ws = Ok (map w_end (map proxy ws)).
Proof. intro F. rewrite map_map. apply mapM_pure. intros w Hw. cbn. apply t_end_ok. rewrite Forall_forall in F. auto. Qed.
Lemma new_cat_proxy ws : Forall filled ws ->
  new_cat ws = match new_concat (map proxy ws) with Ok _ => Ok (TCat ws) | Err e => Err e end.
Proof.
  intro F. unfold new_cat, new_concat. rewrite map_length. destruct (length ws <? 1)%nat; [reflexivity|].
  rewrite mapM_start, mapM_end; auto.
  - cbn [bind]. rewrite !slice_from_1. replace (tl (map proxy ws)) with (map proxy (tl ws)) by (destruct ws; reflexivity).
    destruct (Qlt_bool _ _); reflexivity.
  - rewrite slice_from_1. destruct F; [constructor|auto].
Qed.
Lemma t_index_proxy ws t : ws <> [] -> Forall filled ws -> t_index ws t = get_file_index (map proxy ws) t.
Proof.
  intros N F. assert (Fc : filled (TCat ws)) by now constructor. unfold t_index, get_file_index. rewrite (t_start_ok _ Fc), (t_end_ok _ Fc), mapM_end by auto.
  assert (N' : map proxy ws <> []) by (destruct ws; [contradiction|discriminate]).
  assert (E1 : concat_start (map proxy ws) = Ok (ts (TCat ws))).
  { destruct ws as [|w ws]; [contradiction|]. unfold concat_start. cbn [map]. rewrite py_nth_0. cbn. unfold ts. cbn [t_leaves flat_map].
    inversion F; subst. rewrite first_app; auto using filled_leaves. }
  assert (E2 : concat_end (map proxy ws) = Ok (te (TCat ws))).
  { destruct (snoc_case ws N) as (l & x & ->). unfold concat_end. rewrite map_app. cbn [map]. rewrite py_nth_m1. cbn. unfold te. cbn [t_leaves].
    rewrite flat_map_app. cbn [flat_map]. rewrite app_nil_r. apply Forall_app in F as [_ F]. inversion F; subst. rewrite last_app; auto using filled_leaves. }
  rewrite E1, E2. cbn [bind]. destruct (check_time _ _ t); reflexivity.
Qed.

(** ** Construction. *)
Lemma chained_app tol s1 s2 : chained tol (s1 ++ s2) <->
  chained tol s1 /\ chained tol s2 /\ match rev s1, s2 with p :: _, q :: _ => near tol (snd p) (fst q) | _, _ => True end.
Proof.
  induction s1 as [|p s1 IH]; [cbn; tauto|]. destruct s1 as [|q s1].
  - cbn [app rev]. destruct s2 as [|r s2]; cbn; tauto.
  - cbn [app] in *. change (chained tol (p :: q :: s1 ++ s2)) with (near tol (snd p) (fst q) /\ chained tol (q :: s1 ++ s2)).
    change (chained tol (p :: q :: s1)) with (near tol (snd p) (fst q) /\ chained tol (q :: s1)). rewrite IH.
    assert (E : exists r rs, rev (q :: s1) = r :: rs).
    { destruct (rev (q :: s1)) as [|r rs] eqn:E; [|eauto]. apply (f_equal (@length _)) in E. rewrite rev_length in E. discriminate E. }
    destruct E as (r & rs & E). change (rev (p :: q :: s1)) with (rev (q :: s1) ++ [p]). rewrite E. cbn [app]. tauto.
Qed.
Lemma first_span ls : ls <> [] -> exists q s, map span ls = q :: s /\ fst q = first_of ls.
Proof. destruct ls as [|l ls]; [contradiction|]. intros _. exists (span l), (map span ls). auto. Qed.
Lemma last_span ls : ls <> [] -> exists q s, rev (map span ls) = q :: s /\ snd q = last_of ls.
Proof.
  intro N. unfold last_of. rewrite <- map_rev. destruct (rev ls) as [|l r] eqn:E.
  - apply (f_equal (@rev _)) in E. rewrite rev_involutive in E. contradiction.
  - exists (span l), (map span r). auto.
Qed.
Lemma chained_flat ws : Forall filled ws -> Forall (fun w => chained TOL (map span (t_leaves w))) ws ->
  (chained TOL (map span (flat_map t_leaves ws)) <-> chained TOL (map span (map proxy ws))).
Proof.
  induction ws as [|w ws IH]; intros F C; [cbn; tauto|]. inversion F as [|? ? F1 F2]; inversion C as [|? ? C1 C2]; subst. cbn [flat_map]. rewrite map_app, chained_app, (IH F2 C2).
  destruct ws as [|w' ws].
  - cbn. destruct (rev (map span (t_leaves w))); tauto.
  - change (map span (map proxy (w :: w' :: ws))) with ([span (proxy w)] ++ map span (map proxy (w' :: ws))).
    rewrite (chained_app TOL [span (proxy w)]). inversion F2 as [|? ? F3 F4]; subst.
    destruct (last_span (t_leaves w) (filled_leaves _ F1)) as (q & s & -> & Eq).
    cbn [flat_map]. rewrite map_app. destruct (first_span (t_leaves w') (filled_leaves _ F3)) as (q' & s' & -> & Eq').
    cbn [app rev map span fst snd]. rewrite Eq, Eq'. cbn. unfold te, ts. tauto.
Qed.
Lemma new_cat_ok ws : Forall filled ws -> Forall (fun w => chained TOL (map span (t_leaves w))) ws ->
  (new_cat ws = Ok (TCat ws) <-> ws <> [] /\ chained TOL (map span (flat_map t_leaves ws))).
Proof.
  intros F C. rewrite new_cat_proxy by auto. rewrite chained_flat by auto.
  destruct (new_concat_cases (map proxy ws)) as [(E & N & K)|(E & K)]; rewrite E.
  - split; auto. intros _. split; auto. intros ->. contradiction.
  - split; [discriminate|]. intros [N H]. exfalso. apply K. split; auto. destruct ws; [contradiction|discriminate].
Qed.
Lemma built_chained w : built w -> filled w /\ chained TOL (map span (t_leaves w)).
Proof.
  induction w as [l|ws IH] using tree_ind_strong; intros B; [split; [constructor|cbn; auto]|]. inversion B as [|? Bs E]; subst.
  assert (H : Forall filled ws /\ Forall (fun w => chained TOL (map span (t_leaves w))) ws).
  { clear E B. induction IH as [|w ws H1 _ IH2]; [split; constructor|]. inversion Bs; subst. destruct H1; auto. destruct IH2; auto. }
  destruct H as [F C]. apply (new_cat_ok ws F C) in E as [N E]. split; [now constructor|exact E].
Qed.
Lemma construct_flat ws : Forall built ws ->
  (new_cat ws = Ok (TCat ws) /\ ws <> [] /\ new_concat (flat_map t_leaves ws) = Ok (flat_map t_leaves ws)) \/
  (new_cat ws = Err ValueError /\ (ws = [] \/ new_concat (flat_map t_leaves ws) = Err ValueError)).
Proof.
  intro B. assert (F : Forall filled ws) by (eapply Forall_impl; [|exact B]; intros w H; now apply built_chained).
  assert (C : Forall (fun w => chained TOL (map span (t_leaves w))) ws) by (eapply Forall_impl; [|exact B]; intros w H; now apply built_chained).
  pose proof (new_cat_ok ws F C) as H. pose proof (new_cat_proxy ws F) as Hp. pose proof (new_concat_ok (flat_map t_leaves ws)) as Hf.
  destruct ws as [|w ws]; [right; split; [reflexivity|now left]|].
  assert (Nf : flat_map t_leaves (w :: ws) <> []).
  { inversion F; subst. cbn. intro E. apply app_eq_nil in E as [E _]. revert E. now apply filled_leaves. }
  destruct (new_concat_cases (map proxy (w :: ws))) as [(E & N & K)|(E & K)]; rewrite E in Hp.
  - left. split; auto. split; [discriminate|]. apply Hf. split; auto. now apply H.
  - right. split; auto. right. apply new_concat_err. intros [_ X]. rewrite Hp in H. destruct H as [_ H]. specialize (H ltac:(split; [discriminate|exact X])). discriminate.
Qed.

(** ** Moving. *)
Lemma move_leaves w d : t_leaves (t_move w d) = map (fun l => move l d) (t_leaves w).
Proof.
  induction w as [l|ws IH] using tree_ind_strong; [reflexivity|]. cbn. induction IH as [|w ws H _ IH]; [reflexivity|]. cbn. rewrite map_app, H, IH. reflexivity.
Qed.
Lemma move_filled w d : filled w -> filled (t_move w d).
Proof.
  induction w as [l|ws IH] using tree_ind_strong; intro F; [constructor|]. inversion F as [|? N Fs]; subst. cbn. constructor; [destruct ws; [contradiction|discriminate]|].
  clear N F. induction IH; inversion Fs; subst; constructor; auto.
Qed.

(** ** Arrays. *)
Lemma sequence_ok {X Y} (f : X -> result Y) (xs : list X) ys : sequence (map f xs) = Ok ys <-> Forall2 (fun x y => f x = Ok y) xs ys.
Proof.
  unfold sequence. rewrite mapM_ok. revert ys. induction xs as [|x xs IH]; intro ys; split; intro H; inversion H; subst; constructor; auto; now apply IH.
Qed.
Lemma array_concatenate_inv (arrs : list (arrw A)) arr : array_concatenate arrs = Ok arr <->
  exists a0 r, arrs = a0 :: r /\ Forall (fun a => a_rate a == a_rate a0) arrs /\ ~ a_rate a0 == 0 /\
    arr = Arrw (a_start a0) (a_start a0 + inject_Z (Z.of_nat (length (flat_map a_data arrs))) * 1 / a_rate a0) (a_rate a0) (flat_map a_data arrs).
Proof.
  unfold array_concatenate. destruct arrs as [|a0 r]; [split; [discriminate|intros (? & ? & E & _); discriminate E]|].
  destruct (forallb (fun x : arrw A => Qeq_bool (a_rate x) (a_rate a0)) (a0 :: r)) eqn:E.
  - assert (Fa : Forall (fun a => a_rate a == a_rate a0) (a0 :: r)).
    { apply Forall_forall. intros a Ha. rewrite forallb_forall in E. specialize (E a Ha). now apply Qeq_bool_iff. }
    rewrite <- flat_map_concat_map. unfold new_array_window, samples_to_duration, py_div. destruct (Qeq_bool (a_rate a0) 0) eqn:Z.
    + split; [discriminate|]. intros (? & ? & E1 & _ & K & _). injection E1 as <- <-. apply Qeq_bool_iff in Z. contradiction.
    + cbn [bind]. split.
      * intro H. injection H as <-. exists a0, r. split; auto. split; auto. split; auto. now apply Qeq_bool_neq.
      * intros (? & ? & E1 & _ & _ & ->). injection E1 as <- <-. reflexivity.
  - split; [discriminate|]. intros (? & ? & E1 & Fa & _). injection E1 as <- <-. exfalso. rewrite <- not_true_iff_false in E. apply E.
    apply forallb_forall. intros a Ha. rewrite Forall_forall in Fa. apply Qeq_bool_iff. auto.
Qed.
(** Groups of arrays. *)
Lemma array_groups (gs : list (list (arrw A))) arr : Forall (fun g => g <> []) gs ->
  (array_concatenate (concat gs) = Ok arr <-> exists arrs, Forall2 (fun g a => array_concatenate g = Ok a) gs arrs /\ array_concatenate arrs = Ok arr).
Proof.
  intro N. split.
  - intro H. apply array_concatenate_inv in H as (a0 & r & E & Fa & Z & ->).
    assert (X : exists arrs, Forall2 (fun g a => array_concatenate g = Ok a) gs arrs /\ Forall (fun a => a_rate a == a_rate a0) arrs /\ flat_map a_data arrs = flat_map a_data (concat gs) /\
                forall g gs', gs = g :: gs' -> exists b r', arrs = b :: r' /\ a_rate b = a_rate (hd a0 g) /\ a_start b = a_start (hd a0 g)).
    { clear E. induction gs as [|g gs IH]; [exists []; repeat split; constructor || discriminate|]. inversion N as [|? ? N1 N2]; subst. cbn [concat] in *.
      apply Forall_app in Fa as [F1 F2]. destruct (IH N2 F2) as (arrs & X1 & X2 & X3 & _). destruct g as [|b g]; [contradiction|].
      inversion F1 as [|? ? Eb Fg]; subst.
      eexists (Arrw (a_start b) (a_start b + inject_Z (Z.of_nat (length (flat_map a_data (b :: g)))) * 1 / a_rate b) (a_rate b) (flat_map a_data (b :: g)) :: arrs). split; [constructor; auto|].
      - apply array_concatenate_inv. exists b, g. split; auto. split; [|split; [|reflexivity]].
        + eapply Forall_impl; [|exact F1]. cbn. intros c Hc. now rewrite Hc, Eb.
        + now rewrite Eb.
      - split; [constructor; auto|]. split; [cbn [flat_map a_data]; rewrite X3, flat_map_app; reflexivity|]. intros ? ? E. injection E as <- <-. do 2 eexists. split; [reflexivity|]. auto. }
    destruct X as (arrs & X1 & X2 & X3 & X4). exists arrs. split; auto. apply array_concatenate_inv.
    destruct gs as [|g gs]; [discriminate E|]. destruct (X4 g gs eq_refl) as (b & r' & -> & Er & Es). inversion N as [|? ? N1 N2]; subst. destruct g as [|c g]; [contradiction|].
    cbn in E. injection E as <- <-. cbn [hd] in *. exists b, r'. split; auto. rewrite Er, Es, X3. split; auto.
  - intros (arrs & H & K). apply array_concatenate_inv in K as (b & r' & -> & Fa & Z & ->). apply array_concatenate_inv.
    inversion H as [|g ? gs' ? Hg Hgs]; subst. apply array_concatenate_inv in Hg as (c & g' & -> & Fg & Zc & ->). cbn [a_rate a_start] in *.
    exists c, (g' ++ concat gs'). split; [reflexivity|]. inversion Fa as [|? ? _ Fa']; subst.
    assert (X : Forall (fun a => a_rate a == a_rate c) (concat gs') /\ flat_map a_data r' = flat_map a_data (concat gs')).
    { clear - Hgs Fa'. induction Hgs as [|g a gs as' Hg _ IH]; [split; constructor|]. inversion Fa' as [|? ? E1 E2]; subst. destruct (IH E2) as [I1 I2].
      apply array_concatenate_inv in Hg as (d & g' & -> & Fg & Zc & ->). cbn [a_rate] in E1. split.
      - cbn [concat]. apply Forall_app. split; auto. eapply Forall_impl; [|exact Fg]. cbn. intros x Hx. now rewrite Hx.
      - cbn [flat_map a_data concat]. rewrite flat_map_app, I2. reflexivity. }
    destruct X as [X1 X2]. split; [cbn [concat]; apply Forall_app; split; auto|]. split; auto.
    cbn [flat_map a_data concat]. rewrite X2, (flat_map_app a_data (c :: g')). reflexivity.
Qed.
Lemma array_copy_single (a b : arrw A) : array_concatenate [a] = Ok b <-> array_copy a = Ok b.
Proof.
  unfold array_concatenate, array_copy. cbn [forallb andb map concat]. replace (Qeq_bool (a_rate a) (a_rate a)) with true by (symmetry; apply Qeq_bool_iff; reflexivity).
  rewrite app_nil_r. reflexivity.
Qed.
Lemma leaf_array l a : to_array_window files l = Ok a -> array_concatenate [a] = Ok a.
Proof.
  intro H. apply array_copy_single. assert (X : exists d s r, new_array_window d s r = Ok a).
  { destruct l as [b|x|v]; cbn in H; [discriminate|unfold array_copy in H; eauto|]. unfold wav_to_array in H. destruct (files (v_path v)) as [[sr sm]|]; [|discriminate]. cbn in H. eauto. }
  destruct X as (d & s & r & X). unfold new_array_window in X. destruct (samples_to_duration r _) as [x|] eqn:E; [|discriminate]. cbn in X. injection X as <-.
  unfold array_copy, new_array_window. cbn [a_data a_start a_rate]. rewrite E. reflexivity.
Qed.
Lemma to_array_leaves w arr : filled w -> (t_to_array files w = Ok arr <-> concat_to_array files (t_leaves w) = Ok arr).
Proof.
  revert arr. induction w as [l|ws IH] using tree_ind_strong; intros arr F.
  - cbn [t_to_array t_leaves]. unfold concat_to_array. cbn [mapM]. destruct (to_array_window files l) as [a|e] eqn:E; [|cbn; split; discriminate].
    cbn [bind]. rewrite (leaf_array l a E). tauto.
  - inversion F as [|? N Fs]; subst. cbn [t_to_array t_leaves]. unfold concat_to_array.
    assert (X : forall arrs, Forall2 (fun w a => t_to_array files w = Ok a) ws arrs <->
       exists gs, Forall2 (fun w g => mapM (to_array_window files) (t_leaves w) = Ok g) ws gs /\ Forall2 (fun g a => array_concatenate g = Ok a) gs arrs).
    { clear F N. induction IH as [|w ws H _ IH]; intro arrs.
      - split; [intro H; inversion H; subst; exists []; split; constructor|]. intros (gs & H1 & H2). inversion H1; subst. inversion H2; subst. constructor.
      - inversion Fs as [|? ? F1 F2]; subst. specialize (IH F2). split.
        + intro K. inversion K as [|? a ? r K1 K2]; subst. apply IH in K2 as (gs & G1 & G2). apply H in K1; auto. unfold concat_to_array in K1.
          destruct (mapM (to_array_window files) (t_leaves w)) as [g|] eqn:E; [|discriminate]. cbn in K1. exists (g :: gs). split; constructor; auto.
        + intros (gs & H1 & H2). inversion H1 as [|? g ? gs' G1 G2]; subst. inversion H2 as [|? a ? r A1 A2]; subst. constructor; [|apply IH; eauto].
          apply H; auto. unfold concat_to_array. rewrite G1. exact A1. }
    assert (Y : forall g, mapM (to_array_window files) (flat_map t_leaves ws) = Ok g <->
       exists gs, Forall2 (fun w g => mapM (to_array_window files) (t_leaves w) = Ok g) ws gs /\ g = concat gs).
    { clear. induction ws as [|w ws IH]; intro g.
      - cbn. split; [intro H; injection H as <-; exists []; split; [constructor|reflexivity]|]. intros (gs & H & ->). inversion H; subst. reflexivity.
      - cbn [flat_map]. rewrite mapM_ok. split.
        + intro H. apply Forall2_app_inv_l in H as (g1 & g2 & G1 & G2 & ->). apply mapM_ok in G2. apply IH in G2 as (gs & G3 & ->). exists (g1 :: gs). split; [constructor; auto|reflexivity].
          now apply mapM_ok.
        + intros (gs & H & ->). inversion H as [|? g1 ? gs' G1 G2]; subst. cbn [concat]. apply Forall2_app; [now apply mapM_ok|]. apply mapM_ok, IH. eauto. }
    assert (Ne : forall gs, Forall2 (fun w g => mapM (to_array_window files) (t_leaves w) = Ok g) ws gs -> Forall (fun g => g <> []) gs).
    { intros gs H. clear - H Fs. induction H as [|w g ws gs H _ IH]; [constructor|]. inversion Fs as [|? ? F1 F2]; subst. constructor; auto. intros ->. apply mapM_length in H.
      apply filled_leaves in F1. destruct (t_leaves w); [contradiction|discriminate]. }
    split.
    + intro H. destruct (sequence (map (t_to_array files) ws)) as [arrs|] eqn:E; [|discriminate]. cbn in H. apply sequence_ok in E. apply X in E as (gs & G1 & G2).
      rewrite (proj2 (Y (concat gs))) by eauto. cbn. apply array_groups; eauto.
    + intro H. destruct (mapM (to_array_window files) (flat_map t_leaves ws)) as [g|] eqn:E; [|discriminate]. cbn in H. destruct (proj1 (Y g) eq_refl) as (gs & G1 & ->).
      apply array_groups in H as (arrs & A1 & A2); [|eauto]. assert (S : sequence (map (t_to_array files) ws) = Ok arrs) by (apply sequence_ok, X; eauto). rewrite S. exact A2.
Qed.
End Trees.
