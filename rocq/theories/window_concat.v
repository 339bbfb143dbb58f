(** * Proofs about concatenations of windows, slider and frames. *)

From Coq Require Import List ZArith QArith Qround Bool Lia Lqa Psatz.
Import ListNotations.
From Verif Require Import Py Py_proof ListUtil window_model window_spec window_proof.
Open Scope py_scope.
Local Open Scope Q_scope.

Section Concat.
Context {O A P : Type} (files : wavfiles P A).
Notation leaf := (leaf O A P).
Implicit Types (w : leaf) (ws : list leaf).

Definition span w : Q * Q := (w_start w, w_end w).

(** ** Construction. *)
Lemma Qabs_diff_near tol a b : (Qabs_diff a b <= tol <-> near tol a b).
Proof. unfold Qabs_diff, near. destruct (Qle_bool_spec b a); lra. Qed.

Lemma Qmax_list_le tol l : 0 <= tol -> (Qmax_list l <= tol <-> Forall (fun x => x <= tol) l).
Proof.
  intro T. unfold Qmax_list. induction l as [|x l IH]; cbn.
  - split; auto.
  - set (m := fold_right _ _ l) in *. rewrite Forall_cons_iff, <- IH.
    destruct (Qle_bool_spec x m); lra.
Qed.

Lemma slice_to_m1 {X} (l : list X) : slice_to l (-1) = removelast l.
Proof.
  rewrite removelast_firstn_len. unfold slice_to, clamp_slice.
  replace (-1 <? 0)%Z with true by reflexivity. f_equal. lia.
Qed.
Lemma slice_from_1 {X} (l : list X) : slice_from l 1 = tl l.
Proof.
  unfold slice_from, clamp_slice. replace (1 <? 0)%Z with false by reflexivity.
  destruct l as [|x l]; auto. cbn [length tl].
  replace (Z.to_nat _) with 1%nat by lia. reflexivity.
Qed.

Lemma gaps_chained tol ws :
  Forall (fun x => x <= tol)
    (map (fun p => Qabs_diff (fst p) (snd p))
       (combine (removelast (map w_end ws)) (map w_start (tl ws)))) <->
  chained tol (map span ws).
Proof.
  destruct ws as [|w ws]; [cbn; split; auto|].
  revert w. induction ws as [|w' ws IH]; intro w; [cbn; split; auto|].
  specialize (IH w'). cbn [tl map] in *.
  change (removelast (w_end w :: w_end w' :: map w_end ws))
    with (w_end w :: removelast (w_end w' :: map w_end ws)).
  cbn [combine map fst snd]. rewrite Forall_cons_iff.
  change (chained tol (span w :: span w' :: map span ws))
    with (near tol (w_end w) (w_start w') /\ chained tol (span w' :: map span ws)).
  rewrite <- IH, Qabs_diff_near. reflexivity.
Qed.

Lemma new_concat_cases ws :
  (new_concat ws = Ok ws /\ ws <> [] /\ chained TOL (map span ws)) \/
  (new_concat ws = Err ValueError /\ ~ (ws <> [] /\ chained TOL (map span ws))).
Proof.
  unfold new_concat. rewrite slice_to_m1, slice_from_1.
  destruct ws as [|w ws]; [right; cbn; split; auto; intros [H _]; auto|].
  cbn [length Nat.ltb Nat.leb]. set (l := map _ (combine _ _)).
  assert (G := gaps_chained TOL (w :: ws)). fold l in G.
  assert (M := Qmax_list_le TOL l (Qlt_le_weak _ _ TOL_pos)).
  destruct (Qlt_bool_spec TOL (Qmax_list l)) as [H|H].
  - right. split; auto. intros [_ K]. apply G in K. apply M in K. lra.
  - left. split; auto. split; [discriminate|]. apply G, M. auto.
Qed.
Lemma new_concat_ok ws : new_concat ws = Ok ws <-> ws <> [] /\ chained TOL (map span ws).
Proof.
  destruct (new_concat_cases ws) as [[H K]|[H K]]; rewrite H; split; auto; try tauto. discriminate.
Qed.
Lemma new_concat_err ws : new_concat ws = Err ValueError <-> ~ (ws <> [] /\ chained TOL (map span ws)).
Proof.
  destruct (new_concat_cases ws) as [[H K]|[H K]]; rewrite H; split; auto; try tauto. discriminate.
Qed.
Lemma new_concat_id ws ws' : new_concat ws = Ok ws' -> ws' = ws.
Proof. destruct (new_concat_cases ws) as [[H K]|[H K]]; rewrite H; congruence. Qed.

Lemma near_sym0 a b : near 0 a b <-> a == b.
Proof. unfold near. lra. Qed.
Lemma near_weaken t u a b : t <= u -> near t a b -> near u a b.
Proof. unfold near. lra. Qed.
Lemma chained_weaken t u l : t <= u -> chained t l -> chained u l.
Proof.
  intro H. induction l as [|p [|q l] IH]; auto. intros [C1 C2]. split; auto.
  eapply near_weaken; eauto.
Qed.

(** ** Tilings. *)
Lemma tiles_app lo l1 l2 hi : tiles lo (l1 ++ l2) hi <-> exists m, tiles lo l1 m /\ tiles m l2 hi.
Proof.
  revert lo. induction l1 as [|p l1 IH]; intro lo; cbn.
  - split.
    + intro H. exists lo. split; [reflexivity|auto].
    + intros (m & E & H). destruct l2; cbn in *; [lra|]. intuition lra.
  - rewrite IH. split.
    + intros (? & ? & m & ? & ?). exists m. auto.
    + intros (m & (? & ? & ?) & ?). eauto 6.
Qed.
Lemma tiles_le lo l hi : tiles lo l hi -> lo <= hi.
Proof.
  revert lo. induction l as [|p l IH]; intro lo; cbn; [lra|]. intros (? & ? & H). apply IH in H. lra.
Qed.
Lemma tiles_comp lo lo' l hi hi' : lo == lo' -> hi == hi' -> tiles lo l hi -> tiles lo' l hi'.
Proof.
  intros E F. revert lo lo' E. induction l as [|p l IH]; intros lo lo' E; cbn; [lra|].
  intros (? & ? & H). split; [lra|]. split; [lra|]. revert H. apply IH. lra.
Qed.
Lemma tiles_chained lo l hi : tiles lo l hi -> chained 0 l.
Proof.
  revert lo. induction l as [|p [|q l] IH]; intros lo; cbn -[chained]; try (cbn; auto; fail).
  intros (? & ? & H). split; [|apply (IH (snd p)); auto].
  apply near_sym0. destruct H as (H & _). lra.
Qed.
Lemma tiles_ok lo ws hi : ws <> [] -> tiles lo (map span ws) hi -> new_concat ws = Ok ws.
Proof.
  intros N T. apply new_concat_ok. split; auto. eapply chained_weaken; [|eapply tiles_chained; eauto].
  apply Qlt_le_weak, TOL_pos.
Qed.

(** ** Lookup. *)
Lemma bisect_loop_spec a x fuel : forall lo hi,
  (lo <= hi)%nat -> (hi <= length a)%nat -> (hi - lo <= fuel)%nat ->
  (forall k, lo = S k -> nth k a 0 < x) ->
  ((hi < length a)%nat -> x <= nth hi a 0) ->
  let r := bisect_loop fuel a x lo hi in
  (r <= length a)%nat /\ (forall k, r = S k -> nth k a 0 < x) /\
  ((r < length a)%nat -> x <= nth r a 0).
Proof.
  induction fuel as [|fuel IH]; intros lo hi L H F Lo Hi; cbn [bisect_loop]; cbv zeta.
  - assert (lo = hi) by lia. subst. auto.
  - destruct (Nat.ltb_spec lo hi) as [C|C].
    2:{ assert (lo = hi) by lia. subst. split; [lia|split; auto]. }
    assert (Mid : (lo <= (lo + hi) / 2 < hi)%nat).
    { split; [apply Nat.div_le_lower_bound; lia|apply Nat.div_lt_upper_bound; lia]. }
    set (mid := ((lo + hi) / 2)%nat) in *.
    destruct (Qlt_bool_spec (nth mid a 0) x) as [K|K].
    + apply IH; auto; try lia. intros k E. injection E as <-. auto.
    + apply IH; auto; try lia.
Qed.
Lemma bisect_left_spec a x : let r := bisect_left a x in
  (r <= length a)%nat /\ (forall k, r = S k -> nth k a 0 < x) /\
  ((r < length a)%nat -> x <= nth r a 0).
Proof. apply bisect_loop_spec; auto; try lia. Qed.

Lemma py_nth_0 {X} (x : X) l : py_nth (x :: l) 0 = Ok x.
Proof. reflexivity. Qed.
Lemma py_nth_of_nat {X} (l : list X) i x : nth_error l i = Some x -> py_nth l (Z.of_nat i) = Ok x.
Proof.
  intro H. assert (i < length l)%nat by (apply nth_error_Some; congruence).
  unfold py_nth, norm_index.
  replace ((0 <=? Z.of_nat i)%Z && (Z.of_nat i <? Z.of_nat (length l))%Z) with true.
  - cbn. rewrite Nat2Z.id, H. auto.
  - symmetry. apply andb_true_iff. split; [apply Z.leb_le|apply Z.ltb_lt]; lia.
Qed.
Lemma py_nth_m1 {X} (l : list X) x : py_nth (l ++ [x]) (-1) = Ok x.
Proof.
  unfold py_nth, norm_index. rewrite app_length. cbn [length].
  replace ((0 <=? -1)%Z) with false by reflexivity. cbn [andb].
  replace ((- Z.of_nat (length l + 1) <=? -1)%Z && (-1 <? 0)%Z) with true.
  - cbn [bind]. replace (Z.to_nat (-1 + Z.of_nat (length l + 1))) with (length l) by lia.
    rewrite nth_error_app2, Nat.sub_diag; auto.
  - symmetry. apply andb_true_iff. split; auto. apply Z.leb_le. lia.
Qed.
Lemma snoc_case {X} (l : list X) : l <> [] -> exists l' x, l = l' ++ [x].
Proof.
  intro H. destruct (exists_last H) as (l' & x & E). eauto.
Qed.

Lemma nth_map_end ws k w : nth_error ws k = Some w -> nth k (map w_end ws) 0 = w_end w.
Proof.
  intro H. erewrite nth_indep with (d' := w_end w).
  - rewrite map_nth. f_equal. apply nth_error_nth. auto.
  - rewrite map_length. apply nth_error_Some. congruence.
Qed.

(** Bounds of a concatenation. *)
Lemma concat_bounds ws : ws <> [] -> exists w0 w1 k,
  nth_error ws 0 = Some w0 /\ nth_error ws k = Some w1 /\ S k = length ws /\
  concat_start ws = Ok (w_start w0) /\ concat_end ws = Ok (w_end w1).
Proof.
  intro N. destruct (snoc_case ws N) as (l & w1 & E).
  destruct ws as [|w0 ws]; [contradiction|].
  exists w0, w1, (length l). rewrite E at 2 3 5.
  split; auto. split; [rewrite nth_error_app2, Nat.sub_diag; auto|].
  split; [rewrite app_length; cbn; lia|]. unfold concat_start, concat_end.
  rewrite py_nth_0, py_nth_m1. auto.
Qed.

Lemma lookup_spec ws t s e : chained TOL (map span ws) ->
  concat_start ws = Ok s -> concat_end ws = Ok e -> within s e t ->
  exists i w, get_file_index ws t = Ok i /\ get_subwindow_at ws t = Ok w /\ nth_error ws i = Some w /\
    t <= w_end w /\ w_start w - TOL <= t /\ (i = 0%nat -> w_start w <= t) /\
    (forall k v, i = S k -> nth_error ws k = Some v -> w_end v < t).
Proof.
  intros Ch Hs He Wt.
  assert (N : ws <> []) by (intro; subst; discriminate).
  destruct (concat_bounds ws N) as (w0 & w1 & n & N0 & N1 & Len & Hs' & He').
  assert (s = w_start w0) by congruence. assert (e = w_end w1) by congruence. subst s e.
  unfold get_subwindow_at, get_file_index. rewrite Hs, He. cbn [bind].
  rewrite (proj2 (check_time_ok _ _ _) Wt). cbn [bind].
  destruct (bisect_left_spec (map w_end ws) t) as (B1 & B2 & B3).
  set (i := bisect_left (map w_end ws) t) in *. rewrite map_length in *.
  assert (Li : (i < length ws)%nat).
  { destruct (Nat.eq_dec i (length ws)) as [E|]; [|lia]. exfalso.
    rewrite <- Len in E. specialize (B2 n E). rewrite (nth_map_end _ _ _ N1) in B2.
    unfold within in Wt. lra. }
  destruct (nth_error ws i) as [w|] eqn:Ew; [|apply nth_error_None in Ew; lia].
  specialize (B3 Li). rewrite (nth_map_end _ _ _ Ew) in B3.
  assert (B2' : forall k v, i = S k -> nth_error ws k = Some v -> w_end v < t).
  { intros k v E F. rewrite <- (nth_map_end _ _ _ F). apply B2. auto. }
  exists i, w. rewrite (py_nth_of_nat _ _ _ Ew). repeat (split; [solve [auto]|]).
  assert (Z0 : i = 0%nat -> w_start w <= t).
  { intro E. rewrite E in Ew. assert (w = w0) by congruence. subst w. apply Wt. }
  split; [|auto].
  clearbody i. destruct i as [|i].
  - specialize (Z0 eq_refl). pose proof TOL_pos. lra.
  - destruct (nth_error ws i) as [v|] eqn:Ev; [|apply nth_error_None in Ev; lia].
    specialize (B2' i v eq_refl Ev).
    assert (Nr : near TOL (w_end v) (w_start w)).
    { clear - Ch Ev Ew. revert i Ev Ew. induction ws as [|a ws IH]; intros i Ev Ew; [destruct i; discriminate|].
      destruct ws as [|b ws]; [destruct i as [|[|?]]; discriminate|].
      cbn [map] in Ch. destruct Ch as [C1 C2]. destruct i as [|i].
      - cbn in Ev, Ew. injection Ev as <-. injection Ew as <-. exact C1.
      - apply (IH C2 i); auto. }
    unfold near in Nr. lra.
Qed.

(** When the ends never decrease, the window found is the first candidate. *)
Lemma lookup_first ws t s e : chained TOL (map span ws) ->
  concat_start ws = Ok s -> concat_end ws = Ok e -> within s e t ->
  (forall j u v, nth_error ws j = Some u -> nth_error ws (S j) = Some v -> w_end u <= w_end v) ->
  exists i w, get_subwindow_at ws t = Ok w /\ nth_error ws i = Some w /\
    t <= w_end w /\ w_start w - TOL <= t /\
    (forall j v, (j < i)%nat -> nth_error ws j = Some v -> w_end v < t).
Proof.
  intros C Hs He Wt M. destruct (lookup_spec ws t s e C Hs He Wt) as (i & w & _ & Hg & Hi & E & S1 & _ & Pr).
  exists i, w. repeat (split; [solve [auto]|]).
  assert (Mono : forall d j u v, nth_error ws j = Some u -> nth_error ws (d + j) = Some v -> w_end u <= w_end v).
  { induction d as [|d IH]; intros j u v Hu Hv; [change (0 + j)%nat with j in Hv|change (S d + j)%nat with (S (d + j)) in Hv].
    - rewrite Hu in Hv. injection Hv as <-. apply Qle_refl.
    - destruct (nth_error ws (d + j)) as [x|] eqn:Ex.
      + eapply Qle_trans; [eapply IH; eauto|eapply M; eauto].
      + apply nth_error_None in Ex. assert (S (d + j) < length ws)%nat by (apply nth_error_Some; congruence). lia. }
  intros j v Hj Hv. destruct i as [|k]; [lia|].
  destruct (nth_error ws k) as [u|] eqn:Eu.
  - assert (w_end v <= w_end u).
    { apply (Mono (k - j)%nat j); auto. replace (k - j + j)%nat with k by lia. auto. }
    assert (w_end u < t) by (eapply Pr; eauto). lra.
  - apply nth_error_None in Eu. assert (S k < length ws)%nat by (apply nth_error_Some; congruence). lia.
Qed.
Lemma long_ends ws : chained TOL (map span ws) -> Forall (fun w => TOL <= duration w) ws ->
  forall j u v, nth_error ws j = Some u -> nth_error ws (S j) = Some v -> w_end u <= w_end v.
Proof.
  intros C F. induction ws as [|x ws IH]; intros j u v Hu Hv; [destruct j; discriminate|].
  destruct ws as [|y ws]; [destruct j; [discriminate|destruct j; discriminate]|].
  cbn in C. destruct C as [N C]. destruct j as [|j].
  - cbn in Hu, Hv. injection Hu as <-. injection Hv as <-. inversion F as [|? ? _ F']; subst.
    inversion F'; subst. unfold near, duration in *. lra.
  - apply (IH C (Forall_inv_tail F) j); auto.
Qed.

Lemma lookup_out ws t s e : concat_start ws = Ok s -> concat_end ws = Ok e -> ~ within s e t ->
  get_subwindow_at ws t = Err TimeOutOfBound /\ forall b, concat_get_subwindow files ws t b = Err TimeOutOfBound.
Proof.
  intros Hs He Wt. unfold get_subwindow_at, concat_get_subwindow, get_file_index. rewrite Hs, He. cbn [bind].
  destruct (check_time_case s e t) as [[_ K]|[-> _]]; [contradiction|]. cbn. auto.
Qed.

(** The ends of a tiling do not decrease. *)
Lemma tiles_ends_mono lo ws hi i j u v : tiles lo (map span ws) hi ->
  (i <= j)%nat -> nth_error ws i = Some u -> nth_error ws j = Some v ->
  lo <= w_start u /\ w_start u <= w_end u /\ w_end u <= w_end v /\ w_end v <= hi /\
  ((i < j)%nat -> w_end u <= w_start v).
Proof.
  revert lo i j u v. induction ws as [|w ws IH]; intros lo i j u v T L Hu Hv; [destruct i; discriminate|].
  cbn in T. destruct T as (T1 & T2 & T3).
  destruct i as [|i], j as [|j]; cbn in *; try lia.
  - injection Hu as <-. injection Hv as <-. apply tiles_le in T3.
    repeat split; try lra. lia.
  - injection Hu as <-. destruct (IH _ j j _ _ T3 (le_n _) Hv Hv) as (? & ? & ? & ? & ?).
    repeat split; try lra. 
  - destruct (IH _ i j _ _ T3 ltac:(lia) Hu Hv) as (? & ? & ? & ? & F).
    repeat split; try lra. intro. apply F. lia.
Qed.
Lemma tiles_bounds lo ws hi : ws <> [] -> tiles lo (map span ws) hi ->
  exists s e, concat_start ws = Ok s /\ concat_end ws = Ok e /\ s == lo /\ e == hi.
Proof.
  intros N T. destruct (concat_bounds ws N) as (w0 & w1 & k & N0 & N1 & Len & Hs & He).
  exists (w_start w0), (w_end w1). repeat (split; [solve [auto]|]).
  destruct ws as [|a ws]; [contradiction|]. cbn in N0. injection N0 as <-.
  split; [cbn in T; lra|].
  destruct (snoc_case (a :: ws) N) as (l & x & E). rewrite E in *.
  rewrite map_app in T. apply tiles_app in T as (m & _ & T). cbn in T.
  rewrite app_length in Len. cbn in Len. assert (k = length l) by lia. subst k.
  rewrite nth_error_app2, Nat.sub_diag in N1 by lia. cbn in N1. injection N1 as <-. lra.
Qed.

(** In a tiling, the lookup finds the first window whose end is not before t. *)
Lemma tiles_lookup lo ws hi t : ws <> [] -> tiles lo (map span ws) hi -> within lo hi t ->
  exists i w, get_file_index ws t = Ok i /\ get_subwindow_at ws t = Ok w /\ nth_error ws i = Some w /\
    within (w_start w) (w_end w) t /\
    (forall j v, (j < i)%nat -> nth_error ws j = Some v -> w_end v < t).
Proof.
  intros N T Wt. destruct (tiles_bounds lo ws hi N T) as (s & e & Hs & He & Es & Ee).
  assert (Ch : chained TOL (map span ws)).
  { eapply chained_weaken; [|eapply tiles_chained; eauto]. apply Qlt_le_weak, TOL_pos. }
  destruct (lookup_spec ws t s e Ch Hs He) as (i & w & Hi & Hw & Ew & L1 & _ & L2 & L3).
  { unfold within in *. lra. }
  exists i, w. repeat (split; [solve [auto]|]).
  assert (J : forall j v, (j < i)%nat -> nth_error ws j = Some v -> w_end v < t).
  { intros j v Lj Hv. destruct i as [|i]; [lia|].
    destruct (nth_error ws i) as [u|] eqn:Eu.
    2:{ apply nth_error_None in Eu. assert (S i < length ws)%nat by (apply nth_error_Some; congruence). lia. }
    specialize (L3 i u eq_refl Eu).
    destruct (tiles_ends_mono lo ws hi j i v u T ltac:(lia) Hv Eu) as (_ & _ & ? & _). lra. }
  split; auto. split; auto.
  destruct i as [|i]; auto.
  destruct (nth_error ws i) as [u|] eqn:Eu.
  2:{ apply nth_error_None in Eu. assert (S i < length ws)%nat by (apply nth_error_Some; congruence). lia. }
  specialize (L3 i u eq_refl Eu).
  assert (Es' : w_start w == w_end u).
  { clear - T Eu Ew. revert lo T i Eu Ew. induction ws as [|a ws IH]; intros lo T i Eu Ew; [destruct i; discriminate|].
    destruct T as (T1 & T2 & T3). destruct i as [|i].
    - cbn in Eu. injection Eu as <-. destruct ws as [|b ws]; [discriminate|]. cbn in Ew. injection Ew as <-.
      cbn in T3. lra.
    - apply (IH _ T3 i); auto. }
  lra.
Qed.

(** ** Alignment. *)
Lemma move_span w d : w_start (move w d) == w_start w + d /\ w_end (move w d) == w_end w + d /\
  duration (move w d) == duration w.
Proof. destruct w as [b|a|v]; unfold duration; cbn; repeat split; ring. Qed.
Lemma move_to w t : w_start (move w (t - w_start w)) == t.
Proof. destruct (move_span w (t - w_start w)) as (-> & _). ring. Qed.

Lemma align_loop_spec ws : forall t,
  Forall2 (fun w w' => exists d, w' = move w d) ws (align_loop t ws) /\
  chained 0 (map span (align_loop t ws)) /\
  (forall w, nth_error (align_loop t ws) 0 = Some w -> w_start w == t) /\
  (Forall (fun w => 0 <= duration w) ws ->
   tiles t (map span (align_loop t ws)) (t + sum_Q (map duration ws))).
Proof.
  induction ws as [|w ws IH]; intro t; cbn [align_loop].
  - repeat split; cbn; auto; try discriminate. intro. ring.
  - set (w' := move w (t - w_start w)). destruct (IH (t + duration w')) as (I1 & I2 & I3 & I4).
    assert (E := move_to w t). fold w' in E.
    assert (E' : w_end w' == t + duration w') by (unfold duration; lra).
    split; [constructor; [exists (t - w_start w); reflexivity|auto]|]. split; [|split].
    + cbn [map]. destruct (align_loop (t + duration w') ws) as [|v vs]; [cbn; auto|].
      cbn [map] in *. split; auto. apply near_sym0. cbn. specialize (I3 v eq_refl). lra.
    + intros v Hv. cbn in Hv. injection Hv as <-. exact E.
    + intro F. inversion F as [|x l F1 F2]; subst. specialize (I4 F2).
      assert (D : duration w' == duration w) by apply move_span.
      cbn [map tiles fst snd span]. split; [exact E|]. split; [lra|].
      apply (tiles_comp (t + duration w') _ _ (t + duration w' + sum_Q (map duration ws))).
      * symmetry. exact E'.
      * unfold sum_Q. cbn [fold_right]. rewrite D. ring.
      * exact I4.
Qed.

(** ** Sub-windows. *)
Lemma seg_single {X} (l : list X) i x : nth_error l i = Some x -> segment l i (S i) = [x].
Proof.
  intro H. apply nth_error_split in H as (l1 & l2 & -> & <-). unfold segment.
  replace (S (length l1) - length l1)%nat with 1%nat by lia.
  rewrite skipn_app, skipn_all, Nat.sub_diag. reflexivity.
Qed.
Lemma nth_error_skip {X} n (l : list X) r : nth_error (skipn n l) r = nth_error l (n + r).
Proof.
  revert l. induction n as [|n IH]; intro l; auto. destruct l as [|x l]; [destruct r; auto|]. apply IH.
Qed.
Lemma nth_error_first {X} n (l : list X) r : (r < n)%nat -> nth_error (firstn n l) r = nth_error l r.
Proof.
  revert n r. induction l as [|x l IH]; intros [|n] [|r] H; cbn; auto; try lia. apply IH. lia.
Qed.
Lemma nth_error_segment {X} (l : list X) i j r : (r < j - i)%nat ->
  nth_error (segment l i j) r = nth_error l (i + r).
Proof. intro H. unfold segment. rewrite nth_error_first by auto. apply nth_error_skip. Qed.
Lemma split_two {X} (l : list X) i j x y : (i < j)%nat -> nth_error l i = Some x -> nth_error l j = Some y ->
  exists pre mid post, l = pre ++ x :: mid ++ y :: post /\ length pre = i /\ (i + S (length mid) = j)%nat.
Proof.
  intros L Hx Hy. apply nth_error_split in Hx as (pre & rest & -> & E1).
  rewrite nth_error_app2 in Hy by lia. replace (j - length pre)%nat with (S (j - i - 1)) in Hy by lia.
  cbn in Hy. apply nth_error_split in Hy as (mid & post & -> & E2).
  exists pre, mid, post. repeat split; auto. lia.
Qed.
Lemma seg_multi {X} (pre mid post : list X) x y i j : length pre = i -> (i + S (length mid) = j)%nat ->
  segment (pre ++ x :: mid ++ y :: post) i (S j) = x :: mid ++ [y].
Proof.
  intros <- <-. unfold segment. rewrite skipn_app, skipn_all, Nat.sub_diag. cbn [app skipn].
  replace (S (length pre + S (length mid)) - length pre)%nat with (S (length mid + 1)) by lia.
  cbn [firstn]. f_equal. rewrite firstn_app_2. reflexivity.
Qed.
Lemma slice_segment {X} (l : list X) i j :
  slice l (Z.of_nat i) (1 + Z.of_nat j) = segment l i (S j).
Proof. replace (1 + Z.of_nat j)%Z with (Z.of_nat (S j)) by lia. apply slice_nat. Qed.
Lemma py_set_0 {X} (x y : X) l : py_set (x :: l) 0 y = Ok (y :: l).
Proof. reflexivity. Qed.
Lemma list_set_last {X} (l : list X) x y : list_set (l ++ [x]) (length l) y = l ++ [y].
Proof. induction l; cbn; congruence. Qed.
Lemma py_nth_single {X} (x : X) : py_nth [x] (-1) = Ok x.
Proof. reflexivity. Qed.
Lemma py_set_single {X} (x y : X) : py_set [x] (-1) y = Ok [y].
Proof. reflexivity. Qed.
Lemma py_set_m1 {X} (l : list X) x y : py_set (l ++ [x]) (-1) y = Ok (l ++ [y]).
Proof.
  unfold py_set, norm_index. rewrite app_length. cbn [length].
  replace ((0 <=? -1)%Z) with false by reflexivity. cbn [andb].
  replace ((- Z.of_nat (length l + 1) <=? -1)%Z && (-1 <? 0)%Z) with true.
  - cbn [bind]. replace (Z.to_nat (-1 + Z.of_nat (length l + 1))) with (length l) by lia.
    rewrite list_set_last. auto.
  - symmetry. apply andb_true_iff. split; auto. apply Z.leb_le. lia.
Qed.

(** Indices found for two ordered times. *)
Lemma tiles_two lo ws hi a b : ws <> [] -> tiles lo (map span ws) hi ->
  lo <= a -> a <= b -> b <= hi ->
  exists i j wi wj, get_file_index ws a = Ok i /\ get_file_index ws b = Ok j /\
    nth_error ws i = Some wi /\ nth_error ws j = Some wj /\ (i <= j)%nat /\
    within (w_start wi) (w_end wi) a /\ within (w_start wj) (w_end wj) b /\
    (forall k v, (k < i)%nat -> nth_error ws k = Some v -> w_end v < a) /\
    (forall k v, (k < j)%nat -> nth_error ws k = Some v -> w_end v < b).
Proof.
  intros N T L1 L2 L3.
  destruct (tiles_lookup lo ws hi a N T) as (i & wi & Hi & _ & Ei & Wi & Fi); [split; lra|].
  destruct (tiles_lookup lo ws hi b N T) as (j & wj & Hj & _ & Ej & Wj & Fj); [split; lra|].
  exists i, j, wi, wj. repeat (split; [solve [auto]|]). split; [|auto].
  destruct (Nat.le_gt_cases i j) as [|C]; auto. exfalso.
  specialize (Fi j wj C Ej). unfold within in Wj. lra.
Qed.
End Concat.

Section ConcatBasic.
Context {O A P : Type} (files : wavfiles P A).
Notation leaf := (leaf O A P).
Implicit Types bs new : list (basic O).

(** Piece [p] is cut out of window [q]. *)
Definition piece_of (q p : basic O) : Prop :=
  b_obj p = b_obj q /\ b_start q <= b_start p /\ b_start p <= b_end p /\ b_end p <= b_end q.
Definition bspan (b : basic O) : Q * Q := (b_start b, b_end b).
Definition leaves (l : list (basic O)) : list leaf := map LB l.

Lemma span_leaves l : map span (leaves l) = map bspan l.
Proof. unfold leaves. rewrite map_map. reflexivity. Qed.
Lemma copy_leaves l : mapM (copy files) (leaves l) = Ok (leaves l).
Proof. unfold leaves. induction l as [|b l IH]; cbn in *; auto. rewrite IH. auto. Qed.
Lemma segment_map {X Y} (f : X -> Y) l i j : segment (map f l) i j = map f (segment l i j).
Proof. unfold segment. rewrite skipn_map, firstn_map. auto. Qed.
Lemma nth_leaves l i w : nth_error (leaves l) i = Some w -> exists b, w = LB b /\ nth_error l i = Some b.
Proof.
  unfold leaves. rewrite nth_error_map. destruct (nth_error l i); cbn; intro H; inversion H; eauto.
Qed.
Lemma Forall2_refl_piece l : Forall (fun q => b_start q <= b_end q) l -> Forall2 piece_of l l.
Proof. induction 1; constructor; auto. unfold piece_of. repeat split; auto; lra. Qed.
Lemma tiles_durations lo l hi : tiles lo (map bspan l) hi -> Forall (fun q => b_start q <= b_end q) l.
Proof.
  revert lo. induction l as [|b l IH]; intros lo; cbn; auto. intros (? & ? & T). constructor; eauto.
Qed.

Lemma concat_basic_sub lo bs hi a b : bs <> [] -> tiles lo (map bspan bs) hi ->
  lo <= a -> a <= b -> b <= hi ->
  exists i j new, concat_get_subwindow files (leaves bs) a b = Ok (leaves new) /\
    (i <= j)%nat /\ (j < length bs)%nat /\
    tiles a (map bspan new) b /\ new <> [] /\
    Forall2 piece_of (segment bs i (S j)) new /\
    (forall k v, (k < i)%nat -> nth_error bs k = Some v -> b_end v < a) /\
    (forall k p q, nth_error new k = Some p -> nth_error bs (i + k) = Some q ->
       (S k < length new)%nat -> b_end p == b_end q) /\
    length new = (S j - i)%nat.
Proof.
  intros N T L1 L2 L3. rewrite <- span_leaves in T.
  assert (N' : leaves bs <> []) by (destruct bs; cbn; congruence).
  destruct (tiles_two lo _ hi a b N' T L1 L2 L3) as
    (i & j & wi & wj & Hi & Hj & Ei & Ej & Lij & Wi & Wj & Fi & Fj).
  apply nth_leaves in Ei as (bi & -> & Ei). apply nth_leaves in Ej as (bj & -> & Ej).
  cbn [w_start w_end] in Wi, Wj.
  assert (Fi' : forall k v, (k < i)%nat -> nth_error bs k = Some v -> b_end v < a).
  { intros k v Hk Hv. apply (Fi k (LB v) Hk). unfold leaves. rewrite nth_error_map, Hv. auto. }
  rewrite span_leaves in T.
  assert (Lj : (j < length bs)%nat) by (apply nth_error_Some; congruence).
  unfold concat_get_subwindow. rewrite Hi, Hj. cbn [bind]. rewrite slice_segment.
  unfold leaves at 1. rewrite segment_map. fold (leaves (segment bs i (S j))). rewrite copy_leaves.
  cbn [bind].
  destruct (Nat.eq_dec i j) as [E|E].
  - subst j. assert (bj = bi) by congruence. subst bj.
    rewrite (seg_single bs i bi Ei). cbn [leaves map]. rewrite py_nth_0. cbn [bind w_end].
    unfold get_subwindow at 1.
    destruct (basic_sub_ok bi a (b_end bi)) as (c & Hc & Sc & _ & Ec & Oc); auto.
    { unfold within in *. lra. }
    rewrite Hc. cbn [bind]. rewrite py_set_0. cbn [bind].
    rewrite py_nth_single. cbn [bind w_start get_subwindow].
    assert (Ec' : b_end c == b_end bi) by (apply Ec; apply Wi).
    destruct (basic_sub_ok c (b_start c) b) as (d & Hd & Sd & _ & Ed & Od).
    { unfold within in *. rewrite Sc in *. lra. }
    { unfold within in *. rewrite Sc in *. lra. }
    rewrite Hd. cbn [bind].
    rewrite py_set_single. cbn [bind].
    assert (Ed' : b_end d == b) by (apply Ed; rewrite Sc; auto).
    assert (Td : tiles a (map bspan [d]) b).
    { cbn. rewrite Sd, Sc. repeat split; try lra. }
    exists i, i, [d]. rewrite (tiles_ok a [LB d] b); [|discriminate|exact Td].
    repeat (split; [solve [auto|discriminate]|]).
    split; [|split; [auto|split; [|cbn [length]; lia]]].
    + rewrite (seg_single bs i bi Ei). constructor; auto. unfold piece_of. rewrite Od, Oc, Sd, Sc. unfold within in *.
      repeat split; auto; lra.
    + intros k p q _ _ K. cbn in K. lia.
  - assert (L : (i < j)%nat) by lia.
    destruct (split_two bs i j bi bj L Ei Ej) as (pre & mid & post & Eb & Lp & Lm).
    rewrite Eb. rewrite (seg_multi pre mid post bi bj i j Lp Lm).
    unfold leaves. cbn [map]. rewrite map_app. cbn [map]. rewrite py_nth_0. cbn [bind w_end].
    unfold get_subwindow at 1.
    destruct (basic_sub_ok bi a (b_end bi)) as (c & Hc & Sc & _ & Ec & Oc); auto.
    { unfold within in *. lra. }
    rewrite Hc. cbn [bind]. rewrite py_set_0. cbn [bind].
    rewrite app_comm_cons, py_nth_m1. cbn [bind w_start get_subwindow].
    destruct (basic_sub_ok bj (b_start bj) b) as (d & Hd & Sd & _ & Ed & Od); auto.
    { unfold within in *. lra. }
    rewrite Hd. cbn [bind]. rewrite py_set_m1. cbn [bind].
    assert (Ec' : b_end c == b_end bi) by (apply Ec; apply Wi).
    assert (Ed' : b_end d == b) by (apply Ed; apply Wj).
    rewrite Eb, map_app in T. apply tiles_app in T as (m & _ & T).
    cbn [map tiles bspan fst snd] in T. destruct T as (T1 & T2 & T).
    rewrite map_app in T. apply tiles_app in T as (m2 & Tm & T).
    cbn [map tiles bspan fst snd] in T. destruct T as (T3 & T4 & T5).
    assert (Td : tiles a (map bspan (c :: mid ++ [d])) b).
    { cbn [map tiles bspan fst snd]. rewrite Sc. split; [reflexivity|]. unfold within in *.
      split; [lra|]. rewrite map_app. apply tiles_app. exists m2. split.
      - eapply tiles_comp; [| |exact Tm]; lra.
      - cbn. rewrite Sd. repeat split; try lra. }
    exists i, j, (c :: mid ++ [d]).
    assert (Em : map LB (c :: mid ++ [d]) = (LB c :: map LB mid) ++ [@LB O A P d]).
    { cbn [map]. rewrite map_app. reflexivity. }
    rewrite Em. rewrite (tiles_ok a _ b).
    2:{ discriminate. }
    2:{ rewrite <- Em. fold (leaves (c :: mid ++ [d])). rewrite span_leaves. exact Td. }
    split; auto. split; [lia|]. split; [rewrite <- Eb; auto|]. split; [exact Td|].
    split; [discriminate|]. split.
    { rewrite (seg_multi pre mid post bi bj i j Lp Lm). constructor.
      - unfold piece_of. rewrite Oc, Sc. unfold within in *. repeat split; auto; lra.
      - apply Forall2_app.
        + apply Forall2_refl_piece. eapply tiles_durations; eauto.
        + constructor; auto. unfold piece_of. rewrite Od, Sd. unfold within in *. repeat split; auto; lra. }
    split; [rewrite <- Eb; auto|]. split.
    { intros k p q Hp Hq Hk. rewrite nth_error_app2 in Hq by lia.
      replace (i + k - length pre)%nat with k in Hq by lia.
      cbn [length] in Hk. rewrite app_length in Hk. cbn in Hk.
      destruct k as [|k]; cbn in Hp, Hq.
      - injection Hp as <-. injection Hq as <-. exact Ec'.
      - rewrite nth_error_app1 in Hp, Hq by lia. assert (p = q) by congruence. subst. reflexivity. }
    cbn [length]. rewrite app_length. cbn [length]. lia.
Qed.

Lemma concat_basic_lookup lo bs hi a b new : bs <> [] -> tiles lo (map bspan bs) hi ->
  lo <= a -> a <= b -> b <= hi ->
  concat_get_subwindow files (leaves bs) a b = Ok (leaves new) ->
  forall t, within a b t -> exists p q,
    get_subwindow_at (leaves new) t = Ok (LB p) /\ get_subwindow_at (leaves bs) t = Ok (LB q) /\
    b_obj p = b_obj q.
Proof.
  intros N T L1 L2 L3 H t Wt.
  destruct (concat_basic_sub lo bs hi a b N T L1 L2 L3) as
    (i & j & new' & H' & Lij & Lj & Tn & Nn & F2 & Fi & Eq & Len).
  rewrite H in H'. injection H' as H'.
  assert (new' = new).
  { clear - H'. revert new' H'. induction new as [|x l IH]; intros [|y l'] E; cbn in E; try discriminate; auto.
    injection E as E1 E2. rewrite (IH l') by auto. congruence. }
  subst new'. clear H'.
  assert (Nn' : leaves new <> []) by (destruct new; cbn; congruence).
  assert (N' : leaves bs <> []) by (destruct bs; cbn; congruence).
  assert (Tn' : tiles a (map span (leaves new)) b) by (rewrite span_leaves; auto).
  assert (T' : tiles lo (map span (leaves bs)) hi) by (rewrite span_leaves; auto).
  destruct (tiles_lookup a _ b t Nn' Tn' Wt) as (k & w & _ & Hw & Ek & Wk & Fk).
  apply nth_leaves in Ek as (p & -> & Ek). cbn in Wk.
  destruct (tiles_lookup lo _ hi t N' T') as (m & u & _ & Hu & Em & Wm & Fm).
  { unfold within in *. lra. }
  apply nth_leaves in Em as (q & -> & Em). cbn in Wm.
  exists p, q. split; auto. split; auto.
  (* m = i + k *)
  assert (Kl : (k < length new)%nat) by (apply nth_error_Some; congruence).
  assert (Fk' : forall r v, (r < k)%nat -> nth_error new r = Some v -> b_end v < t).
  { intros r v Hr Hv. apply (Fk r (LB v) Hr). unfold leaves. rewrite nth_error_map, Hv. auto. }
  assert (Fm' : forall r v, (r < m)%nat -> nth_error bs r = Some v -> b_end v < t).
  { intros r v Hr Hv. apply (Fm r (LB v) Hr). unfold leaves. rewrite nth_error_map, Hv. auto. }
  assert (Corr : forall r p', nth_error new r = Some p' ->
     exists q', nth_error bs (i + r) = Some q' /\ piece_of q' p').
  { intros r p' Hp. assert (Hr : (r < length new)%nat) by (apply nth_error_Some; congruence).
    destruct (nth_error bs (i + r)) as [q'|] eqn:Hq; [|apply nth_error_None in Hq; lia].
    exists q'. split; auto.
    assert (Hs : nth_error (segment bs i (S j)) r = Some q').
    { rewrite nth_error_segment by lia. exact Hq. }
    clear - F2 Hs Hp. revert r Hs Hp. induction F2 as [|x y l l' R F IH]; intros [|r] Hs Hp; try discriminate.
    - cbn in *. congruence.
    - eapply IH; eauto. }
  destruct (Corr k p Ek) as (q' & Hq' & Pq).
  assert (m = (i + k)%nat).
  { destruct (Nat.lt_trichotomy m (i + k)) as [C|[C|C]]; auto; exfalso.
    - destruct (Nat.lt_ge_cases m i) as [D|D].
      + specialize (Fi m q D Em). unfold within in *. lra.
      + assert (D' : (m - i < length new)%nat) by lia.
        destruct (nth_error new (m - i)) as [p'|] eqn:Ep; [|apply nth_error_None in Ep; lia].
        assert (X := Eq (m - i)%nat p' q Ep). replace (i + (m - i))%nat with m in X by lia.
        specialize (X Em ltac:(lia)). specialize (Fk' (m - i)%nat p' ltac:(lia) Ep).
        unfold within in *. lra.
    - specialize (Fm' (i + k)%nat q' C Hq'). unfold piece_of, within in *. lra. }
  subst m. assert (q' = q) by congruence. subst q'. apply Pq.
Qed.
End ConcatBasic.
