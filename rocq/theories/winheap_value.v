(** * The operations on objects compute the values given by the pure functions
    of window_model.v. *)

From Coq Require Import List ZArith QArith Bool Lia.
Import ListNotations.
From Verif Require Import Py Py_proof ListUtil window_model winheap_model winheap_spec winheap_proof winheap_indep.
Open Scope py_scope.

Lemma Forall2_map_eq {X Y Z} (R : X -> Y -> Prop) (f : X -> Z) (g : Y -> Z) l m :
  (forall x y, R x y -> f x = g y) -> Forall2 R l m -> map f l = map g m.
Proof. intros H. induction 1; cbn; f_equal; auto. Qed.

(** ** The functions of window_model.v do not look at the samples. *)
Section Natural.
Context {O A B P : Type} (f : A -> B).
Variables (fa : wavfiles P A) (fb : wavfiles P B).

Definition maparr (a : arrw A) : arrw B := Arrw (a_start a) (a_end a) (a_rate a) (map f (a_data a)).
Definition mapl (w : leaf O A P) : leaf O B P :=
  match w with LB b => LB b | LA a => LA (maparr a) | LW v => LW v end.
Definition mapr {X Y} (g : X -> Y) (r : result X) : result Y :=
  match r with Ok x => Ok (g x) | Err e => Err e end.

Lemma mapl_start w : w_start (mapl w) = w_start w.
Proof. destruct w; reflexivity. Qed.
Lemma mapl_end w : w_end (mapl w) = w_end w.
Proof. destruct w; reflexivity. Qed.
Lemma mapl_move w d : mapl (move w d) = move (mapl w) d.
Proof. destruct w; reflexivity. Qed.
Lemma map_slice l i j : map f (slice l i j) = slice (map f l) i j.
Proof. unfold slice. rewrite map_length, skipn_map, firstn_map. reflexivity. Qed.
Lemma maparr_new data start rate : new_array_window (map f data) start rate = mapr maparr (new_array_window data start rate).
Proof.
  unfold new_array_window. rewrite map_length. destruct (samples_to_duration _ _); reflexivity.
Qed.
Lemma mapl_copy w : copy fb (mapl w) = mapr mapl (copy fa w).
Proof.
  destruct w as [b|a|v]; cbn; auto.
  - unfold array_copy. cbn. rewrite maparr_new. destruct (new_array_window _ _ _); reflexivity.
  - unfold wav_copy, new_wav_window. cbn. destruct (samples_to_duration _ _); reflexivity.
Qed.
Lemma mapl_sub w a b : get_subwindow fb (mapl w) a b = mapr mapl (get_subwindow fa w a b).
Proof.
  destruct w as [x|x|v]; cbn.
  - destruct (basic_get_subwindow x a b); reflexivity.
  - unfold array_get_subwindow. cbn. destruct (get_index_after _ _ _ _); cbn; auto.
    destruct (get_index_before _ _ _ _); cbn; auto. destruct (samples_to_duration _ _); cbn; auto.
    rewrite <- map_slice, maparr_new. destruct (new_array_window _ _ _); reflexivity.
  - unfold wav_get_subwindow, wav_copy, new_wav_window. cbn. destruct (samples_to_duration _ _); cbn; auto.
    destruct (wav_delay_start _ _); cbn; auto. destruct (wav_stop_at _ _); cbn; auto.
Qed.
Lemma mapl_mapM_copy ws : mapM (copy fb) (map mapl ws) = mapr (map mapl) (mapM (copy fa) ws).
Proof.
  induction ws as [|w ws IH]; cbn; auto. rewrite mapl_copy. destruct (copy fa w); cbn; auto.
  rewrite IH. destruct (mapM (copy fa) ws); reflexivity.
Qed.
Lemma map_starts ws : map w_start (map mapl ws) = map w_start ws.
Proof. rewrite map_map. apply map_ext. apply mapl_start. Qed.
Lemma map_ends ws : map w_end (map mapl ws) = map w_end ws.
Proof. rewrite map_map. apply map_ext. apply mapl_end. Qed.
Lemma map_slice_from {X Y} (g : X -> Y) l i : map g (slice_from l i) = slice_from (map g l) i.
Proof. unfold slice_from. rewrite map_length, skipn_map. reflexivity. Qed.
Lemma mapl_new_concat ws : new_concat (map mapl ws) = mapr (map mapl) (new_concat ws).
Proof.
  unfold new_concat. rewrite map_length. destruct (length ws <? 1)%nat; auto.
  rewrite map_ends, <- map_slice_from, map_starts. destruct (Qlt_bool _ _); reflexivity.
Qed.
Lemma mapr_py_nth {X Y} (g : X -> Y) l i : py_nth (map g l) i = mapr g (py_nth l i).
Proof.
  unfold py_nth. rewrite map_length. destruct (norm_index _ _); cbn; auto. rewrite nth_error_map.
  destruct (nth_error l n); reflexivity.
Qed.
Lemma map_list_set {X Y} (g : X -> Y) l k x : map g (list_set l k x) = list_set (map g l) k (g x).
Proof. revert k. induction l; intros [|k]; cbn; auto. f_equal. auto. Qed.
Lemma mapr_py_set {X Y} (g : X -> Y) l i x : py_set (map g l) i (g x) = mapr (map g) (py_set l i x).
Proof.
  unfold py_set. rewrite map_length. destruct (norm_index _ _); cbn; auto. rewrite map_list_set. reflexivity.
Qed.
Lemma mapl_file_index ws t : get_file_index (map mapl ws) t = get_file_index ws t.
Proof.
  unfold get_file_index, concat_start, concat_end. rewrite !mapr_py_nth, map_ends.
  destruct (py_nth ws 0); cbn; auto. rewrite mapl_start. destruct (py_nth ws (-1)); cbn; auto. rewrite mapl_end. auto.
Qed.
Lemma map_slice_any {X Y} (g : X -> Y) l i j : map g (slice l i j) = slice (map g l) i j.
Proof. unfold slice. rewrite map_length, skipn_map, firstn_map. reflexivity. Qed.
Lemma mapl_concat_copy ws : concat_copy fb (map mapl ws) = mapr (map mapl) (concat_copy fa ws).
Proof.
  unfold concat_copy. rewrite mapl_mapM_copy. destruct (mapM (copy fa) ws); cbn; auto. apply mapl_new_concat.
Qed.
Lemma mapl_concat_sub ws a b :
  concat_get_subwindow fb (map mapl ws) a b = mapr (map mapl) (concat_get_subwindow fa ws a b).
Proof.
  unfold concat_get_subwindow. rewrite !mapl_file_index.
  destruct (get_file_index ws a); cbn; auto. destruct (get_file_index ws b); cbn; auto.
  rewrite <- map_slice_any, mapl_mapM_copy. destruct (mapM (copy fa) _) as [new|e]; cbn; auto.
  rewrite mapr_py_nth. destruct (py_nth new 0) as [w0|e]; cbn; auto.
  rewrite mapl_sub, mapl_end. destruct (get_subwindow fa w0 a (w_end w0)) as [w0'|e]; cbn; auto.
  rewrite mapr_py_set. destruct (py_set new 0 w0') as [new'|e]; cbn; auto.
  rewrite mapr_py_nth. destruct (py_nth new' (-1)) as [w1|e]; cbn; auto.
  rewrite mapl_sub, mapl_start. destruct (get_subwindow fa w1 (w_start w1) b) as [w1'|e]; cbn; auto.
  rewrite mapr_py_set. destruct (py_set new' (-1) w1') as [new''|e]; cbn; auto. apply mapl_new_concat.
Qed.
Lemma mapl_align_loop ws : forall t, map mapl (align_loop t ws) = align_loop t (map mapl ws).
Proof.
  induction ws as [|w ws IH]; intro t; cbn; auto. rewrite IH. unfold duration.
  rewrite <- !mapl_move, !mapl_start, !mapl_end. reflexivity.
Qed.
Lemma mapl_align ws start : align (map mapl ws) start = mapr (map mapl) (align ws start).
Proof.
  unfold align. destruct start; cbn; [rewrite mapl_align_loop; auto|].
  rewrite mapr_py_nth. destruct (py_nth ws 0); cbn; auto. rewrite mapl_start, mapl_align_loop. auto.
Qed.
End Natural.

Section Value.
Context {O A P : Type}.
Notation lf := (leaf O nat P).
Notation state := (st O A P).

Definition holds (s : state) (r : nat) (w : lf) : Prop := nth_error (leafs s) r = Some w.
Definition with_leafs (s : state) (new : list lf) : state := St (leafs s ++ new) (lists s) (cats s) (cells s).

Lemma contents_mapl cs (w : lf) : contents cs w = mapl (nth_error (A := A) cs) w.
Proof. destruct w; reflexivity. Qed.

Lemma bindM_eq {X Y} (m : @M O A P X) (f : X -> M Y) s x s1 : m s = (Ok x, s1) -> bindM m f s = f x s1.
Proof. intro H. unfold bindM. rewrite H. reflexivity. Qed.
Lemma bindM_lift {X Y} (r : result X) (f : X -> @M O A P Y) s x : r = Ok x -> bindM (lift r) f s = f x s.
Proof. intro H. unfold bindM, lift. rewrite H. reflexivity. Qed.
Lemma bindM_err {X Y} (m : @M O A P X) (f : X -> M Y) s e : fst (m s) = Err e -> fst (bindM m f s) = Err e.
Proof. intro H. unfold bindM. destruct (m s) as [[x|e'] s']; cbn in *; congruence. Qed.

Lemma holds_app s new r w : holds s r w -> holds (with_leafs s new) r w.
Proof. unfold holds. cbn. intro H. rewrite nth_error_app1; auto. apply nth_error_Some. congruence. Qed.
Lemma holds_app_all s new rs ws : Forall2 (holds s) rs ws -> Forall2 (holds (with_leafs s new)) rs ws.
Proof. induction 1; constructor; auto using holds_app. Qed.

Lemma get_leaf_holds s r w : holds s r w -> get_leaf r s = (Ok w, s).
Proof. unfold holds, get_leaf. intros ->. reflexivity. Qed.
Lemma values_holds s rs ws : Forall2 (holds s) rs ws -> mapMM get_leaf rs s = (Ok ws, s).
Proof.
  induction 1 as [|r w rs ws H F IH]; cbn [mapMM]; [reflexivity|].
  unfold bindM at 1. rewrite (get_leaf_holds s r w H). unfold bindM. rewrite IH. reflexivity.
Qed.

Lemma leaf_copy_value s r w : holds s r w ->
  leaf_copy r s = match copy no_files w with
                  | Ok w' => (Ok (length (leafs s)), with_leafs s [w'])
                  | Err e => (Err e, s)
                  end.
Proof.
  intro H. unfold leaf_copy, bindM. rewrite (get_leaf_holds s r w H). unfold lift.
  destruct (copy no_files w); reflexivity.
Qed.
Lemma leaf_sub_value s r w a b : holds s r w ->
  leaf_sub r a b s = match get_subwindow no_files w a b with
                     | Ok w' => (Ok (length (leafs s)), with_leafs s [w'])
                     | Err e => (Err e, s)
                     end.
Proof.
  intro H. unfold leaf_sub, bindM. rewrite (get_leaf_holds s r w H). unfold lift.
  destruct (get_subwindow no_files w a b); reflexivity.
Qed.
Lemma with_leafs_app s a b : with_leafs (with_leafs s a) b = with_leafs s (a ++ b).
Proof. unfold with_leafs. cbn. rewrite app_assoc. reflexivity. Qed.
Lemma with_leafs_nil s : with_leafs s [] = s.
Proof. unfold with_leafs. rewrite app_nil_r. destruct s; reflexivity. Qed.

Lemma copies_value rs : forall s ws, Forall2 (holds s) rs ws ->
  match mapM (copy no_files) ws with
  | Ok ws' => mapMM leaf_copy rs s = (Ok (seq (length (leafs s)) (length ws')), with_leafs s ws')
  | Err e => fst (mapMM leaf_copy rs s) = Err e
  end.
Proof.
  induction rs as [|r rs IH]; intros s ws F; inversion F as [|? w ? ws0 H F']; subst; cbn [mapM mapMM].
  - rewrite with_leafs_nil. reflexivity.
  - pose proof (leaf_copy_value s r w H) as L. destruct (copy no_files w) as [w'|e]; cbn [bind].
    2:{ apply bindM_err. rewrite L. reflexivity. }
    rewrite !(bindM_eq _ _ _ _ _ L).
    specialize (IH (with_leafs s [w']) ws0 (holds_app_all _ _ _ _ F')).
    destruct (mapM (copy no_files) ws0) as [ws'|e]; cbn [bind].
    + rewrite (bindM_eq _ _ _ _ _ IH), with_leafs_app. cbn. rewrite app_length, Nat.add_1_r. reflexivity.
    + apply bindM_err. exact IH.
Qed.

(** What a concatenation or list contains. *)
Definition list_holds (s : state) l ws := exists rs, nth_error (lists s) l = Some rs /\ Forall2 (holds s) rs ws.
Definition cat_holds (s : state) c ws := exists l, nth_error (cats s) c = Some l /\ list_holds s l ws.

Lemma holds_seq (s : state) ws : Forall2 (holds (with_leafs s ws)) (seq (length (leafs s)) (length ws)) ws.
Proof.
  assert (H : forall pre ws, Forall2 (fun r w => nth_error (pre ++ ws) r = Some w) (seq (length pre) (length ws)) (ws : list lf)).
  { intros pre ws0. revert pre. induction ws0 as [|w ws0 IH]; intro pre; cbn; constructor.
    - rewrite nth_error_app2, Nat.sub_diag by lia. reflexivity.
    - specialize (IH (pre ++ [w])). rewrite app_length, Nat.add_1_r in IH. rewrite <- app_assoc in IH. exact IH. }
  apply H.
Qed.

Lemma cat_windows_value s c ws : cat_holds s c ws -> exists rs, cat_windows c s = (Ok rs, s) /\ Forall2 (holds s) rs ws.
Proof.
  intros (l & Hl & rs & Hr & F). exists rs. split; auto. unfold cat_windows, bindM, get_cat, get_list. rewrite Hl, Hr. reflexivity.
Qed.
Lemma file_index_value s c ws t : cat_holds s c ws -> cat_file_index c t s = (get_file_index ws t, s).
Proof.
  intros H. destruct (cat_windows_value s c ws H) as (rs & E & F). unfold cat_file_index, bindM. rewrite E.
  rewrite (values_holds s rs ws F). reflexivity.
Qed.

Definition with_list (s : state) rs : state := St (leafs s) (lists s ++ [rs]) (cats s) (cells s).
Lemma new_cat_value (s : state) rs ws : Forall2 (holds s) rs ws ->
  let s' := with_list s rs in
  match new_concat ws with
  | Ok ws' => ws' = ws /\ exists c s'', new_cat (length (lists s)) s' = (Ok c, s'') /\ cat_holds s'' c ws
  | Err e => fst (new_cat (length (lists s)) s') = Err e
  end.
Proof.
  intros F s'.
  assert (Hl : nth_error (lists s') (length (lists s)) = Some rs).
  { cbn. rewrite nth_error_app2, Nat.sub_diag by lia. reflexivity. }
  assert (F' : Forall2 (holds s') rs ws) by exact F.
  assert (E : new_cat (length (lists s)) s' = match new_concat ws with
     | Ok _ => (Ok (length (cats s)), St (leafs s') (lists s') (cats s ++ [length (lists s)]) (cells s'))
     | Err e => (Err e, s') end).
  { unfold new_cat. unfold bindM at 1. unfold get_list. rewrite Hl. unfold bindM. rewrite (values_holds s' rs ws F').
    unfold lift. destruct (new_concat ws); reflexivity. }
  assert (Same : forall ws', new_concat ws = Ok ws' -> ws' = ws).
  { unfold new_concat. intros ws'. destruct (_ <? _)%nat; [discriminate|]. destruct (Qlt_bool _ _); [discriminate|]. congruence. }
  destruct (new_concat ws) as [ws'|e] eqn:Ec.
  - split; auto. rewrite E. eexists _, _. split; [reflexivity|]. exists (length (lists s)). split.
    + cbn. rewrite nth_error_app2, Nat.sub_diag by lia. reflexivity.
    + exists rs. split; auto.
  - rewrite E. reflexivity.
Qed.

Lemma cat_copy_value s c ws : cat_holds s c ws ->
  match concat_copy no_files ws with
  | Ok ws' => exists c' s', cat_copy c s = (Ok c', s') /\ cat_holds s' c' ws'
  | Err e => fst (cat_copy c s) = Err e
  end.
Proof.
  intros H. destruct (cat_windows_value s c ws H) as (rs & E & F).
  unfold cat_copy, concat_copy. rewrite !(bindM_eq _ _ _ _ _ E).
  pose proof (copies_value rs s ws F) as C. destruct (mapM (copy no_files) ws) as [ws'|e]; cbn [bind].
  - rewrite !(bindM_eq _ _ _ _ _ C).
    assert (Al : forall rn s3, alloc_list rn s3 = (Ok (length (lists s3)), with_list s3 rn)) by reflexivity.
    rewrite !(bindM_eq _ _ _ _ _ (Al _ _)).
    pose proof (new_cat_value (with_leafs s ws') (seq (length (leafs s)) (length ws')) ws' (holds_seq s ws')) as N.
    cbv zeta in N. destruct (new_concat ws') as [ws''|e].
    + destruct N as (-> & N). exact N.
    + exact N.
  - apply bindM_err. exact C.
Qed.

Lemma Forall2_nth_both {X Y} (R : X -> Y -> Prop) l m k y : Forall2 R l m -> nth_error m k = Some y ->
  exists x, nth_error l k = Some x /\ R x y.
Proof. intro F. revert k. induction F; intros [|k] H'; cbn in *; try discriminate; eauto. injection H' as <-. eauto. Qed.
Lemma py_nth_rel {X Y} (R : X -> Y -> Prop) l m i : Forall2 R l m ->
  match py_nth m i with Ok y => exists x, py_nth l i = Ok x /\ R x y | Err e => py_nth l i = Err e end.
Proof.
  intro F. assert (L : length l = length m) by (induction F; cbn; auto).
  unfold py_nth. rewrite L. destruct (norm_index (length m) i) as [k|e] eqn:E; cbn; auto.
  destruct (nth_error m k) eqn:Em.
  - destruct (Forall2_nth_both R l m k y F Em) as (x & -> & H). eauto.
  - apply nth_error_None in Em. assert (nth_error l k = None) as -> by (apply nth_error_None; lia). reflexivity.
Qed.
Lemma list_set_rel {X Y} (R : X -> Y -> Prop) l m k x y : Forall2 R l m -> R x y -> Forall2 R (list_set l k x) (list_set m k y).
Proof. intros F H. revert k. induction F; intros [|k]; cbn; auto. Qed.
Lemma py_set_rel {X Y} (R : X -> Y -> Prop) l m i x y : Forall2 R l m -> R x y ->
  match py_set m i y with Ok m' => exists l', py_set l i x = Ok l' /\ Forall2 R l' m' | Err e => py_set l i x = Err e end.
Proof.
  intros F H. assert (L : length l = length m) by (induction F; cbn; auto).
  unfold py_set. rewrite L. destruct (norm_index (length m) i) as [k|e]; cbn; auto.
  eexists. split; [reflexivity|]. apply list_set_rel; auto.
Qed.
Lemma slice_rel {X Y} (R : X -> Y -> Prop) l m i j : Forall2 R l m -> Forall2 R (slice l i j) (slice m i j).
Proof.
  intro F. assert (L : length l = length m) by (induction F; cbn; auto).
  unfold slice. rewrite L. generalize (clamp_slice (length m) i) as a. intro a.
  generalize (clamp_slice (length m) j - a)%nat as n.
  assert (F1 : Forall2 R (skipn a l) (skipn a m)).
  { clear L. revert a. induction F; intros [|a]; cbn; auto. }
  revert F1. generalize (skipn a l) (skipn a m). intros l' m' F1. induction F1; intros [|n]; cbn; auto.
Qed.

Lemma cat_sub_value s c ws a b : cat_holds s c ws ->
  match concat_get_subwindow no_files ws a b with
  | Ok ws' => exists c' s', cat_sub c a b s = (Ok c', s') /\ cat_holds s' c' ws'
  | Err e => fst (cat_sub c a b s) = Err e
  end.
Proof.
  intros H. destruct (cat_windows_value s c ws H) as (rs & E & F).
  unfold cat_sub, concat_get_subwindow.
  pose proof (file_index_value s c ws a H) as Ia. destruct (get_file_index ws a) as [i|e]; cbn [bind].
  2:{ apply bindM_err. rewrite Ia. reflexivity. }
  rewrite !(bindM_eq _ _ _ _ _ Ia).
  pose proof (file_index_value s c ws b H) as Ib. destruct (get_file_index ws b) as [j|e]; cbn [bind].
  2:{ apply bindM_err. rewrite Ib. reflexivity. }
  rewrite !(bindM_eq _ _ _ _ _ Ib), !(bindM_eq _ _ _ _ _ E).
  set (ss := slice ws (Z.of_nat i) (1 + Z.of_nat j)). set (rr := slice rs (Z.of_nat i) (1 + Z.of_nat j)).
  pose proof (copies_value rr s ss (slice_rel _ _ _ _ _ F)) as C.
  destruct (mapM (copy no_files) ss) as [new|e]; cbn [bind].
  2:{ apply bindM_err. exact C. }
  rewrite !(bindM_eq _ _ _ _ _ C). clear C.
  assert (Fn := holds_seq s new). set (s1 := with_leafs s new) in *.
  set (rn := seq (length (leafs s)) (length new)) in *.
  pose proof (py_nth_rel _ _ _ 0 Fn) as N0. destruct (py_nth new 0) as [w0|e]; cbn [bind].
  2:{ apply bindM_err. exact N0. }
  destruct N0 as (r0 & N0 & H0). rewrite !(bindM_lift _ _ _ _ N0), !(bindM_eq _ _ _ _ _ (get_leaf_holds _ _ _ H0)).
  pose proof (leaf_sub_value _ _ _ a (w_end w0) H0) as L0.
  destruct (get_subwindow no_files w0 a (w_end w0)) as [w0'|e]; cbn [bind].
  2:{ apply bindM_err. rewrite L0. reflexivity. }
  rewrite !(bindM_eq _ _ _ _ _ L0).
  assert (H0' : holds (with_leafs s1 [w0']) (length (leafs s1)) w0').
  { unfold holds. cbn. rewrite nth_error_app2, Nat.sub_diag by (cbn; lia). reflexivity. }
  apply (holds_app_all s1 [w0']) in Fn. set (s2 := with_leafs s1 [w0']) in *.
  pose proof (py_set_rel _ _ _ 0 _ _ Fn H0') as S0. destruct (py_set new 0 w0') as [new1|e]; cbn [bind].
  2:{ apply bindM_err. exact S0. }
  destruct S0 as (rn1 & S0 & F1). rewrite !(bindM_lift _ _ _ _ S0).
  pose proof (py_nth_rel _ _ _ (-1) F1) as N1. destruct (py_nth new1 (-1)) as [w1|e]; cbn [bind].
  2:{ apply bindM_err. exact N1. }
  destruct N1 as (r1 & N1 & H1). rewrite !(bindM_lift _ _ _ _ N1), !(bindM_eq _ _ _ _ _ (get_leaf_holds _ _ _ H1)).
  pose proof (leaf_sub_value _ _ _ (w_start w1) b H1) as L1.
  destruct (get_subwindow no_files w1 (w_start w1) b) as [w1'|e]; cbn [bind].
  2:{ apply bindM_err. rewrite L1. reflexivity. }
  rewrite !(bindM_eq _ _ _ _ _ L1).
  assert (H1' : holds (with_leafs s2 [w1']) (length (leafs s2)) w1').
  { unfold holds. cbn. rewrite nth_error_app2, Nat.sub_diag by (cbn; lia). reflexivity. }
  apply (holds_app_all s2 [w1']) in F1. set (s3 := with_leafs s2 [w1']) in *.
  pose proof (py_set_rel _ _ _ (-1) _ _ F1 H1') as S1. destruct (py_set new1 (-1) w1') as [new2|e]; cbn [bind].
  2:{ apply bindM_err. exact S1. }
  destruct S1 as (rn2 & S1 & F2). rewrite !(bindM_lift _ _ _ _ S1).
  assert (Al : alloc_list rn2 s3 = (Ok (length (lists s3)), with_list s3 rn2)) by reflexivity.
  rewrite !(bindM_eq _ _ _ _ _ Al).
  pose proof (new_cat_value s3 rn2 new2 F2) as N. cbv zeta in N. destruct (new_concat new2) as [ws''|e].
  - destruct N as (-> & N). exact N.
  - exact N.
Qed.

(** ** align and move. *)
Definition set_leaf (s : state) r w : state := St (list_set (leafs s) r w) (lists s) (cats s) (cells s).
Lemma holds_lt s r w : holds s r w -> (r < length (leafs s))%nat.
Proof. unfold holds. intro H. apply nth_error_Some. congruence. Qed.
Lemma holds_set s r w w' : holds s r w -> holds (set_leaf s r w') r w'.
Proof.
  intro H. apply holds_lt in H. unfold holds. cbn. rewrite nth_error_list_set, Nat.eqb_refl.
  apply Nat.ltb_lt in H. rewrite H. reflexivity.
Qed.
Lemma holds_set_other s r w' k w : k <> r -> holds (set_leaf s r w') k w <-> holds s k w.
Proof.
  intro N. unfold holds. cbn. rewrite nth_error_list_set. destruct (Nat.eqb_spec k r); [contradiction|reflexivity].
Qed.
Lemma holds_set_others s r w' rs ws : ~ In r rs -> Forall2 (holds s) rs ws -> Forall2 (holds (set_leaf s r w')) rs ws.
Proof.
  intros N F. induction F as [|k w rs ws H F IH]; constructor.
  - apply holds_set_other; auto. intro. subst. apply N. left. auto.
  - apply IH. intro. apply N. right. auto.
Qed.
Lemma leaf_move_value s r w d : holds s r w -> leaf_move r d s = (Ok tt, set_leaf s r (move w d)).
Proof. intro H. unfold leaf_move. rewrite (bindM_eq _ _ _ _ _ (get_leaf_holds _ _ _ H)). reflexivity. Qed.

(** [s'] is [s] with the windows [rs] replaced by [ws]. *)
Record replaced (s : state) (rs : list nat) (ws : list lf) (s' : state) : Prop := {
  rpF : Forall2 (holds s') rs ws;
  rpO : forall r, ~ In r rs -> nth_error (leafs s') r = nth_error (leafs s) r;
  rpX : lists s' = lists s; rpT : cats s' = cats s; rpC : cells s' = cells s }.

Lemma align_heap_value rs : NoDup rs -> forall s t ws, Forall2 (holds s) rs ws ->
  exists s', align_heap t rs s = (Ok tt, s') /\ replaced s rs (align_loop t ws) s'.
Proof.
  induction 1 as [|r rs Nr Nd IH]; intros s t ws F; inversion F as [|? w ? ws0 H F']; subst; cbn [align_heap align_loop].
  - exists s. split; auto. constructor; auto.
  - rewrite (bindM_eq _ _ _ _ _ (get_leaf_holds _ _ _ H)).
    rewrite (bindM_eq _ _ _ _ _ (leaf_move_value _ _ _ _ H)).
    set (w' := move w (t - w_start w)).
    assert (H' := holds_set s r w w' H). set (s1 := set_leaf s r w') in *.
    rewrite (bindM_eq _ _ _ _ _ (get_leaf_holds _ _ _ H')).
    destruct (IH s1 (t + duration w')%Q ws0) as (s' & E & R); [apply holds_set_others; auto|].
    exists s'. split; auto. destruct R as [R1 R2 R3 R4 R5]. constructor; auto.
    + constructor; auto. unfold holds. rewrite R2 by auto. exact H'.
    + intros k Hk. rewrite R2 by (intro; apply Hk; right; auto). cbn. rewrite nth_error_list_set.
      destruct (Nat.eqb_spec k r); auto. subst. exfalso. apply Hk. left. auto.
Qed.

Lemma align_list_value s l rs ws start : nth_error (lists s) l = Some rs -> NoDup rs -> Forall2 (holds s) rs ws ->
  match align ws start with
  | Ok ws' => exists s', align_list l start s = (Ok tt, s') /\ replaced s rs ws' s'
  | Err e => align_list l start s = (Err e, s)
  end.
Proof.
  intros Hl Nd F. unfold align_list, align.
  assert (G : get_list l s = (Ok rs, s)) by (unfold get_list; rewrite Hl; reflexivity).
  rewrite !(bindM_eq _ _ _ _ _ G). destruct start as [t|]; cbn [bind].
  - unfold bindM, ret. apply align_heap_value; auto.
  - pose proof (py_nth_rel _ _ _ 0 F) as N. destruct (py_nth ws 0) as [w|e]; cbn [bind].
    + destruct N as (r & N & H).
      assert (K : (r <-- lift (py_nth rs 0) ;; w <-- get_leaf r ;; ret (w_start w)) s = (Ok (w_start w), s)).
      { rewrite (bindM_lift _ _ _ _ N), (bindM_eq _ _ _ _ _ (get_leaf_holds _ _ _ H)). reflexivity. }
      rewrite (bindM_eq _ _ _ _ _ K). apply align_heap_value; auto.
    + unfold bindM, lift. rewrite N. reflexivity.
Qed.

(** Whatever the list, only the listed windows change. *)
Lemma align_heap_frame rs : forall (s : state) (t : Q),
  let s' := snd (align_heap t rs s) in
  (forall r, ~ In r rs -> nth_error (leafs s') r = nth_error (leafs s) r) /\
  lists s' = lists s /\ cats s' = cats s /\ cells s' = cells s /\ length (leafs s') = length (leafs s).
Proof.
  induction rs as [|r rs IH]; intros s t; cbn [align_heap]; [cbn; auto|].
  destruct (nth_error (leafs s) r) as [w|] eqn:E.
  - rewrite (bindM_eq _ _ _ _ _ (get_leaf_holds _ _ _ E)).
    rewrite (bindM_eq _ _ _ _ _ (leaf_move_value _ _ _ _ E)).
    set (w' := move w (t - w_start w)).
    assert (H' := holds_set s r w w' E). set (s1 := set_leaf s r w') in *.
    rewrite (bindM_eq _ _ _ _ _ (get_leaf_holds _ _ _ H')).
    destruct (IH s1 (t + duration w')%Q) as (R1 & R2 & R3 & R4 & R5). repeat split; auto.
    + intros k Hk. rewrite R1 by (intro; apply Hk; right; auto). cbn. rewrite nth_error_list_set.
      destruct (Nat.eqb_spec k r); auto. subst. exfalso. apply Hk. left. auto.
    + rewrite R5. cbn. apply list_set_length.
  - assert (K : get_leaf r s = (Err TypeError, s)) by (unfold get_leaf; rewrite E; reflexivity).
    unfold bindM. rewrite K. cbn. auto.
Qed.
Lemma align_list_frame (s : state) l start :
  let s' := snd (align_list l start s) in
  (forall r, (forall rs, nth_error (lists s) l = Some rs -> ~ In r rs) -> nth_error (leafs s') r = nth_error (leafs s) r) /\
  lists s' = lists s /\ cats s' = cats s /\ cells s' = cells s /\ length (leafs s') = length (leafs s).
Proof.
  cbv zeta. unfold align_list. destruct (nth_error (lists s) l) as [rs|] eqn:El.
  - assert (G : get_list l s = (Ok rs, s)) by (unfold get_list; rewrite El; reflexivity).
    rewrite !(bindM_eq _ _ _ _ _ G).
    set (m := match start with Some t => ret t | None => _ end).
    assert (Hm : snd (m s) = s).
    { unfold m. destruct start; auto. unfold bindM, lift. destruct (py_nth rs 0) as [r|]; auto. unfold get_leaf.
      destruct (nth_error (leafs s) r); auto. }
    unfold bindM. destruct (m s) as [[t|e] s0]; cbn in Hm; subst s0; cbn [snd]; [|repeat split; auto].
    destruct (align_heap_frame rs s t) as (R1 & R2). split; auto.
  - assert (K : get_list l s = (Err TypeError, s)) by (unfold get_list; rewrite El; reflexivity).
    unfold bindM. rewrite K. cbn. auto.
Qed.

Lemma moves_value rs d : NoDup rs -> forall s ws, Forall2 (holds s) rs ws ->
  exists u s', mapMM (fun r => leaf_move r d) rs s = (Ok u, s') /\ replaced s rs (map (fun w => move w d) ws) s'.
Proof.
  induction 1 as [|r rs Nr Nd IH]; intros s ws F; inversion F as [|? w ? ws0 H F']; subst; cbn [mapMM map].
  - exists [], s. split; auto. constructor; auto.
  - rewrite (bindM_eq _ _ _ _ _ (leaf_move_value _ _ _ _ H)).
    assert (H' := holds_set s r w (move w d) H). set (s1 := set_leaf s r (move w d)) in *.
    destruct (IH s1 ws0) as (u & s' & E & R); [apply holds_set_others; auto|].
    rewrite (bindM_eq _ _ _ _ _ E). exists (tt :: u), s'. split; auto. destruct R as [R1 R2 R3 R4 R5]. constructor; auto.
    + constructor; auto. unfold holds. rewrite R2 by auto. exact H'.
    + intros k Hk. rewrite R2 by (intro; apply Hk; right; auto). cbn. rewrite nth_error_list_set.
      destruct (Nat.eqb_spec k r); auto. subst. exfalso. apply Hk. left. auto.
Qed.
Lemma cat_move_value s c l rs ws d : nth_error (cats s) c = Some l -> nth_error (lists s) l = Some rs ->
  NoDup rs -> Forall2 (holds s) rs ws ->
  exists s', cat_move c d s = (Ok tt, s') /\ replaced s rs (concat_move ws d) s'.
Proof.
  intros Hc Hl Nd F. unfold cat_move.
  assert (E : cat_windows c s = (Ok rs, s)).
  { unfold cat_windows, bindM, get_cat, get_list. rewrite Hc, Hl. reflexivity. }
  rewrite (bindM_eq _ _ _ _ _ E). destruct (moves_value rs d Nd s ws F) as (u & s' & M & R).
  rewrite (bindM_eq _ _ _ _ _ M). exists s'. auto.
Qed.

(** ** In terms of what is observed. *)
Lemma observe_leaf_holds s r v : observe_leaf s r = Some v <->
  exists w, holds s r w /\ v = mapl (nth_error (cells s)) w.
Proof.
  unfold observe_leaf, holds. destruct (nth_error (leafs s) r) as [w|]; cbn; split.
  - intros [= <-]. exists w. split; [reflexivity|apply contents_mapl].
  - intros (w' & [= ->] & ->). rewrite contents_mapl. reflexivity.
  - discriminate.
  - intros (w & H & _). discriminate.
Qed.
Lemma observe_all s rs vs : map (observe_leaf s) rs = map Some vs <->
  exists ws, Forall2 (holds s) rs ws /\ vs = map (mapl (nth_error (cells s))) ws.
Proof.
  split.
  - revert vs. induction rs as [|r rs IH]; intros [|v vs] H; cbn in H; try discriminate.
    + exists []. split; auto.
    + injection H as H1 H2. apply observe_leaf_holds in H1 as (w & Hw & ->).
      destruct (IH vs H2) as (ws & F & ->). exists (w :: ws). split; auto.
  - intros (ws & F & ->). induction F; cbn; f_equal; auto. apply observe_leaf_holds. eauto.
Qed.
Lemma observe_list_holds s l vs : observe_list s l = Some (map Some vs) <->
  exists rs ws, nth_error (lists s) l = Some rs /\ Forall2 (holds s) rs ws /\ vs = map (mapl (nth_error (cells s))) ws.
Proof.
  unfold observe_list. destruct (nth_error (lists s) l) as [rs|]; cbn; split.
  - intros [= H]. apply observe_all in H as (ws & F & ->). exists rs, ws. auto.
  - intros (rs' & ws & [= <-] & F & ->). f_equal. apply observe_all. eauto.
  - discriminate.
  - intros (rs & ws & H & _). discriminate.
Qed.
Lemma observe_cat_holds s c vs : observe s (RCat c) = SeeCat (Some (map Some vs)) <->
  exists ws, cat_holds s c ws /\ vs = map (mapl (nth_error (cells s))) ws.
Proof.
  cbn. destruct (nth_error (cats s) c) as [l|] eqn:E; split.
  - intros [= H]. apply observe_list_holds in H as (rs & ws & H1 & H2 & ->). exists ws. split; auto.
    exists l. split; auto. exists rs. auto.
  - intros (ws & (l' & Hl & rs & H1 & H2) & ->). f_equal. apply observe_list_holds. exists rs, ws.
    assert (l' = l) by congruence. subst. auto.
  - discriminate.
  - intros (ws & (l' & Hl & _) & _). congruence.
Qed.

Lemma nth_error_grow (cs cs' : list A) (w : lf) :
  match w with LA a => Forall (fun k => (k < length cs)%nat) (a_data a) | _ => True end ->
  mapl (nth_error (cs ++ cs')) w = mapl (nth_error cs) w.
Proof.
  destruct w as [b|a|v]; auto. intro F. cbn. unfold maparr. do 2 f_equal. apply map_ext_in. intros k Hk.
  rewrite Forall_forall in F. apply nth_error_app1. auto.
Qed.

Lemma copy_cells (s : state) c : cells (snd (cat_copy c s)) = cells s.
Proof.
  unfold cat_copy.
  assert (B : forall X Y (m : @M O A P X) (f : X -> M Y), (forall s0 : state, cells (snd (m s0)) = cells s0) ->
    (forall x (s0 : state), cells (snd (f x s0)) = cells s0) -> forall s0 : state, cells (snd (bindM m f s0)) = cells s0).
  { intros X Y m f H1 H2 s0. unfold bindM. specialize (H1 s0). destruct (m s0) as [[x|e] s1]; cbn in *; auto.
    rewrite H2. auto. }
  assert (MM : forall X Y (f : X -> @M O A P Y) l, (forall x (s0 : state), cells (snd (f x s0)) = cells s0) ->
     forall s0 : state, cells (snd (mapMM f l s0)) = cells s0).
  { intros X Y f l H. induction l; intro s0; cbn [mapMM]; auto. }
  assert (LC : forall r (s0 : state), cells (snd (leaf_copy r s0)) = cells s0).
  { intros r. unfold leaf_copy. apply B; auto; intro; apply B; auto. }
  assert (CW : forall r (s0 : state), cells (snd (cat_windows r s0)) = cells s0).
  { intros r. unfold cat_windows. apply B; auto. }
  assert (NC : forall r (s0 : state), cells (snd (new_cat r s0)) = cells s0).
  { intros r. unfold new_cat. apply B; auto; intro; apply B; auto; intro; apply B; auto. }
  repeat (apply B; [auto|intro]); auto.
Qed.
Lemma sub_cells (s : state) c a b : cells (snd (cat_sub c a b s)) = cells s.
Proof.
  unfold cat_sub.
  assert (B : forall X Y (m : @M O A P X) (f : X -> M Y), (forall s0 : state, cells (snd (m s0)) = cells s0) ->
    (forall x (s0 : state), cells (snd (f x s0)) = cells s0) -> forall s0 : state, cells (snd (bindM m f s0)) = cells s0).
  { intros X Y m f H1 H2 s0. unfold bindM. specialize (H1 s0). destruct (m s0) as [[x|e] s1]; cbn in *; auto.
    rewrite H2. auto. }
  assert (MM : forall X Y (f : X -> @M O A P Y) l, (forall x (s0 : state), cells (snd (f x s0)) = cells s0) ->
     forall s0 : state, cells (snd (mapMM f l s0)) = cells s0).
  { intros X Y f l H. induction l; intro s0; cbn [mapMM]; auto. }
  assert (LC : forall r (s0 : state), cells (snd (leaf_copy r s0)) = cells s0).
  { intros r. unfold leaf_copy. apply B; auto; intro; apply B; auto. }
  assert (LS : forall r a b (s0 : state), cells (snd (leaf_sub r a b s0)) = cells s0).
  { intros r a' b'. unfold leaf_sub. apply B; auto; intro; apply B; auto. }
  assert (CW : forall r (s0 : state), cells (snd (cat_windows r s0)) = cells s0).
  { intros r. unfold cat_windows. apply B; auto. }
  assert (FI : forall r t (s0 : state), cells (snd (cat_file_index r t s0)) = cells s0).
  { intros r t. unfold cat_file_index. apply B; auto; intro; apply B; auto. }
  assert (NC : forall r (s0 : state), cells (snd (new_cat r s0)) = cells s0).
  { intros r. unfold new_cat. apply B; auto; intro; apply B; auto; intro; apply B; auto. }
  repeat (apply B; [auto|intro]); auto.
Qed.

(** copy and get_subwindow of a concatenation, observed. *)
Lemma cat_copy_observed (files : wavfiles P (option A)) (s : state) c vs :
  observe s (RCat c) = SeeCat (Some (map Some vs)) ->
  match concat_copy files vs with
  | Ok vs' => exists z s', copy_ref (RCat c) s = (Ok z, s') /\ observe s' z = SeeCat (Some (map Some vs'))
  | Err e => fst (copy_ref (RCat c) s) = Err e
  end.
Proof.
  intro H. apply observe_cat_holds in H as (ws & Hc & ->).
  rewrite (mapl_concat_copy _ no_files). pose proof (cat_copy_value s c ws Hc) as V. pose proof (copy_cells s c) as C.
  cbn [copy_ref]. destruct (concat_copy no_files ws) as [ws'|e]; cbn [mapr].
  - destruct V as (c' & s' & E & Hc'). rewrite E in C. cbn in C. rewrite (bindM_eq _ _ _ _ _ E).
    exists (RCat c'), s'. split; auto. apply observe_cat_holds. exists ws'. split; auto. rewrite C. auto.
  - apply bindM_err. exact V.
Qed.
Lemma cat_sub_observed (files : wavfiles P (option A)) (s : state) c vs a b :
  observe s (RCat c) = SeeCat (Some (map Some vs)) ->
  match concat_get_subwindow files vs a b with
  | Ok vs' => exists z s', sub_ref (RCat c) a b s = (Ok z, s') /\ observe s' z = SeeCat (Some (map Some vs'))
  | Err e => fst (sub_ref (RCat c) a b s) = Err e
  end.
Proof.
  intro H. apply observe_cat_holds in H as (ws & Hc & ->).
  rewrite (mapl_concat_sub _ no_files). pose proof (cat_sub_value s c ws a b Hc) as V. pose proof (sub_cells s c a b) as C.
  cbn [sub_ref]. destruct (concat_get_subwindow no_files ws a b) as [ws'|e]; cbn [mapr].
  - destruct V as (c' & s' & E & Hc'). rewrite E in C. cbn in C. rewrite (bindM_eq _ _ _ _ _ E).
    exists (RCat c'), s'. split; auto. apply observe_cat_holds. exists ws'. split; auto. rewrite C. auto.
  - apply bindM_err. exact V.
Qed.
Lemma leaf_copy_observed (files : wavfiles P (option A)) (s : state) r v :
  observe s (RLeaf r) = SeeLeaf (Some v) ->
  match copy files v with
  | Ok v' => exists z s', copy_ref (RLeaf r) s = (Ok z, s') /\ observe s' z = SeeLeaf (Some v')
  | Err e => fst (copy_ref (RLeaf r) s) = Err e
  end.
Proof.
  cbn. intros [= H]. apply observe_leaf_holds in H as (w & Hw & ->). rewrite (mapl_copy _ no_files).
  pose proof (leaf_copy_value s r w Hw) as V. destruct (copy no_files w) as [w'|e]; cbn [mapr].
  - rewrite (bindM_eq _ _ _ _ _ V). eexists _, _. split; [reflexivity|]. cbn. f_equal.
    apply observe_leaf_holds. exists w'. split; [|reflexivity]. unfold holds. cbn.
    rewrite nth_error_app2, Nat.sub_diag by lia. reflexivity.
  - apply bindM_err. rewrite V. reflexivity.
Qed.
Lemma leaf_sub_observed (files : wavfiles P (option A)) (s : state) r v a b :
  observe s (RLeaf r) = SeeLeaf (Some v) ->
  match get_subwindow files v a b with
  | Ok v' => exists z s', sub_ref (RLeaf r) a b s = (Ok z, s') /\ observe s' z = SeeLeaf (Some v')
  | Err e => fst (sub_ref (RLeaf r) a b s) = Err e
  end.
Proof.
  cbn. intros [= H]. apply observe_leaf_holds in H as (w & Hw & ->). rewrite (mapl_sub _ no_files).
  pose proof (leaf_sub_value s r w a b Hw) as V. destruct (get_subwindow no_files w a b) as [w'|e]; cbn [mapr].
  - rewrite (bindM_eq _ _ _ _ _ V). eexists _, _. split; [reflexivity|]. cbn. f_equal.
    apply observe_leaf_holds. exists w'. split; [|reflexivity]. unfold holds. cbn.
    rewrite nth_error_app2, Nat.sub_diag by lia. reflexivity.
  - apply bindM_err. rewrite V. reflexivity.
Qed.
Lemma align_observed (s : state) l rs vs start :
  nth_error (lists s) l = Some rs -> NoDup rs -> observe s (RList l) = SeeList (Some (map Some vs)) ->
  match align vs start with
  | Ok vs' => exists s', align_list l start s = (Ok tt, s') /\ observe s' (RList l) = SeeList (Some (map Some vs')) /\
      lists s' = lists s /\ cats s' = cats s /\ cells s' = cells s /\
      (forall r, ~ In r rs -> observe s' (RLeaf r) = observe s (RLeaf r))
  | Err e => align_list l start s = (Err e, s)
  end.
Proof.
  cbn. intros Hl Nd [= H]. apply observe_list_holds in H as (rs' & ws & Hl' & F & ->).
  assert (rs' = rs) by congruence. subst rs'. rewrite mapl_align.
  pose proof (align_list_value s l rs ws start Hl Nd F) as V. destruct (align ws start) as [ws'|e]; cbn [mapr]; auto.
  destruct V as (s' & E & [R1 R2 R3 R4 R5]). exists s'. split; auto. split.
  - f_equal. apply observe_list_holds. exists rs, ws'. rewrite R3, R5. auto.
  - repeat split; auto. intros r Hr. unfold observe_leaf. rewrite R2, R5 by auto. reflexivity.
Qed.
Lemma cat_move_observed (s : state) c l rs vs d :
  nth_error (cats s) c = Some l -> nth_error (lists s) l = Some rs -> NoDup rs ->
  observe s (RCat c) = SeeCat (Some (map Some vs)) ->
  exists s', move_ref (RCat c) d s = (Ok tt, s') /\
    observe s' (RCat c) = SeeCat (Some (map Some (concat_move vs d))) /\
    (forall r, ~ In r rs -> observe s' (RLeaf r) = observe s (RLeaf r)).
Proof.
  intros Hc Hl Nd H. apply observe_cat_holds in H as (ws & (l' & Hc' & rs' & Hl' & F) & ->).
  assert (l' = l) by congruence. subst l'. assert (rs' = rs) by congruence. subst rs'.
  destruct (cat_move_value s c l rs ws d Hc Hl Nd F) as (s' & E & [R1 R2 R3 R4 R5]). exists s'.
  split; auto. split.
  - apply observe_cat_holds. exists (concat_move ws d). split.
    + exists l. rewrite R4. split; auto. exists rs. rewrite R3. auto.
    + rewrite R5. unfold concat_move. rewrite !map_map. apply map_ext. intro w. rewrite mapl_move. reflexivity.
  - intros r Hr. cbn. unfold observe_leaf. rewrite R2, R5 by auto. reflexivity.
Qed.

(** ** The array made from a concatenation is new. *)
Lemma bindM_inv {X Y} (m : @M O A P X) (f : X -> M Y) s y s' : bindM m f s = (Ok y, s') ->
  exists x s1, m s = (Ok x, s1) /\ f x s1 = (Ok y, s').
Proof. unfold bindM. destruct (m s) as [[x|e] s1]; [eauto|discriminate]. Qed.
Lemma kept_ok {X} (m : @M O A P X) s x s1 : kept m -> m s = (Ok x, s1) -> exists n, cells s1 = cells s ++ n.
Proof. intros K E. destruct (K s) as (n & H). rewrite E in H. eauto. Qed.

Lemma cat_to_array_fresh files (s : state) c z s1 : well_formed s -> valid s (RCat c) ->
  array_ref files (RCat c) s = (Ok z, s1) ->
  exists nL nX nT nC, fresh false s s1 z nL nX nT nC.
Proof.
  intros W V E.
  assert (Weak : fresh true s s1 z (length (leafs s)) (length (lists s)) (length (cats s)) (length (cells s))).
  { eapply at_fresh; eauto using kept_array_ref. intro I. apply at_array_ref; auto.
    apply (readable_old true s (RCat c)); auto. discriminate. }
  cbn [array_ref] in E. apply bindM_inv in E as (r & s' & E & Er). injection Er as <- <-.
  unfold cat_to_array in E.
  apply bindM_inv in E as (rs & s2 & E2 & E). apply bindM_inv in E as (arrs & s3 & E3 & E).
  apply bindM_inv in E as (ws & s4 & E4 & E). apply bindM_inv in E as (a & s5 & E5 & E).
  apply bindM_inv in E as (xs & s6 & E6 & E). apply bindM_inv in E as (ks & s7 & E7 & E).
  assert (C2 := kept_ok _ _ _ _ (kept_cat_windows c) E2).
  assert (C3 := kept_ok _ _ _ _ (kept_mapMM _ rs (kept_leaf_to_array files)) E3).
  assert (C4 : exists n, cells s4 = cells s3 ++ n).
  { eapply kept_ok; [|exact E4]. apply kept_mapMM. intro. unfold get_array. apply kept_bind; [apply kept_same; reflexivity|].
    intros [?|?|?]; apply kept_same; reflexivity. }
  assert (C5 : s5 = s4) by (unfold lift in E5; congruence).
  assert (C6 : exists n, cells s6 = cells s5 ++ n).
  { eapply kept_ok; [|exact E6]. apply kept_mapMM. intro. apply kept_same. reflexivity. }
  assert (CC : (length (cells s) <= length (cells s6))%nat).
  { destruct C2 as (? & C2), C3 as (? & C3), C4 as (? & C4), C6 as (? & C6). rewrite C6, C5, C4, C3, C2, !app_length. lia. }
  unfold alloc_cells in E7. injection E7 as <- <-. unfold alloc_leaf in E. cbn in E. injection E as <- <-.
  exists (length (leafs s6)), (length (lists s6)), (length (cats s6)), (length (cells s6)).
  destruct Weak as [_ Gz HL HX HT HC Ag lenL lenX lenT lenC]. cbn in *.
  assert (B : forall n r, above n r = false -> (r < n)%nat) by (intros n r; apply Nat.leb_gt).
  constructor; cbn; auto.
  - constructor; cbn.
    + intros r H. apply B in H. rewrite app_length. lia.
    + intros r H. apply B in H. lia.
    + intros r H. apply B in H. lia.
    + intros r H. apply B in H. rewrite app_length. lia.
    + intros r w Hr Hw. apply Nat.leb_le in Hr. apply nth_error_snoc in Hw as [Hw|[-> ->]].
      * assert (r < length (leafs s6))%nat by (apply nth_error_Some; congruence). lia.
      * cbn. apply Forall_forall. intros k Hk. apply in_seq in Hk. split; cbn; [rewrite app_length; lia|].
        apply Nat.leb_le. lia.
    + intros l ll Hl Hx. apply Nat.leb_le in Hl. assert (l < length (lists s6))%nat by (apply nth_error_Some; congruence). lia.
    + intros l ll Hl Hx. apply Nat.leb_le in Hl. assert (l < length (cats s6))%nat by (apply nth_error_Some; congruence). lia.
  - split; cbn; [rewrite app_length; cbn; lia|apply Nat.leb_refl].
  - destruct Gz as [_ Gz]. apply Nat.leb_le in Gz. auto.
Qed.
End Value.

Section Final.
Context {O A P : Type}.
Notation state := (st O A P).

Lemma copy_independent (files : wavfiles P A) (s : state) v z s1 (h : list (op O A P)) :
  well_formed s -> valid s v -> copy_ref v s = (Ok z, s1) -> no_array_write h \/ without_arrays s v ->
  (forall s2 vars2 y, run files h s1 [z] = (s2, vars2) -> valid s y -> observe s2 y = observe s y) /\
  (forall ys s2 vars2, Forall (valid s) ys -> run files h s1 ys = (s2, vars2) -> observe s2 z = observe s1 z).
Proof.
  intros W V E N. destruct N as [N|N].
  - assert (F := copy_fresh true s v z s1 W V ltac:(discriminate) E).
    split; intros; [eapply (new_does_not_touch_old true)|eapply (old_does_not_touch_new true)]; eauto.
  - assert (F := copy_fresh false s v z s1 W V (fun _ => N) E).
    split; intros; [eapply (new_does_not_touch_old false)|eapply (old_does_not_touch_new false)]; eauto; discriminate.
Qed.
Lemma sub_independent (files : wavfiles P A) (s : state) v a b z s1 (h : list (op O A P)) :
  well_formed s -> valid s v -> sub_ref v a b s = (Ok z, s1) -> no_array_write h \/ without_arrays s v ->
  (forall s2 vars2 y, run files h s1 [z] = (s2, vars2) -> valid s y -> observe s2 y = observe s y) /\
  (forall ys s2 vars2, Forall (valid s) ys -> run files h s1 ys = (s2, vars2) -> observe s2 z = observe s1 z).
Proof.
  intros W V E N. destruct N as [N|N].
  - assert (F := sub_fresh true s v a b z s1 W V ltac:(discriminate) E).
    split; intros; [eapply (new_does_not_touch_old true)|eapply (old_does_not_touch_new true)]; eauto.
  - assert (F := sub_fresh false s v a b z s1 W V (fun _ => N) E).
    split; intros; [eapply (new_does_not_touch_old false)|eapply (old_does_not_touch_new false)]; eauto; discriminate.
Qed.
Lemma array_independent (files : wavfiles P A) (s : state) c z s1 (h : list (op O A P)) :
  well_formed s -> valid s (RCat c) -> array_ref files (RCat c) s = (Ok z, s1) ->
  (forall s2 vars2 y, run files h s1 [z] = (s2, vars2) -> valid s y -> observe s2 y = observe s y) /\
  (forall ys s2 vars2, Forall (valid s) ys -> run files h s1 ys = (s2, vars2) -> observe s2 z = observe s1 z).
Proof.
  intros W V E. destruct (cat_to_array_fresh files s c z s1 W V E) as (nL & nX & nT & nC & F).
  split; intros; [eapply (new_does_not_touch_old false)|eapply (old_does_not_touch_new false)]; eauto; discriminate.
Qed.
(** Nothing that existed is changed by the call itself. *)
Lemma copy_keeps (s : state) v z s1 y : well_formed s -> valid s v -> copy_ref v s = (Ok z, s1) ->
  valid s y -> observe s1 y = observe s y.
Proof.
  intros W V E Vy. apply agree_observe; auto.
  apply (frA _ _ _ _ _ _ _ _ (copy_fresh true s v z s1 W V ltac:(discriminate) E)).
Qed.
Lemma sub_keeps (s : state) v a b z s1 y : well_formed s -> valid s v -> sub_ref v a b s = (Ok z, s1) ->
  valid s y -> observe s1 y = observe s y.
Proof.
  intros W V E Vy. apply agree_observe; auto.
  apply (frA _ _ _ _ _ _ _ _ (sub_fresh true s v a b z s1 W V ltac:(discriminate) E)).
Qed.
Lemma start_well_formed : well_formed (@St O A P [] [] [] []).
Proof. repeat split; intros [|?] ?; discriminate. Qed.
Lemma reachable_well_formed (files : wavfiles P A) (h : list (op O A P)) s vars :
  run files h (St [] [] [] []) [] = (s, vars) -> well_formed s /\ Forall (valid s) vars.
Proof. apply run_well_formed; auto. apply start_well_formed. Qed.
Lemma align_only_listed (s : state) l start :
  let s' := snd (align_list l start s) in
  (forall r, (forall rs, nth_error (lists s) l = Some rs -> ~ In r rs) -> observe s' (RLeaf r) = observe s (RLeaf r)) /\
  lists s' = lists s /\ cats s' = cats s /\ cells s' = cells s /\ length (leafs s') = length (leafs s).
Proof.
  cbv zeta. destruct (align_list_frame s l start) as (R1 & R2 & R3 & R4 & R5). repeat split; auto.
  intros r Hr. unfold observe, observe_leaf. rewrite R1, R4 by auto. reflexivity.
Qed.
End Final.
