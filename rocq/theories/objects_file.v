(** * Proofs on the files of object databases and on their loader. *)

From Coq Require Import List ZArith Arith Bool QArith Reals String Ascii Lia Sorted.
Import ListNotations.
From Verif Require Import Py Py_proof logger_model logger_spec logger_file serial_model serial_spec serial_proof pairing_proof utils_proof sound_model sound_proof sound_count
  nd_model nd_spec array_utils_model array_utils_spec array_utils_proof motion_model motion_spec motion_proof motion_file objects_model objects_spec objects_proof objects_read
  objects_build.
Local Open Scope nat_scope.

(** ** Frames *)
Lemma views_native vs : @native unit (VList (map view_val vs)).
Proof.
  constructor. intros x I. apply in_map_iff in I. destruct I as ([l|] & <- & _); [|constructor]. constructor. intros y J. apply in_map_iff in J. destruct J as (z & <- & _). constructor.
Qed.
Lemma frame_image f : json_image (to_dict f) (to_dict f).
Proof.
  unfold to_dict. constructor.
  - repeat constructor. pose proof (native_image _ (views_native (f_views f))) as N. inversion N; assumption.
  - repeat constructor; cbn; intuition discriminate.
Qed.
Lemma frame_again f : constructed f -> from_dict (to_dict f) = Ok f.
Proof.
  intros (n & l & t & vs & ->). set (f := Frame n l t vs). unfold from_dict, to_dict. cbn [item find fst snd String.eqb Ascii.eqb Bool.eqb bind as_string val_int iter].
  assert (V : mapM val_view (map view_val (f_views f)) = Ok (f_views f)).
  { induction (f_views f) as [|v l0 IH]; [reflexivity|]. cbn [map mapM]. rewrite IH. destruct v as [zs|]; [|reflexivity].
    cbn [view_val val_view]. assert (Z : mapM val_int (map VInt zs) = Ok zs) by (induction zs as [|z zs IHz]; [reflexivity|]; cbn [map mapM val_int bind]; rewrite IHz; reflexivity).
    rewrite Z. reflexivity. }
  rewrite V. cbn [bind]. f_equal. unfold Frame. subst f. cbn [f_name f_label f_time f_views Frame]. unfold Frame. cbn [f_views]. f_equal.
  destruct (List.length vs =? 4) eqn:E; cbn [List.length]; [apply Nat.eqb_eq in E; rewrite E; reflexivity|rewrite E; reflexivity].
Qed.
Lemma described_constructed int_of time_of line f : describes int_of time_of line f -> constructed f.
Proof.
  intros H. apply line_spec in H. unfold from_line in H. destruct (split_bar line) as (b, bs). apply bind_ok in H. destruct H as (vs & _ & H).
  apply bind_ok in H. destruct H as ((l, t) & _ & H). injection H as <-. exists (drop_last b), l, t, vs. reflexivity.
Qed.

(** ** Saving and loading *)
Lemma all_some_map {A} (l : list A) : all_some (map Some l) = Some l.
Proof. induction l as [|x l IH]; [reflexivity|]. cbn. unfold all_some in IH. rewrite IH. reflexivity. Qed.
Lemma add_frames fs : forall d, fold_left add_frame fs d = mkObjects (o_frames d ++ fs) (o_histos d) (o_by_frame d) (o_names d).
Proof. induction fs as [|f fs IH]; intros d; cbn [fold_left]; [rewrite app_nil_r; destruct d; reflexivity|]. rewrite IH. unfold add_frame. cbn. rewrite <- app_assoc. reflexivity. Qed.
Definition meta_of (d : object_db) (name : string) : jval :=
  VDict ((match o_names d with Some ns => [(KStr "object_names"%string, VList (map name_val ns))] | None => [] end) ++
    [(KStr "data_file"%string, VStr (name ++ ".mat")); (KStr "frames"%string, VList (map to_dict (o_frames d)))]).
Lemma frames_image fs : @images unit (map to_dict fs) (map to_dict fs).
Proof. induction fs as [|f fs IH]; cbn [map]; constructor; [apply frame_image|exact IH]. Qed.
Lemma names_image ns : @images unit (map name_val ns) (map name_val ns).
Proof. induction ns as [|[n|] ns IH]; cbn [map name_val]; constructor; try constructor; exact IH. Qed.
Lemma meta_rt d name : json_rt (meta_of d name) = Ok (meta_of d name).
Proof.
  apply json_rt_ok. unfold meta_of. destruct (o_names d) as [ns|]; cbn [app]; constructor.
  - repeat (first [apply names_image|constructor]); apply frames_image.
  - repeat constructor; cbn; intuition discriminate.
  - repeat constructor; apply frames_image.
  - repeat constructor; cbn; intuition discriminate.
Qed.
Lemma four_views int_of time_of b b1 b2 b3 b4 f : (forall x, In x [b; b1; b2; b3; b4] -> no_bar x) ->
  from_line int_of time_of (String.concat "|" [b; b1; b2; b3; b4]) = Ok f -> exists v1 v2 v3 v4, f_views f = [None; Some v1; Some v2; Some v3; Some v4].
Proof.
  intros NB. unfold from_line. rewrite split_bar_concat; [|apply NB; cbn; auto|intros x I; apply NB; cbn; auto]. intros H. apply bind_ok in H. destruct H as (vs & V & H).
  apply bind_ok in H. destruct H as ((l, t) & _ & H). injection H as <-. apply views_ok in V. destruct V as (ws & -> & F). apply Forall2_length' in F.
  destruct ws as [|v1 [|v2 [|v3 [|v4 [|]]]]]; try discriminate. exists v1, v2, v3, v4. reflexivity.
Qed.
Lemma base_mat : base_name ".mat". Proof. intros I. cbn in I. intuition discriminate. Qed.
Lemma save_load d k path name Ms : Forall constructed (o_frames d) -> List.length (o_histos d) = 5 -> o_by_frame d = map Some Ms -> List.length Ms = 5 ->
  destination path -> base_name name ->
  exists k', save d k path name = (k', Ok tt) /\
    load k' (path_join path (name ++ ".json")) = Ok (mkObjects (o_frames d) (map (fun h => Loaded (value h)) (o_histos d)) (o_by_frame d) (o_names d)) /\
    (forall p, p <> path_join path (name ++ ".json") -> dict_get String.eqb (d_json k') p = dict_get String.eqb (d_json k) p) /\
    (forall p, p <> path_join path (name ++ ".mat") -> dict_get String.eqb (d_mat k') p = dict_get String.eqb (d_mat k) p).
Proof.
  intros HC LH EB LM HD HB. destruct d as [fs hs bf names]. cbn [o_frames o_histos o_by_frame o_names] in *. subst bf.
  destruct hs as [|h0 [|h1 [|h2 [|h3 [|h4 [|]]]]]]; try discriminate. destruct Ms as [|m0 [|m1 [|m2 [|m3 [|m4 [|]]]]]]; try discriminate.
  set (d := mkObjects fs [h0; h1; h2; h3; h4] (map Some [m0; m1; m2; m3; m4]) names).
  set (mats := [("SURF", value h0); ("color", value h1); ("SURF_pairs", value h2); ("color_pairs", value h3); ("color_triplets", value h4);
                ("by_frame_SURF", m0); ("by_frame_color", m1); ("by_frame_SURF_pairs", m2); ("by_frame_color_pairs", m3); ("by_frame_color_triplets", m4)]%string).
  exists (mkOdisk (dict_set String.eqb (d_json k) (path_join path (name ++ ".json")) (Some (meta_of d name))) (dict_set String.eqb (d_mat k) (path_join path (name ++ ".mat")) mats)).
  assert (SV : save d k path name = (mkOdisk (dict_set String.eqb (d_json k) (path_join path (name ++ ".json")) (Some (meta_of d name)))
      (dict_set String.eqb (d_mat k) (path_join path (name ++ ".mat")) mats), Ok tt)).
  { unfold save. change (VDict _) with (meta_of d name). rewrite meta_rt. cbn [d_json d_mat]. change (o_by_frame d) with (map Some [m0; m1; m2; m3; m4]). rewrite all_some_map. reflexivity. }
  split; [exact SV|]. split; [|split].
  - unfold load. cbn [d_json d_mat]. rewrite sget_set, String.eqb_refl. cbn [bind].
    assert (HN : (if has_item (meta_of d name) "object_names" then
              ns <- item (meta_of d name) "object_names"%string ;; ns <- iter ns ;; ns <- mapM as_name ns ;; Ok (Some ns)
            else Ok None)%py = Ok names).
    { unfold meta_of, d. cbn [o_names]. destruct names as [ns|]; [|reflexivity]. cbn.
      assert (MS : mapM as_name (map name_val ns) = Ok ns) by (clear; induction ns as [|[x|] ns IH]; [reflexivity| |]; cbn [map mapM name_val as_name bind]; rewrite IH; reflexivity).
      rewrite MS. reflexivity. }
    rewrite HN. cbn [bind].
    assert (HF : item (meta_of d name) "frames"%string = Ok (VList (map to_dict fs))) by (unfold meta_of, d; cbn [o_names o_frames]; destruct names; reflexivity).
    rewrite HF. cbn [bind iter]. assert (MF : mapM from_dict (map to_dict fs) = Ok fs).
    { clear -HC. induction HC as [|f fs C _ IH]; [reflexivity|]. cbn [map mapM]. rewrite (frame_again f C), IH. reflexivity. }
    rewrite MF. cbn [bind]. assert (HI : has_item (meta_of d name) "data_file" = true) by (unfold meta_of, d; cbn [o_names]; destruct names; reflexivity). rewrite HI.
    assert (HDF : item (meta_of d name) "data_file"%string = Ok (VStr (name ++ ".mat"))) by (unfold meta_of, d; cbn [o_names]; destruct names; reflexivity).
    rewrite HDF. cbn [bind as_string].
    rewrite (found_again path (name ++ ".json") (name ++ ".mat") HD (base_suffix _ _ HB base_json) (base_suffix _ _ HB base_mat)).
    rewrite sget_set, String.eqb_refl. cbn [bind]. rewrite add_frames. reflexivity.
  - intros p N. cbn [d_json]. rewrite sget_set. destruct (String.eqb_spec (path_join path (name ++ ".json")) p); [congruence|reflexivity].
  - intros p N. cbn [d_mat]. rewrite sget_set. destruct (String.eqb_spec (path_join path (name ++ ".mat")) p); [congruence|reflexivity].
Qed.
(** Saving before the histograms by frame are computed. *)
Lemma save_early d k path name : In None (o_by_frame d) -> exists k', save d k path name = (k', Err TypeError) /\ d_mat k' = d_mat k.
Proof.
  intros I. assert (A : all_some (o_by_frame d) = None).
  { induction (o_by_frame d) as [|b l IH]; [destruct I|]. cbn. destruct I as [->|I]; [reflexivity|]. unfold all_some in IH. rewrite (IH I). destruct b; reflexivity. }
  unfold save. change (VDict _) with (meta_of d name). rewrite meta_rt, A. eexists. split; reflexivity.
Qed.

(** ** The loader *)
Lemma name_value d f n : entry_of d f n <-> object_name d f = Ok n.
Proof.
  unfold entry_of, object_name. split; [intros (ns & -> & H); exact H|]. destruct (o_names d) as [ns|]; [|discriminate]. eauto.
Qed.
Definition flag (labels : list string) (d : object_db) (f : frame) : result bool :=
  (n <- object_name d f ;; Ok (in_labels n labels))%py.
Lemma in_strings n l : existsb (String.eqb n) l = true <-> In n l.
Proof.
  rewrite existsb_exists. split; [intros (x & I & E); apply String.eqb_eq in E; subst; exact I|intros I; exists n; rewrite String.eqb_refl; auto].
Qed.
Lemma filter_idx (bs : list bool) : StronglySorted Peano.lt (map fst (filter snd (enumerate bs))) /\
  forall i, In i (map fst (filter snd (enumerate bs))) <-> nth_error bs i = Some true.
Proof.
  split; [apply sorted_filter, enumerate_sorted|]. intros i. rewrite in_map_iff. split.
  - intros ((j, b) & <- & I). apply filter_In in I. destruct I as (I & B). cbn in *. subst b. apply In_nth_error in I. destruct I as (q & Q). rewrite nth_error_enumerate in Q.
    destruct (nth_error bs q) eqn:E; [|discriminate]. injection Q as <- <-. exact E.
  - intros E. exists (i, true). split; [reflexivity|]. apply filter_In. split; [|reflexivity]. apply nth_error_In with i. rewrite nth_error_enumerate, E. reflexivity.
Qed.
Lemma keep_value d labels : name_ok d -> exists bs, mapM (flag labels d) (o_frames d) = Ok bs /\ wanted d labels (map fst (filter snd (enumerate bs))).
Proof.
  intros H. assert (X : exists bs, mapM (flag labels d) (o_frames d) = Ok bs).
  { unfold name_ok in H. revert H. generalize (o_frames d) as fs. induction fs as [|f fs IH]; intros H; [exists []; reflexivity|].
    destruct IH as (bs & E); [intros g I; apply H; cbn; auto|]. destruct (H f) as (n & N); [cbn; auto|]. apply name_value in N.
    cbn [mapM]. unfold flag at 1. rewrite N. cbn [bind]. rewrite E. eexists. reflexivity. }
  destruct X as (bs & E). exists bs. split; [exact E|]. apply mapM_ok in E. destruct (filter_idx bs) as (SS & IN). split; [exact SS|]. intros i. rewrite IN. split.
  - intros B. destruct (Forall2_nth_r _ _ _ E i true B) as (f & F & X). unfold flag in X. apply bind_ok in X. destruct X as (n & N & X). injection X as X.
    destruct n as [n|]; [|discriminate]. apply in_strings in X. exists f, n. split; [exact F|]. split; [apply name_value, N|exact X].
  - intros (f & n & F & N & I). destruct (Forall2_nth _ _ _ E i f F) as (b & B & X). unfold flag in X. apply name_value in N. rewrite N in X. cbn [bind in_labels] in X. injection X as <-.
    apply in_strings in I. rewrite I in B. exact B.
Qed.

(** Blocks side by side. *)
Lemma seq_split a b : seq 0 (a + b) = seq 0 a ++ map (fun c => a + c) (seq 0 b).
Proof. rewrite seq_app. f_equal. cbn [plus]. assert (G : forall b s, seq (a + s) b = map (fun c => a + c) (seq s b)). { clear. induction b as [|b IH]; intros s; [reflexivity|]. cbn [seq map]. f_equal. rewrite <- IH. f_equal. lia. }
  specialize (G b 0). rewrite Nat.add_0_r in G. exact G. Qed.
Lemma beside_rows ms i : map (beside ms i) (seq 0 (fold_right (fun m n => ncols m + n) 0 ms)) = List.concat (map (fun m => row m i) ms).
Proof.
  induction ms as [|m ms IH]; [reflexivity|]. cbn [fold_right map List.concat]. rewrite seq_split, map_app, map_map. f_equal.
  - unfold row. apply map_ext_in. intros c I. apply in_seq in I. cbn [beside]. change (nth 1 (shape m) 0) with (ncols m) in *. destruct (Nat.ltb_spec c (ncols m)); [reflexivity|lia].
  - rewrite <- IH. apply map_ext. intros c. cbn [beside]. destruct (Nat.ltb_spec (ncols m + c) (ncols m)); [lia|]. f_equal. lia.
Qed.
Lemma hstack_ok n Ms : Ms <> [] -> Forall (fun M => nrows M = n) Ms -> exists X, hstack_values (map Some Ms) = Ok X /\
  shape X = [n; fold_right (fun m n => ncols m + n) 0 Ms] /\ forall i, row X i = List.concat (map (fun M => row M i) Ms).
Proof.
  intros NE F. unfold hstack_values. destruct Ms as [|m ms]; [congruence|]. cbn [map forallb andb]. change (Some m :: map Some ms) with (map Some (m :: ms)). rewrite all_some_map. cbn [hd].
  replace (forallb (fun m0 => nrows m0 =? nrows m) (m :: ms)) with true.
  2: { symmetry. apply forallb_forall. intros x I. rewrite Forall_forall in F. apply Nat.eqb_eq. rewrite (F x I), (F m); [reflexivity|cbn; auto]. }
  eexists. split; [reflexivity|]. cbn [shape]. inversion F as [|? ? N _]; subst. split; [reflexivity|]. intros i. exact (beside_rows (m :: ms) i).
Qed.

(** The states of a loader in use. *)
Definition in_state (l : loader) (idx : list nat) : Prop :=
  (l_keep_idx l = None \/ l_keep_idx l = Some idx) /\ (l_n_samples l = None \/ l_n_samples l = Some (List.length idx)).
Definition same_loader (a b : loader) : Prop := l_features a = l_features b /\ l_labels a = l_labels b /\ l_db a = l_db b.
Definition idx_of (d : object_db) (labels : list string) (idx : list nat) : Prop :=
  exists bs, mapM (flag labels d) (o_frames d) = Ok bs /\ idx = map fst (filter snd (enumerate bs)).
Lemma keep_step l idx : idx_of (l_db l) (l_labels l) idx -> in_state l idx -> exists l', keep_idx l = (l', Ok idx) /\ same_loader l' l /\ in_state l' idx.
Proof.
  intros (bs & E & I) ([K|K] & N); unfold keep_idx; rewrite K.
  - match goal with |- context [mapM ?g (o_frames (l_db l))] => change g with (flag (l_labels l) (l_db l)) end. rewrite E. cbv zeta. rewrite <- I. eexists. split; [reflexivity|]. split; [repeat split|]. split; cbn; auto.
  - exists l. split; [reflexivity|]. split; [repeat split|]. split; auto.
Qed.
Lemma check_ok n m : n = None \/ n = Some m -> check_n_samples n m = (Some m, Ok tt).
Proof. intros [->| ->]; [reflexivity|]. cbn. rewrite Nat.eqb_refl. reflexivity. Qed.
Lemma histograms_ok d fs Ms : histograms d fs Ms -> mapM (get_histos_matrix_by_frame d) fs = Ok (map Some Ms).
Proof.
  induction 1 as [|t M fs Ms (k & K & B) _ IH]; [reflexivity|]. cbn [map mapM]. unfold get_histos_matrix_by_frame at 1, feature_index. rewrite K. cbn [bind].
  assert (PN : py_nth (o_by_frame d) (Z.of_nat k) = Ok (Some M)).
  { unfold py_nth, norm_index. assert (KL : k < List.length (o_by_frame d)) by (apply nth_error_Some; congruence).
    replace ((0 <=? Z.of_nat k)%Z && (Z.of_nat k <? Z.of_nat (List.length (o_by_frame d)))%Z) with true by (symmetry; apply andb_true_iff; split; [apply Z.leb_le|apply Z.ltb_lt]; lia).
    cbn [bind]. rewrite Nat2Z.id, B. reflexivity. }
  rewrite PN. cbn [bind]. rewrite IH. reflexivity.
Qed.
Lemma data_step l idx Ms : idx_of (l_db l) (l_labels l) idx -> in_state l idx -> histograms (l_db l) (l_features l) Ms -> Ms <> [] ->
  Forall (fun M => nrows M = List.length (o_frames (l_db l))) Ms -> Forall (fun i => i < List.length (o_frames (l_db l))) idx ->
  exists l' X, get_data l = (l', Ok X) /\ same_loader l' l /\ in_state l' idx /\ nrows X = List.length idx /\
    forall q i, nth_error idx q = Some i -> row X q = List.concat (map (fun M => row M i) Ms).
Proof.
  intros HI ST HM NE HR HL. destruct (hstack_ok _ Ms NE HR) as (X & E & SX & RX). destruct (keep_step l idx HI ST) as (l1 & K & SL & ST1).
  unfold get_data. rewrite (histograms_ok _ _ _ HM), E, K. rewrite take_rows_ok by (rewrite SX; exact HL). destruct ST1 as (K1 & N1).
  change (nrows (Nd [List.length idx; _] _)) with (List.length idx). rewrite (check_ok _ _ N1). do 2 eexists. split; [reflexivity|].
  split; [exact SL|]. split; [split; cbn; auto|]. split; [reflexivity|]. intros q i Q. rewrite <- RX. unfold row. cbn [shape nth el]. apply map_ext. intros c.
  rewrite (nth_error_nth _ _ 0 Q). reflexivity.
Qed.
Lemma labels_step l idx : idx_of (l_db l) (l_labels l) idx -> in_state l idx -> wanted (l_db l) (l_labels l) idx ->
  exists l' ls, get_labels l = (l', Ok ls) /\ same_loader l' l /\ in_state l' idx /\ List.length ls = List.length idx /\
    forall q i, nth_error idx q = Some i -> exists f n, nth_error (o_frames (l_db l)) i = Some f /\ name_of (l_db l) f n /\ nth_error ls q = Some (Some n).
Proof.
  intros HI ST (_ & W). destruct (keep_step l idx HI ST) as (l1 & K & SL & ST1). unfold get_labels. rewrite K. destruct SL as (S1 & S2 & S3).
  rewrite S3. set (g := fun i : nat => (f <- py_nth (o_frames (l_db l)) (Z.of_nat i) ;; object_name (l_db l) f)%py).
  assert (G : forall i, In i idx -> exists f n, nth_error (o_frames (l_db l)) i = Some f /\ name_of (l_db l) f n /\ g i = Ok (Some n)).
  { intros i I. apply W in I. destruct I as (f & n & F & N & _). exists f, n. split; [exact F|]. split; [exact N|]. unfold g, py_nth, norm_index.
    assert (KL : i < List.length (o_frames (l_db l))) by (apply nth_error_Some; congruence).
    replace ((0 <=? Z.of_nat i)%Z && (Z.of_nat i <? Z.of_nat (List.length (o_frames (l_db l))))%Z) with true by (symmetry; apply andb_true_iff; split; [apply Z.leb_le|apply Z.ltb_lt]; lia).
    cbn [bind]. rewrite Nat2Z.id, F. cbn [bind]. apply name_value, N. }
  assert (M : exists ls, mapM g idx = Ok ls /\ Forall2 (fun i n => exists f m, nth_error (o_frames (l_db l)) i = Some f /\ name_of (l_db l) f m /\ n = Some m) idx ls).
  { clear -G. induction idx as [|i idx IH]; [exists []; split; [reflexivity|constructor]|]. destruct IH as (ls & E & F); [intros j J; apply G; cbn; auto|].
    destruct (G i) as (f & n & A & B & C); [cbn; auto|]. exists (Some n :: ls). cbn [mapM]. rewrite C, E. split; [reflexivity|]. constructor; [exists f, n; auto|exact F]. }
  destruct M as (ls & E & F). rewrite E. assert (LL : List.length ls = List.length idx) by (symmetry; exact (Forall2_length' F)).
  rewrite LL. destruct ST1 as (K1 & N1). rewrite (check_ok _ _ N1). do 2 eexists. split; [reflexivity|]. split; [repeat split; cbn; congruence|]. split; [split; cbn; auto|]. split; [exact LL|].
  intros q i Q. destruct (Forall2_nth _ _ _ F q i Q) as (n & N & f & m & A & B & ->). exists f, m. auto.
Qed.
Lemma aligned d features labels Ms l : name_ok d -> histograms d features Ms -> features <> [] -> Forall (fun M => nrows M = List.length (o_frames d)) Ms ->
  used (ObjectsLoader features labels d) l ->
  exists idx X ls, wanted d labels idx /\ snd (get_data l) = Ok X /\ snd (get_labels l) = Ok ls /\ nrows X = List.length idx /\ List.length ls = List.length idx /\
    forall q i, nth_error idx q = Some i -> row X q = List.concat (map (fun M => row M i) Ms) /\
      exists f n, nth_error (o_frames d) i = Some f /\ name_of d f n /\ nth_error ls q = Some (Some n).
Proof.
  intros HN HM NE HR U. destruct (keep_value d labels HN) as (bs & E & W). set (idx := map fst (filter snd (enumerate bs))) in *.
  assert (NM : Ms <> []) by (intros ->; inversion HM; congruence).
  assert (HL : Forall (fun i => i < List.length (o_frames d)) idx) by (apply Forall_forall; intros i I; apply W in I; destruct I as (f & n & F & _); apply nth_error_Some; congruence).
  assert (ST : l_features l = features /\ l_labels l = labels /\ l_db l = d /\ in_state l idx).
  { induction U as [|l U IH|l U IH].
    - repeat split; cbn; auto.
    - destruct IH as (A & B & C & S1). assert (HI : idx_of (l_db l) (l_labels l) idx) by (exists bs; rewrite B, C; auto).
      destruct (data_step l idx Ms HI S1) as (l' & X & -> & (D1 & D2 & D3) & S2 & _); try (rewrite ?A, ?B, ?C; assumption). cbn [fst]. repeat split; try congruence; apply S2.
    - destruct IH as (A & B & C & S1). assert (HI : idx_of (l_db l) (l_labels l) idx) by (exists bs; rewrite B, C; auto).
      destruct (labels_step l idx HI S1) as (l' & X & -> & (D1 & D2 & D3) & S2 & _); try (rewrite ?A, ?B, ?C; assumption). cbn [fst]. repeat split; try congruence; apply S2. }
  destruct ST as (A & B & C & S1). assert (HI : idx_of (l_db l) (l_labels l) idx) by (exists bs; rewrite B, C; auto).
  destruct (data_step l idx Ms HI S1) as (l' & X & -> & _ & _ & NX & RX); try (rewrite ?A, ?B, ?C; assumption).
  destruct (labels_step l idx HI S1) as (l2 & ls & -> & _ & _ & LL & RL); try (rewrite ?A, ?B, ?C; assumption).
  exists idx, X, ls. rewrite C in RL. do 5 (split; [auto|]). intros q i Q. split; [exact (RX q i Q)|exact (RL q i Q)].
Qed.
(** A frame without name makes both fail, even if it is not wanted. *)
Lemma bad_name features labels d f : In f (o_frames d) -> (forall n, ~ entry_of d f n) ->
  exists e, snd (get_labels (ObjectsLoader features labels d)) = Err e.
Proof.
  intros I N. unfold get_labels, keep_idx. cbn [l_keep_idx ObjectsLoader l_db l_labels]. match goal with |- context [mapM ?g (o_frames d)] => change g with (flag labels d) end.
  assert (X : exists e, mapM (flag labels d) (o_frames d) = Err e).
  { destruct (mapM (flag labels d) (o_frames d)) as [bs|e] eqn:E; [|eauto]. exfalso. apply mapM_ok in E. apply In_nth_error in I. destruct I as (i & I).
    destruct (Forall2_nth _ _ _ E i f I) as (b & _ & X). unfold flag in X. apply bind_ok in X. destruct X as (n & X & _). apply (N n), name_value, X. }
  destruct X as (e & ->). eexists. reflexivity.
Qed.
