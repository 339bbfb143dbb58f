(** * Proofs on histograms by frame and on the construction of object databases. *)

From Coq Require Import List ZArith Arith Bool QArith Reals String Ascii Lia Lra.
Import ListNotations.
From Verif Require Import Py Py_proof pairing_proof utils_proof sound_model sound_count nd_model nd_spec array_utils_model array_utils_spec array_utils_proof
  motion_model motion_proof objects_model objects_spec objects_proof objects_read.
Local Open Scope nat_scope.

(** ** First rows *)
Lemma cumsum_snoc l x : forall a, cumsum a (l ++ [x]) = cumsum a l ++ [a + list_sum l + x].
Proof. induction l as [|y l IH]; intros a; cbn [app cumsum list_sum fold_right]; [do 2 f_equal; lia|]. rewrite IH. unfold list_sum. cbn [fold_right app]. do 2 f_equal. f_equal. lia. Qed.
Lemma cumsum_map l : forall a, cumsum a l = map (fun j => a + list_sum (firstn (S j) l)) (seq 0 (List.length l)).
Proof.
  induction l as [|x l IH]; intros a; [reflexivity|]. cbn [cumsum List.length seq map]. f_equal; [cbn; lia|].
  rewrite IH, <- seq_shift, map_map. apply map_ext. intros j. change (firstn (S (S j)) (x :: l)) with (x :: firstn (S j) l). unfold list_sum. cbn [fold_right]. lia.
Qed.
Lemma first_rows_value d : o_frames d <> [] -> first_rows d = Ok (map (offset (o_frames d)) (seq 0 (List.length (o_frames d)))).
Proof.
  intros N. unfold first_rows. destruct (exists_last N) as (fs & f & ->). change (fun f => List.length (f_views f)) with views.
  rewrite map_app. cbn [map]. rewrite cumsum_snoc. unfold roll. rewrite rev_app_distr. cbn [rev app]. rewrite rev_involutive. f_equal.
  rewrite app_length, Nat.add_comm. cbn [plus seq List.length map]. f_equal. rewrite cumsum_map, map_length, <- seq_shift, map_map.
  apply map_ext_in. intros j I. apply in_seq in I. unfold offset. rewrite firstn_app. replace (S j - List.length fs) with 0 by lia. rewrite firstn_O.
  rewrite app_nil_r, firstn_map. reflexivity.
Qed.
Lemma first_rows_none d : o_frames d = [] -> first_rows d = Err IndexError.
Proof. intros E. unfold first_rows. rewrite E. reflexivity. Qed.

(** ** Rows *)
Section Rows.
Variable X : nd.
Definition step (h : nd) (ijf : nat * (nat * frame)) : nd :=
  let '(i, (j, f)) := ijf in
  let n := List.length (f_views f) in
  if 1 <? n then set_row h j (mean_rows X i (i + n)) else h.
Lemma fold_rows fs : forall s idx h, List.length idx = List.length fs ->
  let h' := fold_left step (combine idx (combine (seq s (List.length fs)) fs)) h in
  shape h' = shape h /\ (forall q c, q < s -> el h' [q; c] = el h [q; c]) /\
  forall p i f c, nth_error idx p = Some i -> nth_error fs p = Some f ->
    el h' [s + p; c] = if 1 <? views f then mean_rows X i (i + views f) c else el h [s + p; c].
Proof.
  induction fs as [|f fs IH]; intros s idx h L; destruct idx as [|i idx]; try discriminate; cbn [List.length seq combine fold_left].
  - split; [reflexivity|]. split; [reflexivity|]. intros [|p]; discriminate.
  - destruct (IH (S s) idx (step h (i, (s, f)))) as (A & B & C); [cbn in L; lia|].
    assert (SH : shape (step h (i, (s, f))) = shape h) by (unfold step; destruct (1 <? _); reflexivity).
    assert (AT : forall q c, el (step h (i, (s, f))) [q; c] = if (q =? s) && (1 <? views f) then mean_rows X i (i + views f) c else el h [q; c]).
    { intros q c. unfold step. fold (views f). destruct (1 <? views f); [|rewrite andb_false_r; reflexivity]. cbn [set_row el nth]. rewrite andb_true_r. reflexivity. }
    split; [rewrite A; exact SH|]. split.
    + intros q c H. rewrite B by lia. rewrite AT. replace (q =? s) with false by (symmetry; apply Nat.eqb_neq; lia). reflexivity.
    + intros [|p] i' f' c; cbn [nth_error].
      * intros [= <-] [= <-]. rewrite Nat.add_0_r, B by lia. rewrite AT, Nat.eqb_refl. reflexivity.
      * intros HI HF. replace (s + S p) with (S s + p) by lia. rewrite (C p i' f' c HI HF), AT.
        replace (S s + p =? s) with false by (symmetry; apply Nat.eqb_neq; lia). reflexivity.
Qed.
Lemma rsum_lsum n : forall (g : nat -> R), rsum n g = lsum (map g (seq 0 n)).
Proof.
  induction n as [|n IH]; intros g; [reflexivity|]. rewrite seq_S, map_app. cbn [rsum map plus]. rewrite IH.
  assert (LA : forall l x, lsum (l ++ [x]) = (lsum l + x)%R) by (induction l as [|y l IHl]; intros x; cbn [lsum app]; [lra|rewrite IHl; lra]).
  rewrite LA. reflexivity.
Qed.
Lemma mean_rows_value i n c : i + n <= nth 0 (shape X) 0 -> mean_rows X i (i + n) c = mean (map (fun r => el X [r; c]) (seq i n)).
Proof.
  intros H. unfold mean_rows, mean. rewrite Nat.min_l by exact H. replace (i + n - i) with n by lia. rewrite map_length, seq_length, rsum_lsum. f_equal. f_equal.
  assert (SQ : forall m s, seq (i + s) m = map (fun r => i + r) (seq s m)).
  { clear. induction m as [|m IH]; intros s; [reflexivity|]. cbn [seq map]. f_equal. rewrite <- IH. f_equal. lia. }
  specialize (SQ n 0). rewrite Nat.add_0_r in SQ. rewrite SQ, map_map. reflexivity.
Qed.
End Rows.

Lemma offset_views fs j f : nth_error fs j = Some f -> offset fs j + views f <= list_sum (map views fs).
Proof.
  revert j. induction fs as [|g fs IH]; intros [|j]; try discriminate; cbn [nth_error].
  - intros [= ->]. unfold offset. cbn. lia.
  - intros H. apply IH in H. unfold offset in *. cbn [firstn map]. unfold list_sum in *. cbn [fold_right]. lia.
Qed.
Lemma take_rows_ok m idx : Forall (fun i => i < nth 0 (shape m) 0) idx -> take_rows m idx =
  Ok (Nd [List.length idx; nth 1 (shape m) 0] (fun ix => el m [nth (nth 0 ix 0) idx 0; nth 1 ix 0])).
Proof. intros H. unfold take_rows. replace (forallb _ idx) with true; [reflexivity|]. symmetry. apply forallb_forall. intros i I. apply Nat.ltb_lt. rewrite Forall_forall in H. auto. Qed.
Lemma take_rows_err m idx : ~ Forall (fun i => i < nth 0 (shape m) 0) idx -> take_rows m idx = Err IndexError.
Proof.
  intros H. unfold take_rows. destruct (forallb _ idx) eqn:E; [|reflexivity]. destruct H. apply Forall_forall. intros i I. rewrite forallb_forall in E. apply Nat.ltb_lt. auto.
Qed.
(** ** Histograms by frame *)
Lemma compute_value d t k h : dict_get String.eqb FEATURES_INDEX t = Some k -> nth_error (o_histos d) k = Some h -> k < List.length (o_by_frame d) ->
  o_frames d <> [] -> (forall j, j < List.length (o_frames d) -> offset (o_frames d) j < nth 0 (shape (value h)) 0) ->
  list_sum (map views (o_frames d)) <= nth 0 (shape (value h)) 0 ->
  exists M, compute_histos_matrix_by_frame d t = Ok (mkObjects (o_frames d) (o_histos d) (list_set (o_by_frame d) k (Some M)) (o_names d)) /\
    by_frame (o_frames d) (value h) M.
Proof.
  intros HK HH HB NE HO HS. unfold compute_histos_matrix_by_frame. rewrite (first_rows_value d NE). cbn [bind]. unfold get_histos_matrix, feature_index. rewrite HK. cbn [bind].
  assert (PN : py_nth (o_histos d) (Z.of_nat k) = Ok h).
  { unfold py_nth, norm_index. assert (KL : k < List.length (o_histos d)) by (apply nth_error_Some; congruence).
    replace ((0 <=? Z.of_nat k)%Z && (Z.of_nat k <? Z.of_nat (List.length (o_histos d)))%Z) with true by (symmetry; apply andb_true_iff; split; [apply Z.leb_le|apply Z.ltb_lt]; lia).
    cbn [bind]. rewrite Nat2Z.id, HH. reflexivity. }
  rewrite PN. cbn [bind]. set (idx := map (offset (o_frames d)) (seq 0 (List.length (o_frames d)))).
  rewrite take_rows_ok by (apply Forall_forall; intros i I; apply in_map_iff in I; destruct I as (j & <- & J); apply in_seq in J; apply HO; lia). cbn [bind].
  change (fun (h0 : nd) (ijf : nat * (nat * frame)) => let '(i, (j, f)) := ijf in
          let n := List.length (f_views f) in if 1 <? n then set_row h0 j (mean_rows (value h) i (i + n)) else h0) with (step (value h)).
  assert (LI : List.length idx = List.length (o_frames d)) by (unfold idx; rewrite map_length, seq_length; reflexivity).
  set (h0 := Nd _ _). destruct (fold_rows (value h) (o_frames d) 0 idx h0 LI) as (A & _ & C). unfold enumerate. set (M := fold_left _ _ h0) in *.
  exists M. split.
  - unfold py_set, norm_index.
    replace ((0 <=? Z.of_nat k)%Z && (Z.of_nat k <? Z.of_nat (List.length (o_by_frame d)))%Z) with true by (symmetry; apply andb_true_iff; split; [apply Z.leb_le|apply Z.ltb_lt]; lia).
    cbn [bind]. rewrite Nat2Z.id. reflexivity.
  - split; [rewrite A; cbn [h0 shape]; rewrite LI; reflexivity|]. intros j f c HF HC.
    assert (J : j < List.length (o_frames d)) by (apply nth_error_Some; congruence).
    assert (IJ : nth_error idx j = Some (offset (o_frames d) j)).
    { unfold idx. rewrite nth_error_map. rewrite (nth_error_nth' _ 0) by (rewrite seq_length; exact J). rewrite seq_nth by exact J. reflexivity. }
    pose proof (C j _ f c IJ HF) as E. cbn [plus] in E. cbn [h0 el nth] in E. rewrite (nth_error_nth _ _ 0 IJ) in E.
    split.
    + intros V. pose proof (offset_views _ _ _ HF) as OV. rewrite E. destruct (1 <? views f) eqn:L1; [apply mean_rows_value; lia|].
      apply Nat.ltb_ge in L1. replace (views f) with 1 by lia. cbn [seq map]. unfold mean. cbn [lsum List.length INR]. field.
    + intros V. rewrite E, V. reflexivity.
Qed.
Lemma compute_refused d t k h : dict_get String.eqb FEATURES_INDEX t = Some k -> nth_error (o_histos d) k = Some h ->
  o_frames d = [] \/ (exists j, j < List.length (o_frames d) /\ nth 0 (shape (value h)) 0 <= offset (o_frames d) j) ->
  compute_histos_matrix_by_frame d t = Err IndexError.
Proof.
  intros HK HH H. unfold compute_histos_matrix_by_frame. destruct (o_frames d) eqn:FE.
  - rewrite (first_rows_none d FE). reflexivity.
  - rewrite <- FE in *. rewrite (first_rows_value d) by congruence. cbn [bind]. unfold get_histos_matrix, feature_index. rewrite HK. cbn [bind].
    assert (PN : py_nth (o_histos d) (Z.of_nat k) = Ok h).
    { unfold py_nth, norm_index. assert (KL : k < List.length (o_histos d)) by (apply nth_error_Some; congruence).
      replace ((0 <=? Z.of_nat k)%Z && (Z.of_nat k <? Z.of_nat (List.length (o_histos d)))%Z) with true by (symmetry; apply andb_true_iff; split; [apply Z.leb_le|apply Z.ltb_lt]; lia).
      cbn [bind]. rewrite Nat2Z.id, HH. reflexivity. }
    rewrite PN. cbn [bind]. rewrite take_rows_err; [reflexivity|]. destruct H as [H|(j & J & O)]; [congruence|]. rewrite Forall_forall. intros F.
    specialize (F (offset (o_frames d) j)). apply Nat.le_ngt in O. apply O, F. apply in_map. apply in_seq. lia.
Qed.

(** ** Construction *)
Section Words.
Variable int_of : string -> result Z.
Variable time_of : string -> result Q.
Variable float_of : string -> result R.
Notation item := (frame * list (list (list R)))%type.

Definition histos_of (rows : nat -> list (list R)) : list hist := map (fun k => Growing (fold_left add_row (rows k) lil_new)) (seq 0 5).
Definition db_of (names : option (list (option string))) (r : list item) : object_db :=
  mkObjects (map fst r) (histos_of (fun k => vectors k r)) (repeat None 5) names.
Lemma add_rows_histos rows feats : List.length feats = 5 -> add_rows feats (histos_of rows) = Ok (histos_of (fun k => rows k ++ [nth k feats []])).
Proof.
  intros L. destruct feats as [|x0 [|x1 [|x2 [|x3 [|x4 [|]]]]]]; try discriminate. unfold histos_of. cbn [seq map add_rows bind nth]. rewrite !fold_left_app. reflexivity.
Qed.
Lemma add_feats_all vs : (forall feats, In feats vs -> List.length feats = 5) -> forall fs rows bf names,
  foldM add_feats vs (mkObjects fs (histos_of rows) bf names) = Ok (mkObjects fs (histos_of (fun k => rows k ++ map (fun feats => nth k feats []) vs)) bf names).
Proof.
  induction vs as [|feats vs IH]; intros H fs rows bf names; cbn [foldM map].
  - do 2 f_equal. unfold histos_of. cbn [seq map]. rewrite !app_nil_r. reflexivity.
  - unfold add_feats at 1. cbn [o_histos o_frames o_by_frame o_names]. rewrite add_rows_histos by (apply H; cbn; auto). cbn [bind]. rewrite IH by (intros x I; apply H; cbn; auto).
    do 2 f_equal. unfold histos_of. cbn [seq map]. rewrite <- !app_assoc. reflexivity.
Qed.
Lemma vectors_app k r x : vectors k (r ++ [x]) = vectors k r ++ map (fun feats => nth k feats []) (snd x).
Proof. unfold vectors. rewrite flat_map_app. cbn [flat_map]. rewrite app_nil_r. reflexivity. Qed.
Lemma reads_five files path f vs feats : reads float_of files path f vs -> In feats vs -> List.length feats = 5.
Proof. intros (ls & L & _ & _ & _ & _ & H) I. apply In_nth_error in I. destruct I as (v & V). apply (H v feats V). Qed.
Lemma add_from files path names : forall fs r r0, kept float_of files path fs r ->
  foldM (add_from_files float_of files path) fs (db_of names r0) = Ok (db_of names (r0 ++ r)).
Proof.
  intros fs r r0 H. revert r0. induction H as [|f fs r O _ IH|f vs fs r RD _ IH]; intros r0; cbn [foldM].
  - rewrite app_nil_r. reflexivity.
  - assert (E : add_from_files float_of files path (db_of names r0) f = Ok (db_of names r0)).
    { unfold add_from_files. apply (left_out_spec float_of) in O. destruct O as [(-> & _)|(_ & ->)]; reflexivity. }
    rewrite E. cbn [bind]. apply IH.
  - assert (E : add_from_files float_of files path (db_of names r0) f = Ok (db_of names (r0 ++ [(f, vs)]))).
    { unfold add_from_files. pose proof RD as RD'. apply read_spec in RD'. rewrite RD'. unfold db_of at 1. rewrite add_feats_all by (intros x I; exact (reads_five _ _ _ _ _ RD I)).
      cbn [bind]. unfold add_frame, db_of. cbn [o_frames o_histos o_by_frame o_names]. rewrite map_app. do 2 f_equal. unfold histos_of. cbn [seq map].
      rewrite !vectors_app. reflexivity. }
    rewrite E. cbn [bind]. rewrite IH, <- app_assoc. reflexivity.
Qed.
Lemma new_db names : ObjectDB names = db_of names [].
Proof. reflexivity. Qed.

Lemma kept_views files path fs r : kept float_of files path fs r -> forall f vs, In (f, vs) r -> List.length vs = views f.
Proof.
  induction 1 as [|f fs r _ _ IH|f vs fs r RD _ IH]; intros g ws I; [destruct I|eauto|]. destruct I as [[= <- <-]|I]; [|eauto].
  destruct RD as (ls & L & _ & _ & _ & LV & _). exact LV.
Qed.
Lemma vectors_total k r : (forall f vs, In (f, vs) r -> List.length vs = views f) -> List.length (vectors k r) = list_sum (map views (map fst r)).
Proof.
  induction r as [|(f, vs) r IH]; intros H; [reflexivity|]. unfold vectors in *. cbn [flat_map map fst snd]. rewrite app_length, map_length, IH by (intros; apply H; cbn; auto).
  rewrite (H f vs) by (cbn; auto). reflexivity.
Qed.
Lemma vectors_at k r : (forall f vs, In (f, vs) r -> List.length vs = views f) -> forall j f vs v feats, nth_error r j = Some (f, vs) -> nth_error vs v = Some feats ->
  nth_error (vectors k r) (offset (map fst r) j + v) = Some (nth k feats []).
Proof.
  induction r as [|(g, ws) r IH]; intros H [|j] f vs v feats; try discriminate; cbn [nth_error].
  - intros [= -> ->] V. unfold offset, vectors. cbn [firstn map list_sum fold_right plus flat_map snd]. rewrite nth_error_app1 by (rewrite map_length; apply nth_error_Some; congruence).
    rewrite nth_error_map, V. reflexivity.
  - intros J V. unfold offset. cbn [map fst firstn]. unfold list_sum. cbn [fold_right]. fold (list_sum (map views (firstn j (map fst r)))). fold (offset (map fst r) j).
    unfold vectors. cbn [flat_map snd]. rewrite nth_error_app2 by (rewrite map_length, (H g ws) by (cbn; auto); lia).
    rewrite map_length, (H g ws) by (cbn; auto). replace (views g + offset (map fst r) j + v - views g) with (offset (map fst r) j + v) by lia.
    apply (IH (fun f0 vs0 I => H f0 vs0 (or_intror I)) j f vs v feats J V).
Qed.
(** The value of a histogram. *)
Lemma histo_value rows : rows <> [] -> shape (value (Growing (fold_left add_row rows lil_new))) = [List.length rows; longest rows] /\
  forall i row c, nth_error rows i = Some row -> c < longest rows -> el (value (Growing (fold_left add_row rows lil_new))) [i; c] = padded_at row c.
Proof. intros N. exact (growing_value rows N). Qed.
Lemma seq_map_at {A} (l : list A) {B} (g : nat -> B) (h : A -> B) s : (forall v a, nth_error l v = Some a -> g (s + v) = h a) -> map g (seq s (List.length l)) = map h l.
Proof.
  revert s. induction l as [|a l IH]; intros s H; [reflexivity|]. cbn [List.length seq map]. f_equal; [rewrite <- (H 0 a eq_refl); f_equal; lia|].
  apply IH. intros v b V. rewrite <- (H (S v) b V). f_equal. lia.
Qed.
Lemma last_offset fs f j : views f <> 0 -> j < List.length (fs ++ [f]) -> offset (fs ++ [f]) j < list_sum (map views (fs ++ [f])).
Proof.
  intros N J. rewrite app_length in J. cbn in J. unfold offset. rewrite firstn_app. replace (j - List.length fs) with 0 by lia. cbn [firstn]. rewrite app_nil_r.
  rewrite map_app, list_sum_app. assert (L : list_sum (map views (firstn j fs)) <= list_sum (map views fs)).
  { rewrite <- (firstn_skipn j fs) at 2. rewrite map_app, list_sum_app. lia. }
  cbn. lia.
Qed.

Lemma last_seen_rows r k : (forall f vs, In (f, vs) r -> List.length vs = views f) -> last_seen r ->
  map fst r <> [] /\ vectors k r <> [] /\ (forall j, j < List.length (map fst r) -> offset (map fst r) j < List.length (vectors k r)) /\
  list_sum (map views (map fst r)) = List.length (vectors k r).
Proof.
  intros H (r' & f & vs & -> & V). rewrite (vectors_total k _ H). rewrite map_app. cbn [map fst]. split; [destruct (map fst r'); discriminate|].
  split; [|split; [intros j J; apply last_offset; assumption|reflexivity]]. rewrite vectors_app. cbn [snd]. rewrite <- (H f vs) in V by (apply in_app_iff; cbn; auto).
  intros E. apply app_eq_nil in E. destruct E as (_ & E). apply V. destruct vs; [reflexivity|discriminate].
Qed.
Lemma compute_one r names bf t k : (forall f vs, In (f, vs) r -> List.length vs = views f) -> last_seen r ->
  dict_get String.eqb FEATURES_INDEX t = Some k -> k < 5 -> List.length bf = 5 ->
  exists M, compute_histos_matrix_by_frame (mkObjects (map fst r) (histos_of (fun k => vectors k r)) bf names) t =
    Ok (mkObjects (map fst r) (histos_of (fun k => vectors k r)) (list_set bf k (Some M)) names) /\ computed r k M.
Proof.
  intros HV LS HK K5 BL. destruct (last_seen_rows r k HV LS) as (NF & NR & OF & TO). set (d := mkObjects _ _ bf names).
  destruct (histo_value (vectors k r) NR) as (SH & EL). set (h := Growing (fold_left add_row (vectors k r) lil_new)) in *.
  assert (HH : nth_error (o_histos d) k = Some h).
  { cbn [d o_histos]. unfold histos_of. rewrite nth_error_map, (nth_error_nth' _ 0) by (rewrite seq_length; exact K5). rewrite seq_nth by exact K5. reflexivity. }
  destruct (compute_value d t k h HK HH) as (M & E & (SM & BM)); try (cbn [d o_frames o_by_frame]; rewrite ?SH; cbn [nth]).
  - rewrite BL. exact K5.
  - exact NF.
  - exact OF.
  - lia.
  - exists M. split; [exact E|]. cbn [d o_frames] in SM, BM. rewrite SH in SM, BM. cbn [nth] in SM, BM. rewrite map_length in SM. split; [exact SM|].
    intros j f vs c HJ HC. assert (HJ' : nth_error (map fst r) j = Some f) by (rewrite nth_error_map, HJ; reflexivity).
    destruct (BM j f c HJ' HC) as (B1 & B2). assert (LV : List.length vs = views f) by (apply HV, nth_error_In with j, HJ). split.
    + intros V. rewrite (B1 V). f_equal. rewrite <- LV. apply seq_map_at. intros v feats VF. apply EL; [|exact HC]. apply (vectors_at k r HV j f vs v feats HJ VF).
    + intros V. rewrite (B2 V). apply EL; [|exact HC]. apply nth_error_nth'. apply OF. rewrite map_length. apply nth_error_Some. congruence.
Qed.
Lemma compute_all r names : (forall f vs, In (f, vs) r -> List.length vs = views f) -> last_seen r ->
  exists Ms, foldM compute_histos_matrix_by_frame FEATURES (db_of names r) = Ok (mkObjects (map fst r) (histos_of (fun k => vectors k r)) (map Some Ms) names) /\
    List.length Ms = 5 /\ forall k M, nth_error Ms k = Some M -> computed r k M.
Proof.
  intros HV LS. assert (ONE : forall bf t k, dict_get String.eqb FEATURES_INDEX t = Some k -> k < 5 -> List.length bf = 5 -> _) by exact (fun bf t k => compute_one r names bf t k HV LS).
  unfold db_of, FEATURES. cbn [foldM repeat].
  destruct (ONE [None; None; None; None; None] "SURF"%string 0 eq_refl ltac:(lia) eq_refl) as (M0 & E0 & C0). rewrite E0. cbn [bind list_set].
  destruct (ONE [Some M0; None; None; None; None] "color"%string 1 eq_refl ltac:(lia) eq_refl) as (M1 & E1 & C1). rewrite E1. cbn [bind list_set].
  destruct (ONE [Some M0; Some M1; None; None; None] "SURF_pairs"%string 2 eq_refl ltac:(lia) eq_refl) as (M2 & E2 & C2). rewrite E2. cbn [bind list_set].
  destruct (ONE [Some M0; Some M1; Some M2; None; None] "color_pairs"%string 3 eq_refl ltac:(lia) eq_refl) as (M3 & E3 & C3). rewrite E3. cbn [bind list_set].
  destruct (ONE [Some M0; Some M1; Some M2; Some M3; None] "color_triplets"%string 4 eq_refl ltac:(lia) eq_refl) as (M4 & E4 & C4). rewrite E4. cbn [bind list_set].
  exists [M0; M1; M2; M3; M4]. split; [reflexivity|]. split; [reflexivity|].
  intros [|[|[|[|[|k]]]]] M; cbn [nth_error]; try (intros [= <-]; assumption). destruct k; discriminate.
Qed.

Lemma listed_ok files path fs : listed int_of time_of files path fs ->
  (ls <- match files path with None => Err IOError | Some ls => Ok ls end ;; mapM (from_line int_of time_of) (filter (fun l => negb (isspace l)) ls))%py = Ok fs.
Proof.
  intros (ls & L & -> & W & F). cbn [bind]. apply without_lines in W. rewrite <- W. apply mapM_ok. clear W. induction F as [|l f L fs D _ IH]; constructor; [apply line_spec, D|exact IH].
Qed.
Lemma build_step files path names fs : listed int_of time_of files path fs ->
  build_from int_of time_of float_of files path names = (d <- foldM (add_from_files float_of files (dirname path)) fs (ObjectDB names) ;; foldM compute_histos_matrix_by_frame FEATURES d)%py.
Proof.
  intros H. apply listed_ok in H. unfold build_from. destruct (files path) as [ls|]; [|discriminate]. cbn [bind] in H |- *. rewrite H. reflexivity.
Qed.
Lemma build_ok files path names fs r : listed int_of time_of files path fs -> kept float_of files (dirname path) fs r -> last_seen r ->
  exists d Ms, build_from int_of time_of float_of files path names = Ok d /\ o_frames d = map fst r /\ o_names d = names /\
    o_by_frame d = map Some Ms /\ List.length Ms = 5 /\ (forall k M, nth_error Ms k = Some M -> computed r k M) /\
    List.length (o_histos d) = 5 /\ forall k h, nth_error (o_histos d) k = Some h -> padded (vectors k r) (value h).
Proof.
  intros HL HK LS. pose proof (kept_views _ _ _ _ HK) as HV. destruct (compute_all r names HV LS) as (Ms & E & L5 & C).
  eexists. exists Ms. split; [rewrite (build_step _ _ _ _ HL), new_db, (add_from files (dirname path) names fs r [] HK); exact E|].
  cbn [o_frames o_names o_by_frame o_histos]. do 5 (split; [auto|]). split; [reflexivity|]. intros k h H.
  assert (K : k < 5) by (change 5 with (List.length (histos_of (fun k => vectors k r))); apply nth_error_Some; congruence).
  unfold histos_of in H. rewrite nth_error_map, (nth_error_nth' _ 0) in H by (rewrite seq_length; exact K). rewrite seq_nth in H by exact K. injection H as <-.
  apply growing_value. apply (last_seen_rows r k HV LS).
Qed.
Lemma build_none files path names fs r : listed int_of time_of files path fs -> kept float_of files (dirname path) fs r -> ~ last_seen r ->
  build_from int_of time_of float_of files path names = Err IndexError.
Proof.
  intros HL HK NL. pose proof (kept_views _ _ _ _ HK) as HV. rewrite (build_step _ _ _ _ HL), new_db, (add_from files (dirname path) names fs r [] HK). cbn [bind app].
  unfold FEATURES. cbn [foldM].
  assert (E : compute_histos_matrix_by_frame (db_of names r) "SURF" = Err IndexError); [|rewrite E; reflexivity].
  apply (compute_refused _ "SURF"%string 0 (Growing (fold_left add_row (vectors 0 r) lil_new))); [reflexivity|reflexivity|]. cbn [db_of o_frames].
  destruct (map fst r) as [|g gs] eqn:FE; [auto|right]. rewrite <- FE. assert (NE : r <> []) by (intros ->; discriminate).
  destruct (exists_last NE) as (r' & (f & vs) & ->). assert (V0 : views f = 0) by (destruct (Nat.eq_dec (views f) 0); [assumption|destruct NL; exists r', f, vs; auto]).
  exists (List.length r'). rewrite map_app, app_length, map_length. cbn [map fst List.length]. split; [lia|].
  assert (OF : offset (map fst r' ++ [f]) (List.length r') = list_sum (map views (map fst r'))).
  { unfold offset. rewrite <- (map_length fst r'), firstn_app, Nat.sub_diag, firstn_all. cbn [firstn]. rewrite app_nil_r. reflexivity. }
  rewrite OF. assert (TO : List.length (vectors 0 (r' ++ [(f, vs)])) = list_sum (map views (map fst r'))).
  { rewrite (vectors_total 0 _ HV), !map_app, list_sum_app. cbn [map fst]. cbn. lia. }
  rewrite <- TO. destruct (vectors 0 (r' ++ [(f, vs)])) as [|x xs] eqn:VE; [cbn; lia|]. destruct (histo_value (x :: xs)) as (-> & _); [discriminate|]. cbn [nth]. lia.
Qed.
End Words.
