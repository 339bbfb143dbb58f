(** * Proofs on the second choreography dataset. *)

From Coq Require Import List ZArith Arith Reals Bool String Ascii Lia.
Import ListNotations.
From Verif Require Import Py Py_proof logger_model logger_spec logger_file serial_model serial_proof sound_model sound_spec sound_proof sound_file motion_model motion_spec motion_proof motion_file
  hac_model quant_model quant_spec angle_model angle_spec angle_proof angle_vq choreo2_model choreo2_spec experiment_keys.
From Verif Require utils_model objects_model acorns_load experiment_proof.
Open Scope py_scope.
Local Open Scope nat_scope.
Local Open Scope string_scope.

(** ** Paths *)
Lemma strip_plain d : directory d -> strip_slashes d = d.
Proof.
  intros (a & c & -> & N). induction a as [|x a IH].
  - cbn. destruct (Ascii.eqb_spec c "/"%char); [contradiction|reflexivity].
  - cbn [append strip_slashes]. rewrite IH. destruct (a ++ String c "") eqn:E; [destruct a; discriminate|reflexivity].
Qed.
Lemma data_dir_eq home b : starts_with_slash b = false -> path_join (data_dir home) b = strip_slashes home ++ "/work/data/" ++ b.
Proof.
  intros B. unfold data_dir. change "/work/data/" with ("/work/data" ++ "/"). rewrite <- sound_count.append_assoc, (join_dir_slash _ b B).
  rewrite !sound_count.append_assoc. reflexivity.
Qed.
Lemma dir_suffix a b : directory b -> directory (a ++ b).
Proof. intros (x & c & -> & N). exists (a ++ x), c. split; [symmetry; apply sound_count.append_assoc|exact N]. Qed.
Lemma db_dest home : path_join (db_dir home) "choreo2" = strip_slashes home ++ "/work/data/db/choreo2".
Proof.
  unfold db_dir. rewrite (data_dir_eq home "db") by reflexivity. rewrite join_dir; [|apply dir_suffix; exists "/work/data/d", "b"%char; split; [reflexivity|discriminate]|reflexivity].
  rewrite !sound_count.append_assoc. reflexivity.
Qed.
Lemma dest_dir home : directory (strip_slashes home ++ "/work/data/db/choreo2").
Proof. apply dir_suffix. exists "/work/data/db/choreo", "2"%char. split; [reflexivity|discriminate]. Qed.
Lemma db_file_eq home : default_db_file home = strip_slashes home ++ "/work/data/db/choreo2/choreo2.json".
Proof. unfold default_db_file. rewrite db_dest, join_dir by (apply dest_dir || reflexivity). rewrite !sound_count.append_assoc. reflexivity. Qed.
Lemma feat_file_eq home : get_default_feature_file home = strip_slashes home ++ "/work/data/features/choreo2_angle_hist.npz".
Proof.
  unfold get_default_feature_file, feat_dir. rewrite (data_dir_eq home "features") by reflexivity.
  rewrite join_dir; [|apply dir_suffix; exists "/work/data/feature", "s"%char; split; [reflexivity|discriminate]|reflexivity].
  rewrite !sound_count.append_assoc. reflexivity.
Qed.
Lemma feat_suffix home : has_suffix (get_default_feature_file home) ".npz".
Proof. rewrite feat_file_eq. exists (strip_slashes home ++ "/work/data/features/choreo2_angle_hist"). rewrite sound_count.append_assoc. reflexivity. Qed.

(** ** Files *)
Lemma has_in {V} (l : list (string * V)) p : has l p = true <-> exists v, In (p, v) l.
Proof.
  unfold has. induction l as [|(q, v) l IH]; cbn [dict_get]; [split; [discriminate|intros (? & [])]|].
  destruct (String.eqb_spec q p) as [->|N]; [split; [intros _; exists v; left; reflexivity|reflexivity]|].
  rewrite IH. split; intros (w & I); exists w; [right; exact I|]. destruct I as [E|I]; [congruence|exact I].
Qed.
Lemma nothing_spec k p : exists_path k p = false <-> nothing_at k p.
Proof.
  unfold exists_path, nothing_at. rewrite !orb_false_iff.
  assert (H : forall V (l : list (string * V)), has l p = false <-> forall v, ~ In (p, v) l).
  { intros V l. rewrite <- not_true_iff_false, has_in. split; [intros N v I; eauto|intros N (v & I); exact (N v I)]. }
  rewrite !H. assert (D : existsb (String.eqb p) (k_dirs k) = false <-> ~ In p (k_dirs k)).
  { rewrite <- not_true_iff_false, existsb_exists. split; intros N; [intros I; apply N; exists p; split; [exact I|apply String.eqb_refl]|].
    intros (q & I & E). apply String.eqb_eq in E. subst q. exact (N I). }
  rewrite D. tauto.
Qed.
Lemma same_nothing k k' p : (forall q, q = p -> dict_get String.eqb (k_json k') q = dict_get String.eqb (k_json k) q) ->
  (forall q, q = p -> dict_get String.eqb (k_npz k') q = dict_get String.eqb (k_npz k) q) ->
  k_txt k' = k_txt k -> k_mat k' = k_mat k -> k_dirs k' = k_dirs k -> exists_path k' p = exists_path k p.
Proof. intros A B C D E. unfold exists_path, has. rewrite (A p eq_refl), (B p eq_refl), C, D, E. reflexivity. Qed.
Lemma savez_written (k : disk) f a : only_written (npz_name f) k (savez k f "Xmotion" a) /\
  dict_get String.eqb (k_npz (savez k f "Xmotion" a)) (npz_name f) = Some [("Xmotion", a)].
Proof.
  split; [|cbn [savez k_npz]; rewrite sget_set, String.eqb_refl; reflexivity]. unfold only_written, savez. cbn [k_json k_npz k_txt k_mat k_dirs]. repeat split; try reflexivity.
  intros q N. rewrite sget_set. destruct (String.eqb_spec (npz_name f) q); [congruence|reflexivity].
Qed.
Lemma samples_ok (d : db) rs : map fst (m_records d) = map Motion rs -> samples d = Ok rs.
Proof.
  unfold samples. generalize (m_records d). intros l. revert rs. induction l as [|(a, ls) l IH]; intros [|r rs]; cbn [map mapM fst]; try discriminate; [reflexivity|].
  intros [= -> E]. cbn [bind]. rewrite (IH rs E). reflexivity.
Qed.

Section Build.
Variable whiten : mat R -> result (mat R).
Variable kmeans : mat R -> nat -> result (mat R).
Variable vq : mat R -> mat R -> result (list nat).

Lemma table names records nb_bins : good_db names records -> is_whiten whiten -> gives_centroids kmeans nb_bins -> is_vq vq -> (0 < nb_bins)%nat ->
  exists X, db_to_VQ_hist_matrix whiten kmeans vq Python2 names records 10 utils_model.Zeros nb_bins None None None = Ok X /\
    table_of whiten kmeans vq names records nb_bins X.
Proof.
  intros G W C V K. destruct (python2_ok whiten kmeans vq names records 10 utils_model.Zeros nb_bins None None None G W C V K) as (X & _ & _ & _ & E & _ & _ & _ & L & F & _).
  destruct (python2_counts whiten kmeans vq names records 10 utils_model.Zeros nb_bins None None G W C V K) as (X' & angles & vels & E' & EV & H).
  rewrite E in E'. injection E' as <-. exists X. split; [exact E|]. split; [exact L|]. split; [exact F|]. exists angles, vels. split; [exact EV|exact H].
Qed.

Lemma built home k db_file feat_file force nb_bins (d : db) rs p :
  p = or_default feat_file (get_default_feature_file home) ->
  load home k db_file false = Ok d -> map fst (m_records d) = map Motion rs -> good_db (m_markers d) rs ->
  is_whiten whiten -> gives_centroids kmeans nb_bins -> is_vq vq -> (0 < nb_bins)%nat -> force = true \/ nothing_at k p ->
  exists k' X, build_features whiten kmeans vq Python2 home k db_file feat_file force nb_bins = (k', Ok tt) /\
    table_of whiten kmeans vq (m_markers d) rs nb_bins X /\ only_written (npz_name p) k k' /\
    dict_get String.eqb (k_npz k') (npz_name p) = Some [("Xmotion", Features X)].
Proof.
  intros -> L M G W C V K F. destruct (table _ _ _ G W C V K) as (X & E & T). exists (savez k (or_default feat_file (get_default_feature_file home)) "Xmotion" (Features X)), X.
  split; [|split; [exact T|apply savez_written]]. unfold build_features.
  replace (exists_path k (or_default feat_file (get_default_feature_file home)) && negb force) with false; [|destruct F as [-> |F]; [rewrite andb_false_r; reflexivity|]; apply nothing_spec in F; rewrite F; reflexivity].
  rewrite L. cbn [bind]. rewrite (samples_ok d rs M). cbn [bind]. rewrite E. reflexivity.
Qed.
Lemma kept v home k db_file feat_file nb_bins : ~ nothing_at k (or_default feat_file (get_default_feature_file home)) ->
  build_features whiten kmeans vq v home k db_file feat_file false nb_bins = (k, Err ValueError).
Proof.
  intros N. unfold build_features. destruct (exists_path k _) eqn:E; [reflexivity|]. apply nothing_spec in E. contradiction.
Qed.
Lemma python3 home k db_file feat_file force nb_bins :
  exists e, build_features whiten kmeans vq Python3 home k db_file feat_file force nb_bins = (k, Err e).
Proof.
  unfold build_features. destruct (_ && _); [eexists; reflexivity|]. destruct (load home k db_file false) as [d|e]; cbn [bind]; [|eexists; reflexivity].
  destruct (samples d) as [rs|e]; cbn [bind]; [|eexists; reflexivity].
  destruct (db_to_VQ_hist_matrix whiten kmeans vq Python3 _ _ _ _ _ _ _ _) as [X|e] eqn:E; [|eexists; reflexivity].
  exfalso. exact (python3_never _ _ _ _ _ _ _ _ _ _ _ X E).
Qed.
Lemma python3_value home k db_file feat_file force nb_bins k' :
  build_features whiten kmeans vq Python2 home k db_file feat_file force nb_bins = (k', Ok tt) ->
  build_features whiten kmeans vq Python3 home k db_file feat_file force nb_bins = (k, Err ValueError).
Proof.
  unfold build_features. destruct (_ && _); [discriminate|]. destruct (load home k db_file false) as [d|e]; cbn [bind]; [|discriminate].
  destruct (samples d) as [rs|e]; cbn [bind]; [|discriminate]. destruct (db_to_VQ_hist_matrix whiten kmeans vq Python2 _ _ _ _ _ _ _ _) as [X|e] eqn:E; [|discriminate].
  intros _. rewrite (python3_error _ _ _ _ _ _ _ _ _ _ _ X E). reflexivity.
Qed.
End Build.

Lemma features_found home (k : disk) feat_file X : dict_get String.eqb (k_npz k) (or_default feat_file (get_default_feature_file home)) = Some [("Xmotion", Features X)] ->
  load_features home k feat_file = Ok X.
Proof. intros E. unfold load_features. rewrite E. reflexivity. Qed.

(** ** Names *)
Lemma dict_in (ds : list (label * string)) t s : In (LStr t, s) ds -> NoDup (map fst ds) -> dict_get label_eqb ds (LStr t) = Some s.
Proof.
  induction ds as [|(l, x) ds IH]; [intros []|]. cbn [map fst dict_get]. intros I ND. inversion ND as [|? ? NI ND']; subst. destruct I as [[= -> ->]|I].
  - cbn [label_eqb]. rewrite String.eqb_refl. reflexivity.
  - destruct (label_eqb l (LStr t)) eqn:E; [|auto]. apply label_eqb_eq in E. subst l. destruct NI. apply in_map_iff. exists (LStr t, s). split; [reflexivity|exact I].
Qed.
Lemma described_image ds ds' l s : desc_image ds ds' -> described ds l s -> describe ds' l = Ok s.
Proof.
  intros I D. destruct D as [ss n s E|d t s J].
  - inversion I; subst. cbn [describe]. exact (acorns_load.py_nth_at ss n s E).
  - inversion I as [| |? d' F ND]; subst. cbn [describe]. rewrite (dict_in d' t s); [reflexivity| |exact ND].
    clear -F J. induction F as [|x y d d' (t' & T & ->) F IH]; [destruct J|]. destruct J as [-> |J]; [left|right; auto]. cbn [fst snd] in *. inversion T; subst. reflexivity.
Qed.
Lemma names_ok ds ds' (rs : list (array * list label)) : desc_image ds ds' -> Forall (fun r => exists s, called ds r s) rs ->
  exists names, mapM (motion_name ds') rs = Ok names /\ Forall2 (called ds) rs names.
Proof.
  intros I F. induction F as [|r rs (s & C) F (names & E & N)]; [exists []; split; [reflexivity|constructor]|].
  exists (s :: names). split; [|constructor; assumption]. cbn [mapM]. destruct C as (l & ls & EL & D). unfold motion_name at 1. rewrite EL. cbn [py_nth norm_index].
  replace (py_nth (l :: ls) 0) with (Ok l) by reflexivity. cbn [bind]. rewrite (described_image ds ds' l s I D). cbn [bind]. rewrite E. reflexivity.
Qed.

(** ** The loader *)
Lemma load_same home (k k' : disk) db_file verbose : k_json k' = k_json k ->
  (forall q, q <> get_default_feature_file home -> dict_get String.eqb (k_npz k') q = dict_get String.eqb (k_npz k) q) ->
  (forall v df, dict_get String.eqb (k_json k) (or_default db_file (default_db_file home)) = Some (Some v) -> item v "data_file" = Ok (VStr df) ->
     path_join (dirname (or_default db_file (default_db_file home))) df <> get_default_feature_file home) ->
  load home k' db_file verbose = load home k db_file verbose.
Proof.
  intros J Z N. unfold load, load_from_npz. rewrite J. destruct (dict_get String.eqb (k_json k) _) as [[v|]|] eqn:E; cbn [bind]; [|reflexivity|reflexivity].
  destruct (item v "data_file") as [df|] eqn:EI; cbn [bind]; [|reflexivity]. destruct df; cbn [as_string bind]; try reflexivity.
  rewrite (Z _ (N v s eq_refl EI)). reflexivity.
Qed.
Lemma data_ok home k X s : load_features home k None = Ok X -> s = None \/ s = Some (List.length X) -> get_data home k s = (Some (List.length X), Ok X).
Proof. intros E S. unfold get_data. rewrite E. destruct S as [-> | ->]; cbn [objects_model.check_n_samples]; [reflexivity|]. rewrite Nat.eqb_refl. reflexivity. Qed.
Lemma labels_ok home k d s names : load home k None false = Ok d -> mapM (motion_name (m_desc d)) (m_records d) = Ok names ->
  s = None \/ s = Some (List.length (m_records d)) -> get_labels home k s = (Some (List.length (m_records d)), Ok names).
Proof. intros E M S. unfold get_labels. rewrite E. destruct S as [-> | ->]; cbn [objects_model.check_n_samples]; [|rewrite Nat.eqb_refl]; cbn [bind]; rewrite M; reflexivity. Qed.

Lemma export_meta reshape (d : db) k k' dest filename ff : plain_db d -> export shape_of reshape d k dest filename "npz" ff = (k', Ok tt) ->
  exists v, dict_get String.eqb (k_json k') (path_join dest (file_of d filename ++ ".json")) = Some (Some v) /\
    item v "data_file" = Ok (VStr (file_of d filename ++ ".npz")).
Proof.
  intros (HL & ds & DI). destruct (desc_json (Arr := array) _ _ DI) as (dv & DJ & DV). unfold export. fold (file_of d filename). set (f := file_of d filename).
  unfold get_meta. cbn [String.eqb Ascii.eqb Bool.eqb].
  change (VDict _) with (meta_val d (desc_val (m_desc d)) (KStr "data_file"%string, VStr (f ++ ".npz")%string)).
  unfold dump. rewrite (meta_json d dv "data_file" (f ++ ".npz")) by auto. cbn [k_json]. intros [= <-].
  exists (meta_val d dv (KStr "data_file"%string, VStr (f ++ ".npz")%string)). split; [|reflexivity].
  unfold save_data_npz; cbn [k_json]. rewrite sget_set, String.eqb_refl. reflexivity.
Qed.

Lemma pipeline whiten kmeans vq reshape (d : db) rs home k ff force nb_bins : let dir := strip_slashes home ++ "/work/data" in
  map fst (m_records d) = map Motion rs -> plain_db d -> Forall (fun r => exists s, called (m_desc d) r s) (m_records d) -> good_db (m_markers d) rs ->
  is_whiten whiten -> gives_centroids kmeans nb_bins -> is_vq vq -> (0 < nb_bins)%nat ->
  force = true \/ nothing_at k (dir ++ "/features/choreo2_angle_hist.npz") ->
  exists k1 k2 X names, export shape_of reshape d k (dir ++ "/db/choreo2") (Some "choreo2") "npz" ff = (k1, Ok tt) /\
    build_features whiten kmeans vq Python2 home k1 None None force nb_bins = (k2, Ok tt) /\
    table_of whiten kmeans vq (m_markers d) rs nb_bins X /\ Forall2 (called (m_desc d)) (m_records d) names /\
    forall s, s = None \/ s = Some (List.length rs) ->
      get_data home k2 s = (Some (List.length rs), Ok X) /\ get_labels home k2 s = (Some (List.length rs), Ok names).
Proof.
  intros dir M P N G W C V K F. assert (ED : dir ++ "/db/choreo2" = path_join (db_dir home) "choreo2").
  { rewrite db_dest. unfold dir. rewrite sound_count.append_assoc. reflexivity. }
  assert (EF : dir ++ "/features/choreo2_angle_hist.npz" = get_default_feature_file home).
  { rewrite feat_file_eq. unfold dir. rewrite sound_count.append_assoc. reflexivity. }
  rewrite ED. rewrite EF in F. assert (D : destination (path_join (db_dir home) "choreo2")) by (right; right; left; rewrite db_dest; apply dest_dir).
  assert (B : base_name (file_of d (Some "choreo2"))) by (intros I; cbn in I; intuition discriminate).
  destruct (round_trip shape_of reshape d k _ (Some "choreo2") ff P D B) as (k1 & ds & EX & DI & L1 & _ & J1 & Z1 & T1 & M1 & D1).
  destruct (export_meta reshape d k k1 _ _ ff P EX) as (v & EV & EI). cbn [file_of] in *. change ("choreo2" ++ ".json") with "choreo2.json" in *. change ("choreo2" ++ ".npz") with "choreo2.npz" in *.
  assert (LJ : load home k1 None false = Ok (mkMotion (m_name d) (m_markers d) (m_records d) ds)) by exact L1.
  assert (NJ : get_default_feature_file home <> path_join (path_join (db_dir home) "choreo2") "choreo2.json").
  { change (path_join (path_join (db_dir home) "choreo2") "choreo2.json") with (default_db_file home). rewrite feat_file_eq, db_file_eq. intros E. apply app_inj_l in E. discriminate. }
  assert (NZ : path_join (path_join (db_dir home) "choreo2") "choreo2.npz" <> get_default_feature_file home).
  { rewrite feat_file_eq, db_dest, join_dir by (apply dest_dir || reflexivity). rewrite sound_count.append_assoc. intros E. apply app_inj_l in E. discriminate. }
  assert (F1 : force = true \/ nothing_at k1 (get_default_feature_file home)).
  { destruct F as [F|F]; [left; exact F|right]. apply nothing_spec in F. apply nothing_spec. rewrite <- F. apply same_nothing; auto; intros q ->; auto. }
  destruct (built whiten kmeans vq home k1 None None force nb_bins _ rs _ eq_refl LJ M G W C V K F1) as (k2 & X & EB & T & O & EK). cbn [or_default m_markers] in *.
  rewrite (npz_name_suffix _ (feat_suffix home)) in *.
  destruct (names_ok (m_desc d) ds (m_records d) DI N) as (names & EN & FN).
  exists k1, k2, X, names. split; [exact EX|]. split; [exact EB|]. split; [exact T|]. split; [exact FN|].
  assert (LM : List.length (m_records d) = List.length rs) by (rewrite <- (map_length fst), M, map_length; reflexivity).
  assert (L2 : load home k2 None false = Ok (mkMotion (m_name d) (m_markers d) (m_records d) ds)).
  { rewrite <- LJ. destruct O as (J2 & _ & _ & _ & Z2). apply load_same; [exact J2|exact Z2|]. cbn [or_default]. intros v' df Ev Ei.
    unfold default_db_file in *. rewrite EV in Ev. injection Ev as <-. rewrite EI in Ei. injection Ei as <-. rewrite found_again; [exact NZ|exact D| |];
      intros I; cbn in I; intuition discriminate. }
  intros s S. split.
  - destruct T as (LX & _). rewrite <- LX in *. apply data_ok; [|exact S]. apply features_found. exact EK.
  - rewrite <- LM in *. apply (labels_ok home k2 _ s names L2); [exact EN|exact S].
Qed.

(** ** Features of another database *)
Lemma stale home k X d : load_features home k None = Ok X -> load home k None false = Ok d -> List.length X <> List.length (m_records d) ->
  snd (get_labels home k (fst (get_data home k None))) = Err AssertionError /\
  snd (get_data home k (fst (get_labels home k None))) = Err AssertionError.
Proof.
  intros EX ED N. unfold get_data, get_labels. rewrite EX, ED. cbn [objects_model.check_n_samples fst snd].
  destruct (Nat.eqb_spec (List.length X) (List.length (m_records d))); [contradiction|].
  destruct (Nat.eqb_spec (List.length (m_records d)) (List.length X)); [congruence|]. split; reflexivity.
Qed.
Lemma desc_refl ds ds' : desc_image ds ds' -> desc_image ds' ds'.
Proof.
  intros H. inversion H as [| |d d' F ND]; subst; [constructor|constructor|]. constructor; [|exact ND].
  clear ND H. induction F as [|x y d d' (t & T & ->) F IH]; constructor; [|exact IH]. exists t. split; [constructor|reflexivity].
Qed.
Lemma not_noticed home k X d : load_features home k None = Ok X -> load home k None false = Ok d -> desc_image (m_desc d) (m_desc d) ->
  Forall (fun r => exists s, called (m_desc d) r s) (m_records d) -> List.length X = List.length (m_records d) ->
  exists names, Forall2 (called (m_desc d)) (m_records d) names /\
    forall s, s = None \/ s = Some (List.length X) -> get_data home k s = (Some (List.length X), Ok X) /\ get_labels home k s = (Some (List.length X), Ok names).
Proof.
  intros EX ED DI N L. destruct (names_ok _ _ _ DI N) as (names & EN & FN). exists names. split; [exact FN|]. intros s S. split; [exact (data_ok home k X s EX S)|].
  rewrite L in *. exact (labels_ok home k d s names ED EN S).
Qed.

(** ** Labels without a name *)
Lemma names_fail ds (before : list (array * list label)) r after e : desc_image ds ds -> Forall (fun r => exists s, called ds r s) before -> motion_name ds r = Err e ->
  mapM (motion_name ds) (before ++ r :: after) = Err e.
Proof.
  intros DI F E. induction F as [|x before (s & l & ls & EL & D) F IH]; cbn [app mapM]; [rewrite E; reflexivity|].
  unfold motion_name at 1. rewrite EL. replace (py_nth (l :: ls) 0) with (Ok l) by reflexivity. cbn [bind]. rewrite (described_image ds ds l s DI D). cbn [bind]. rewrite IH. reflexivity.
Qed.
Lemma labels_fail home k d before r after e : load home k None false = Ok d -> m_records d = (before ++ r :: after)%list -> desc_image (m_desc d) (m_desc d) ->
  Forall (fun r => exists s, called (m_desc d) r s) before -> motion_name (m_desc d) r = Err e ->
  get_labels home k None = (Some (List.length (m_records d)), Err e).
Proof.
  intros E ER DI F M. unfold get_labels. rewrite E. cbn [objects_model.check_n_samples bind]. rewrite ER at 2. rewrite (names_fail _ _ _ _ _ DI F M). reflexivity.
Qed.
Lemma unnamed ds r : (snd r = [] -> motion_name ds r = Err IndexError) /\
  (forall l ls, snd r = l :: ls -> ds = DNone -> motion_name ds r = Err TypeError) /\
  (forall z ls ss, snd r = LInt (Z.of_nat z) :: ls -> ds = DList ss -> List.length ss <= z -> motion_name ds r = Err IndexError) /\
  (forall l ls x, snd r = l :: ls -> ds = DDict x -> (forall s, ~ In (l, s) x) -> motion_name ds r = Err KeyError).
Proof.
  unfold motion_name. split; [intros ->; reflexivity|]. split; [intros l ls -> ->; reflexivity|]. split.
  - intros z ls ss -> -> L. change (py_nth (LInt (Z.of_nat z) :: ls) 0) with (Ok (LInt (Z.of_nat z))). cbn [bind describe].
    rewrite experiment_proof.py_nth_nat. apply nth_error_None in L. rewrite L. reflexivity.
  - intros l ls x -> -> H. change (py_nth (l :: ls) 0) with (Ok l). cbn [bind describe]. replace (dict_get label_eqb x l) with (@None string); [reflexivity|].
    symmetry. induction x as [|(l', s) x IH]; [reflexivity|]. cbn [dict_get]. destruct (label_eqb l' l) eqn:E.
    + apply label_eqb_eq in E. subst l'. destruct (H s). left. reflexivity.
    + apply IH. intros s' I. apply (H s'). right. exact I.
Qed.

(** ** load_features_and_labels *)
Lemma deprecated home k db_file feat_file d X : load home k db_file false = Ok d -> load_features home k feat_file = Ok X ->
  (List.length X = List.length (m_records d) -> load_features_and_labels home k db_file feat_file = Ok (X, map snd (m_records d), m_desc d)) /\
  (List.length X <> List.length (m_records d) -> load_features_and_labels home k db_file feat_file = Err AssertionError).
Proof.
  intros EL EX. unfold load_features_and_labels. rewrite EL. cbn [bind]. rewrite EX. cbn [bind]. rewrite map_length.
  split; intros H; [apply Nat.eqb_eq in H|apply Nat.eqb_neq in H]; rewrite H; reflexivity.
Qed.

(** ** A name without ".npz" *)
Lemma suffix_missing whiten kmeans vq home k db_file f nb_bins (d : db) rs : ~ has_suffix f ".npz" ->
  load home k db_file false = Ok d -> map fst (m_records d) = map Motion rs -> good_db (m_markers d) rs ->
  is_whiten whiten -> gives_centroids kmeans nb_bins -> is_vq vq -> (0 < nb_bins)%nat -> nothing_at k f ->
  exists k' X, build_features whiten kmeans vq Python2 home k db_file (Some f) false nb_bins = (k', Ok tt) /\
    table_of whiten kmeans vq (m_markers d) rs nb_bins X /\
    load_features home k' (Some (f ++ ".npz")) = Ok X /\ load_features home k' (Some f) = Err IOError /\ nothing_at k' f.
Proof.
  intros NS L M G W C V K F. destruct (built whiten kmeans vq home k db_file (Some f) false nb_bins d rs f eq_refl L M G W C V K (or_intror F)) as (k' & X & E & T & O & EK).
  rewrite (npz_name_plain f NS) in *. exists k', X. split; [exact E|]. split; [exact T|]. split; [apply features_found; exact EK|].
  assert (NE : f <> f ++ ".npz"). { intros H. apply (f_equal String.length) in H. revert H. rewrite append_length. cbn. lia. }
  destruct O as (J & TX & MA & DI & Z). apply nothing_spec in F.
  assert (FF : exists_path k' f = false) by (rewrite <- F; apply same_nothing; auto; intros q ->; [rewrite J; reflexivity|auto]).
  split; [|apply nothing_spec; exact FF]. unfold load_features. cbn [or_default]. unfold exists_path, has in FF. rewrite !orb_false_iff in FF. destruct FF as ((((_ & FZ) & _) & _) & _).
  destruct (dict_get String.eqb (k_npz k') f); [discriminate|reflexivity].
Qed.
