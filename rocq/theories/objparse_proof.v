(** * Lemmas on the parsing of the objects dataset. *)

From Coq Require Import List ZArith Arith Bool String Ascii Reals QArith Lia Sorted.
Import ListNotations.
From Verif Require Import Py Py_proof logger_model serial_model sound_model sound_spec nd_model nd_spec array_utils_model array_utils_spec motion_model motion_spec motion_proof
  choreo2_model choreo2_proof download_model download_proof objects_model objects_spec objects_read objects_build objects_file objparse_model objparse_spec.
Local Open Scope nat_scope.
Local Open Scope string_scope.

(** ** Names *)
Lemma table_names l n : In (l, n) table -> py_nth OBJ_NAMES l = Ok (Some n).
Proof. intros I. repeat (destruct I as [I|I]; [injection I as <- <-; reflexivity|]). destruct I. Qed.
Lemma number_split l : (0 <= l < 33)%Z -> In l (map Z.of_nat (seq 0 33)).
Proof. intros H. apply in_map_iff. exists (Z.to_nat l). split; [lia|]. apply in_seq. lia. Qed.
Lemma range_nth {A} (xs : list A) l x : (0 <= l)%Z -> py_nth xs l = Ok x -> (l < Z.of_nat (List.length xs))%Z.
Proof.
  intros P H. unfold py_nth, norm_index in H. apply bind_ok in H. destruct H as (k & K & _).
  destruct (Z.leb_spec 0 l); [|lia]. destruct (Z.ltb_spec l (Z.of_nat (List.length xs))); [assumption|]. cbn [andb] in K.
  destruct (Z.ltb_spec l 0); [lia|]. rewrite andb_false_r in K || cbn in K. discriminate.
Qed.
Lemma names_table l n : (0 <= l)%Z -> py_nth OBJ_NAMES l = Ok (Some n) -> In (l, n) table.
Proof.
  intros P H. pose proof (range_nth _ _ _ P H) as B. change (Z.of_nat (List.length OBJ_NAMES)) with 33%Z in B.
  pose proof (number_split l (conj P B)) as I. cbn [seq map] in I.
  repeat (destruct I as [I|I]; [subst l; vm_compute in H; first [discriminate|injection H as <-; cbn; tauto]|]). destruct I.
Qed.
Lemma entries l : (0 <= l)%Z -> ((exists o, py_nth OBJ_NAMES l = Ok o) <-> (l <= 32)%Z).
Proof.
  intros P. split; [intros (o & H); pose proof (range_nth _ _ _ P H) as B; change (Z.of_nat (List.length OBJ_NAMES)) with 33%Z in B; lia|].
  intros B. pose proof (number_split l ltac:(lia)) as I. cbn [seq map] in I.
  repeat (destruct I as [I|I]; [subst l; eexists; reflexivity|]). destruct I.
Qed.
Lemma usual_name l n : In (l, n) table -> In n DEFAULT_LABELS -> usual l.
Proof.
  intros I D. repeat (destruct I as [I|I]; [injection I as <- <-; first [unfold usual; lia|exfalso; cbn in D; intuition discriminate]|]). destruct I.
Qed.
Lemma usual_table l : usual l -> exists n, In (l, n) table /\ In n DEFAULT_LABELS.
Proof.
  intros U. unfold usual in U. assert (C : (l = 1 \/ l = 2 \/ l = 3 \/ l = 4 \/ l = 5 \/ l = 6 \/ l = 7 \/ l = 8 \/ l = 9 \/ l = 10)%Z) by lia.
  exists (nth (Z.to_nat (l - 1)) DEFAULT_LABELS ""). split; repeat (destruct C as [-> |C]; [cbn; tauto|]); subst l; cbn; tauto.
Qed.

(** ** The database *)
Lemma position_index t k : position t k -> dict_get String.eqb FEATURES_INDEX t = Some k.
Proof. intros H. do 5 (destruct k as [|k]; [injection H as <-; reflexivity|]). destruct k; discriminate. Qed.
Lemma feature_lists d r Ms features : o_by_frame d = map Some Ms -> List.length Ms = 5 -> (forall k M, nth_error Ms k = Some M -> computed r k M) ->
  Forall (fun t => exists k, position t k) features -> exists Ns, histograms d features Ns /\ Forall2 (feature_of r) features Ns.
Proof.
  intros B L C F. induction F as [|t features (k & P) F (Ns & H & G)]; [exists []; split; constructor|].
  assert (K : k < 5) by (change 5 with (List.length ["SURF"; "color"; "SURF_pairs"; "color_pairs"; "color_triplets"]); apply nth_error_Some; unfold position in P; congruence).
  destruct (nth_error Ms k) as [M|] eqn:E; [|apply nth_error_None in E; lia]. exists (M :: Ns). split; constructor; auto.
  - exists k. split; [apply position_index, P|]. rewrite B, nth_error_map, E. reflexivity.
  - exists k. split; [exact P|]. exact (C k M E).
Qed.
Lemma parsed_of d r Ms : o_frames d = map fst r -> o_names d = Some OBJ_NAMES -> o_by_frame d = map Some Ms -> List.length Ms = 5 ->
  (forall k M, nth_error Ms k = Some M -> computed r k M) -> parsed r d.
Proof.
  intros F N B L C. split; [exact F|]. split; [|split; [|split]].
  - intros f l n <- I. exists OBJ_NAMES. split; [exact N|]. apply table_names, I.
  - intros f l n <- P (ns & N' & H). rewrite N in N'. injection N' as <-. apply names_table; assumption.
  - intros f P. rewrite <- (entries _ P). split; [intros (o & ns & N' & H)|intros (o & H)].
    + rewrite N in N'. injection N' as <-. eauto.
    + exists o, OBJ_NAMES. auto.
  - intros features FF. exact (feature_lists d r Ms features B L C FF).
Qed.
Lemma rows_of r d features Ms : parsed r d -> Forall2 (feature_of r) features Ms -> Forall (fun M => nrows M = List.length (o_frames d)) Ms.
Proof.
  intros (F & _) H. induction H as [|t M features Ms (k & _ & (S & _)) _ IH]; constructor; [|exact IH].
  unfold nrows. rewrite S, F. cbn. rewrite map_length. reflexivity.
Qed.

(** ** The script *)
Section Script.
Variable int_of : string -> result Z.
Variable time_of : string -> result Q.
Variable float_of : string -> result R.
Variable abspath : string -> string.
Variable other : string -> bool.
Notation run := (run_parse_objects int_of time_of float_of abspath other).

Lemma objects_place home : directory home ->
  objects_db_file home false = in_objects home "single_object_label" /\ objects_db_file home true = in_objects home "single_object_label.json" /\
  dirname (objects_db_file home false) = home ++ "/work/data/db/objects" /\ basename (objects_db_file home false) = "single_object_label" /\
  directory (home ++ "/work/data/db/objects") /\ forall f, base_name f -> path_join (home ++ "/work/data/db/objects") f = in_objects home f.
Proof using.
  intros D. pose proof (strip_plain home D) as S.
  assert (DD : directory (home ++ "/work/data/db/objects")) by (apply dir_suffix; exists "/work/data/db/object", "s"%char; split; [reflexivity|discriminate]).
  assert (P : forall b, objects_db_file home b = (home ++ "/work/data/db/objects") ++ "/" ++ "single_object_label" ++ (if b then ".json" else "")).
  { intros b. rewrite object_place. unfold objects_dir. rewrite S. reflexivity. }
  assert (B : base_name "single_object_label") by (apply base_closed; reflexivity).
  split; [rewrite P; unfold in_objects; rewrite !sound_count.append_assoc; reflexivity|].
  split; [rewrite P; unfold in_objects; rewrite !sound_count.append_assoc; reflexivity|].
  rewrite (P false). change ("single_object_label" ++ "") with "single_object_label".
  split; [exact (dirname_join _ _ DD B)|]. split; [exact (basename_join _ _ B)|]. split; [exact DD|].
  intros f BF. rewrite (join_dir _ _ DD (starts_base f BF)). unfold in_objects. rewrite !sound_count.append_assoc. reflexivity.
Qed.
Lemma source_of home : directory home -> path_join (dirname (objects_db_file home false)) "stat_one_obj_no_hand" = in_objects home "stat_one_obj_no_hand".
Proof using. intros D. destruct (objects_place home D) as (_ & _ & -> & _ & _ & J). apply J, base_closed. reflexivity. Qed.
Lemma source_dir home : directory home -> dirname (in_objects home "stat_one_obj_no_hand") = home ++ "/work/data/db/objects".
Proof using.
  intros D. destruct (objects_place home D) as (_ & _ & _ & _ & DD & J). assert (B : base_name "stat_one_obj_no_hand") by (apply base_closed; reflexivity).
  rewrite <- (J _ B), (join_dir _ _ DD (starts_base _ B)). exact (dirname_join _ _ DD B).
Qed.

Lemma frames_constructed files path fs r : listed int_of time_of files path fs -> kept float_of files (dirname path) fs r -> Forall constructed (map fst r).
Proof using.
  intros (ls & L & _ & _ & F) K. assert (A : Forall constructed fs) by (clear -F; induction F; constructor; eauto using described_constructed).
  clear -A K. induction K as [|f fs r _ K IH|f vs fs r _ K IH]; [constructor| |]; inversion A; subst; [auto|]. constructor; auto.
Qed.
Lemma script_ok home files k fs r : directory home -> abspath (home ++ "/work/data/db/objects") = home ++ "/work/data/db/objects" ->
  path_exists other k (in_objects home "single_object_label") = false ->
  listed int_of time_of files (in_objects home "stat_one_obj_no_hand") fs -> kept float_of files (home ++ "/work/data/db/objects") fs r -> last_seen r ->
  exists k' d, run home files k = (k', Ok tt) /\ load_objects home k' None = Ok d /\ parsed r d /\ o_names d = Some OBJ_NAMES /\
    (forall p, p <> in_objects home "single_object_label.json" -> dict_get String.eqb (d_json k') p = dict_get String.eqb (d_json k) p) /\
    (forall p, p <> in_objects home "single_object_label.mat" -> dict_get String.eqb (d_mat k') p = dict_get String.eqb (d_mat k) p).
Proof using.
  intros D A X LI KE LS. destruct (objects_place home D) as (P0 & P1 & DN & BN & DD & J).
  rewrite <- (source_dir home D) in KE.
  destruct (build_ok int_of time_of float_of files _ (Some OBJ_NAMES) fs r LI KE LS) as (d & Ms & E & F & N & BF & L5 & CM & LH & _).
  assert (B : base_name "single_object_label") by (apply base_closed; reflexivity).
  assert (FC : Forall constructed (o_frames d)) by (rewrite F; exact (frames_constructed _ _ _ _ LI KE)).
  destruct (save_load d k (home ++ "/work/data/db/objects") "single_object_label" Ms FC LH BF L5 (or_intror (or_intror (or_introl DD))) B) as (k' & SV & LD & J1 & J2).
  change ("single_object_label" ++ ".json") with "single_object_label.json" in *. change ("single_object_label" ++ ".mat") with "single_object_label.mat" in *.
  rewrite (J "single_object_label.json" ltac:(apply base_closed; reflexivity)) in LD, J1. rewrite (J "single_object_label.mat" ltac:(apply base_closed; reflexivity)) in J2.
  do 2 eexists. split; [|split; [|split; [|split; [|split; [exact J1|exact J2]]]]].
  - unfold run_parse_objects. rewrite (source_of home D), P0, X, E, <- P0, DN, BN, A. exact SV.
  - unfold load_objects. rewrite P1. exact LD.
  - apply (parsed_of _ r Ms); cbn [o_frames o_names o_by_frame]; assumption.
  - exact N.
Qed.
Lemma exists_taken k p : path_exists other k p = true <-> taken other k p.
Proof.
  unfold path_exists, taken.
  destruct (dict_get String.eqb (d_json k) p); [split; eauto|].
  destruct (dict_get String.eqb (d_mat k) p); [split; eauto|].
  split; [auto|]. intros [(x & E) | [(x & E) | E]]; congruence.
Qed.
Lemma exists_not_taken k p : path_exists other k p = false <-> ~ taken other k p.
Proof. rewrite <- exists_taken. destruct (path_exists other k p); split; congruence. Qed.
Lemma script_present home files k : directory home -> path_exists other k (in_objects home "single_object_label") = true -> run home files k = (k, Ok tt).
Proof using. intros D X. unfold run_parse_objects. destruct (objects_place home D) as (-> & _). rewrite X. reflexivity. Qed.
Lemma script_no_source home files k : directory home -> path_exists other k (in_objects home "single_object_label") = false ->
  files (in_objects home "stat_one_obj_no_hand") = None -> run home files k = (k, Err IOError).
Proof using.
  intros D X N. unfold run_parse_objects. rewrite (source_of home D). destruct (objects_place home D) as (-> & _). rewrite X. unfold build_from. rewrite N. reflexivity.
Qed.
Lemma script_no_frame home files k fs r : directory home -> path_exists other k (in_objects home "single_object_label") = false ->
  listed int_of time_of files (in_objects home "stat_one_obj_no_hand") fs -> kept float_of files (home ++ "/work/data/db/objects") fs r -> ~ last_seen r ->
  run home files k = (k, Err IndexError).
Proof using.
  intros D X LI KE LS. unfold run_parse_objects. rewrite (source_of home D). destruct (objects_place home D) as (-> & _). rewrite X.
  rewrite <- (source_dir home D) in KE. rewrite (build_none int_of time_of float_of files _ (Some OBJ_NAMES) fs r LI KE LS). reflexivity.
Qed.
End Script.

(** ** The features *)
Lemma features_ok r d features : parsed r d -> features <> [] -> Forall (fun t => exists k, position t k) features ->
  exists Ms X, Forall2 (feature_of r) features Ms /\ load_features features d = Ok X /\ nrows X = List.length r /\
    forall i, row X i = List.concat (map (fun M => row M i) Ms).
Proof.
  intros P NE FF. destruct P as (F & P'). pose proof P' as (_ & _ & _ & H). destruct (H features FF) as (Ms & HM & FM).
  assert (NM : Ms <> []) by (intros ->; inversion FM; congruence).
  pose proof (rows_of r d features Ms (conj F P') FM) as HR. destruct (hstack_ok _ Ms NM HR) as (X & E & SX & RX). exists Ms, X. split; [exact FM|].
  split; [unfold load_features; rewrite (histograms_ok _ _ _ HM); exact E|]. split; [|exact RX]. unfold nrows. rewrite SX, F. cbn. apply map_length.
Qed.
Lemma loader_ok r d features l : parsed r d -> features <> [] -> Forall (fun t => exists k, position t k) features ->
  (forall f vs, In (f, vs) r -> (0 <= f_label f <= 32)%Z) -> used (ObjectsLoader features DEFAULT_LABELS d) l ->
  exists Ms idx X ls, Forall2 (feature_of r) features Ms /\
    StronglySorted Peano.lt idx /\ (forall i, In i idx <-> exists f vs, nth_error r i = Some (f, vs) /\ usual (f_label f)) /\
    snd (get_data l) = Ok X /\ snd (get_labels l) = Ok ls /\ nrows X = List.length idx /\ List.length ls = List.length idx /\
    forall q i, nth_error idx q = Some i -> row X q = List.concat (map (fun M => row M i) Ms) /\
      exists f vs n, nth_error r i = Some (f, vs) /\ In (f_label f, n) table /\ nth_error ls q = Some (Some n).
Proof.
  intros P NE FF LB U. pose proof P as (F & T1 & T2 & EN & H). destruct (H features FF) as (Ms & HM & FM).
  assert (FR : forall i f, nth_error (o_frames d) i = Some f <-> exists vs, nth_error r i = Some (f, vs)).
  { intros i f. rewrite F, nth_error_map. destruct (nth_error r i) as [(g, vs)|]; cbn; (split; [intros E; injection E as <- || discriminate E; eauto|intros (ws & E); congruence]). }
  assert (LF : forall i f, nth_error (o_frames d) i = Some f -> (0 <= f_label f <= 32)%Z).
  { intros i f E. apply FR in E. destruct E as (vs & E). apply nth_error_In in E. exact (LB _ _ E). }
  assert (NO : name_ok d).
  { intros f I. apply In_nth_error in I. destruct I as (i & I). pose proof (LF i f I). apply EN; lia. }
  destruct (aligned d features DEFAULT_LABELS Ms l NO HM NE (rows_of r d features Ms P FM) U) as (idx & X & ls & (SS & W) & GD & GL & NR & LL & AL).
  exists Ms, idx, X, ls. split; [exact FM|]. split; [exact SS|]. split; [|split; [exact GD|split; [exact GL|split; [exact NR|split; [exact LL|]]]]].
  - intros i. rewrite W. split.
    + intros (f & n & E & N & I). pose proof (LF i f E) as B. pose proof (T2 f _ n eq_refl (proj1 B) N) as T. apply FR in E. destruct E as (vs & E). exists f, vs. split; [exact E|]. exact (usual_name _ _ T I).
    + intros (f & vs & E & US). destruct (usual_table _ US) as (n & T & I). exists f, n. split; [apply FR; eauto|]. split; [exact (T1 f _ n eq_refl T)|exact I].
  - intros q i Q. destruct (AL q i Q) as (RW & f & n & E & N & LS). split; [exact RW|]. pose proof (LF i f E) as B. apply FR in E. destruct E as (vs & E).
    exists f, vs, n. split; [exact E|]. split; [exact (T2 f _ n eq_refl (proj1 B) N)|exact LS].
Qed.
Lemma loader_bad r d features labels f vs : parsed r d -> In (f, vs) r -> (32 < f_label f)%Z ->
  exists e, snd (get_labels (ObjectsLoader features labels d)) = Err e.
Proof.
  intros (F & _ & _ & EN & _) I B. apply (bad_name features labels d f); [rewrite F; apply in_map_iff; exists (f, vs); auto|].
  intros n E. assert (X : (f_label f <= 32)%Z) by (apply EN; [lia|eauto]). lia.
Qed.
