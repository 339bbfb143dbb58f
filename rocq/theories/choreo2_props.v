(** * Theorems on the second choreography dataset (C101). *)

From Coq Require Import List ZArith Arith Reals Bool String Ascii Lia.
Import ListNotations.
From Verif Require Import Py logger_model logger_spec sound_model sound_spec motion_model motion_spec hac_model quant_model quant_spec quant_proof angle_model angle_spec
  choreo2_model choreo2_spec choreo2_proof.
From Verif Require angle_props experiment_keys logger_file.
Local Open Scope nat_scope.
Local Open Scope string_scope.

(** The default files are those of the directories work/data/db and work/data/features
    of the user. *)
Theorem C101_files home : directory home ->
  default_db_file home = home ++ "/work/data/db/choreo2/choreo2.json" /\
  get_default_feature_file home = home ++ "/work/data/features/choreo2_angle_hist.npz".
Proof. intros D. rewrite db_file_eq, feat_file_eq, (strip_plain home D). split; reflexivity. Qed.
Print Assumptions C101_files.

(** A database exported to its default place, from which features are built, is given by
    the loader: a row of the table of features for each record, and its name, both in
    the order of the records, whichever is asked first and however often. *)
Theorem C101_pipeline whiten kmeans vq reshape (d : db) rs home k force_flat force nb_bins :
  directory home -> map fst (m_records d) = map Motion rs -> plain_db d -> Forall (fun r => exists s, called (m_desc d) r s) (m_records d) ->
  good_db (m_markers d) rs -> is_whiten whiten -> gives_centroids kmeans nb_bins -> is_vq vq -> (0 < nb_bins)%nat ->
  force = true \/ nothing_at k (home ++ "/work/data/features/choreo2_angle_hist.npz") ->
  exists k1 k2 X names, export shape_of reshape d k (home ++ "/work/data/db/choreo2") (Some "choreo2") "npz" force_flat = (k1, Ok tt) /\
    build_features whiten kmeans vq Python2 home k1 None None force nb_bins = (k2, Ok tt) /\
    table_of whiten kmeans vq (m_markers d) rs nb_bins X /\ Forall2 (called (m_desc d)) (m_records d) names /\
    forall s, s = None \/ s = Some (List.length rs) ->
      get_data home k2 s = (Some (List.length rs), Ok X) /\ get_labels home k2 s = (Some (List.length rs), Ok names).
Proof.
  intros D. pose proof (pipeline whiten kmeans vq reshape d rs home k force_flat force nb_bins) as H. cbn zeta in H. rewrite (strip_plain home D), !sound_count.append_assoc in H. exact H.
Qed.
Print Assumptions C101_pipeline.

(** Building writes the archive of features and nothing else. *)
Theorem C101_built whiten kmeans vq home k db_file f force nb_bins (d : db) rs :
  has_suffix f ".npz" -> load home k db_file false = Ok d -> map fst (m_records d) = map Motion rs -> good_db (m_markers d) rs ->
  is_whiten whiten -> gives_centroids kmeans nb_bins -> is_vq vq -> (0 < nb_bins)%nat -> force = true \/ nothing_at k f ->
  exists k' X, build_features whiten kmeans vq Python2 home k db_file (Some f) force nb_bins = (k', Ok tt) /\
    table_of whiten kmeans vq (m_markers d) rs nb_bins X /\ only_written f k k' /\ load_features home k' (Some f) = Ok X.
Proof.
  intros S L M G W C V K F. destruct (built whiten kmeans vq home k db_file (Some f) force nb_bins d rs f eq_refl L M G W C V K F) as (k' & X & E & T & O & EK).
  rewrite (logger_file.npz_name_suffix f S) in *. exists k', X. split; [exact E|]. split; [exact T|]. split; [exact O|exact (features_found home k' (Some f) X EK)].
Qed.
Print Assumptions C101_built.

(** Something at the place of the features is kept unless forced. *)
Theorem C101_kept whiten kmeans vq v home k db_file feat_file nb_bins :
  ~ nothing_at k (or_default feat_file (get_default_feature_file home)) ->
  build_features whiten kmeans vq v home k db_file feat_file false nb_bins = (k, Err ValueError).
Proof. exact (kept whiten kmeans vq v home k db_file feat_file nb_bins). Qed.
Print Assumptions C101_kept.

(** In Python 3 features are never built, and nothing is written. *)
Theorem C101_python3 whiten kmeans vq home k db_file feat_file force nb_bins :
  (exists e, build_features whiten kmeans vq Python3 home k db_file feat_file force nb_bins = (k, Err e)) /\
  (forall k', build_features whiten kmeans vq Python2 home k db_file feat_file force nb_bins = (k', Ok tt) ->
     build_features whiten kmeans vq Python3 home k db_file feat_file force nb_bins = (k, Err ValueError)).
Proof. split; [exact (python3 whiten kmeans vq home k db_file feat_file force nb_bins)|exact (python3_value whiten kmeans vq home k db_file feat_file force nb_bins)]. Qed.
Print Assumptions C101_python3.

(** Without ".npz" at the end of the name, features are not found under the name given
    to build_features, and what was at name.npz is lost without force. *)
Theorem C101_suffix_refuted whiten kmeans vq home k db_file f nb_bins (d : db) rs : ~ has_suffix f ".npz" ->
  load home k db_file false = Ok d -> map fst (m_records d) = map Motion rs -> good_db (m_markers d) rs ->
  is_whiten whiten -> gives_centroids kmeans nb_bins -> is_vq vq -> (0 < nb_bins)%nat -> nothing_at k f ->
  exists k' X, build_features whiten kmeans vq Python2 home k db_file (Some f) false nb_bins = (k', Ok tt) /\
    table_of whiten kmeans vq (m_markers d) rs nb_bins X /\
    load_features home k' (Some (f ++ ".npz")) = Ok X /\ load_features home k' (Some f) = Err IOError /\ nothing_at k' f.
Proof. exact (suffix_missing whiten kmeans vq home k db_file f nb_bins d rs). Qed.
Print Assumptions C101_suffix_refuted.

(** Features for another number of records are noticed by whichever is asked second. *)
Theorem C101_stale home k X d : load_features home k None = Ok X -> load home k None false = Ok d -> List.length X <> List.length (m_records d) ->
  snd (get_labels home k (fst (get_data home k None))) = Err AssertionError /\
  snd (get_data home k (fst (get_labels home k None))) = Err AssertionError.
Proof. exact (stale home k X d). Qed.
Print Assumptions C101_stale.

(** Features of any other database with as many records are not noticed. *)
Theorem C101_stale_refuted home k X d : load_features home k None = Ok X -> load home k None false = Ok d -> desc_image (m_desc d) (m_desc d) ->
  Forall (fun r => exists s, called (m_desc d) r s) (m_records d) -> List.length X = List.length (m_records d) ->
  exists names, Forall2 (called (m_desc d)) (m_records d) names /\
    forall s, s = None \/ s = Some (List.length X) -> get_data home k s = (Some (List.length X), Ok X) /\ get_labels home k s = (Some (List.length X), Ok names).
Proof. exact (not_noticed home k X d). Qed.
Print Assumptions C101_stale_refuted.

(** The first record without a name decides the error: no label, no descriptions, an index
    out of the list, or a label that is not a key. *)
Theorem C101_no_name home k d before r after : load home k None false = Ok d -> m_records d = (before ++ r :: after)%list ->
  desc_image (m_desc d) (m_desc d) -> Forall (fun r => exists s, called (m_desc d) r s) before ->
  (snd r = [] -> snd (get_labels home k None) = Err IndexError) /\
  (snd r <> [] -> m_desc d = DNone -> snd (get_labels home k None) = Err TypeError) /\
  (forall z ls ss, snd r = LInt (Z.of_nat z) :: ls -> m_desc d = DList ss -> List.length ss <= z -> snd (get_labels home k None) = Err IndexError) /\
  (forall l ls x, snd r = l :: ls -> m_desc d = DDict x -> (forall s, ~ In (l, s) x) -> snd (get_labels home k None) = Err KeyError).
Proof.
  intros E ER DI F. destruct (unnamed (m_desc d) r) as (A & B & C & D).
  assert (L : forall e, motion_name (m_desc d) r = Err e -> snd (get_labels home k None) = Err e) by (intros e H; rewrite (labels_fail home k d before r after e E ER DI F H); reflexivity).
  split; [auto|]. split; [|split; eauto]. intros N ED. destruct (snd r) as [|l ls] eqn:ES; [congruence|]. eauto.
Qed.
Print Assumptions C101_no_name.

(** load_features_and_labels gives all labels of the records, and checks the numbers. *)
Theorem C101_features_and_labels home k db_file feat_file d X : load home k db_file false = Ok d -> load_features home k feat_file = Ok X ->
  (List.length X = List.length (m_records d) -> load_features_and_labels home k db_file feat_file = Ok (X, map snd (m_records d), m_desc d)) /\
  (List.length X <> List.length (m_records d) -> load_features_and_labels home k db_file feat_file = Err AssertionError).
Proof. exact (deprecated home k db_file feat_file d X). Qed.
Print Assumptions C101_features_and_labels.

(** ** Examples: two records of two motions *)
Definition ex_db (l1 l2 : list label) (ds : descriptions) : db :=
  mkMotion "choreo2" angle_props.ex_names (combine (map Motion angle_props.ex_records) [l1; l2]) ds.
Definition ex : db := ex_db [LInt 1; LInt 0] [LInt 0] (DList ["wave"; "jump"]).
Definition no_files : disk := mkDisk [] [] [] [] [].
Example C101_ex_plain : plain_db ex.
Proof.
  split; [|exists (DList ["wave"; "jump"]); constructor]. intros a ls l [[= <- <-]|[[= <- <-]|[]]] I; cbn in I; destruct I as [<-|I]; try (destruct I as [<-|[]]); try contradiction;
    eexists; constructor.
Qed.
Example C101_ex_called : Forall (fun r => exists s, called (m_desc ex) r s) (m_records ex).
Proof.
  unfold ex, ex_db, angle_props.ex_records. cbn [m_records m_desc combine map]. constructor; [exists "jump", (LInt 1), [LInt 0]; split; [reflexivity|exact (de_list ["wave"; "jump"] 1 "jump" eq_refl)]|constructor; [|constructor]].
  exists "wave", (LInt 0), []. split; [reflexivity|exact (de_list ["wave"; "jump"] 0 "wave" eq_refl)].
Qed.
Lemma forall2_cons {A B} (P : A -> B -> Prop) x y l l' : Forall2 P (x :: l) (y :: l') -> P x y /\ Forall2 P l l'.
Proof. intros F. inversion F; subst. split; assumption. Qed.
Lemma forall2_length {A B} (P : A -> B -> Prop) l l' : Forall2 P l l' -> List.length l = List.length l'.
Proof. intros F. induction F; cbn; congruence. Qed.
Example C101_ex_pipeline reshape : exists k1 k2 X,
  export shape_of reshape ex no_files "/home/u/work/data/db/choreo2" (Some "choreo2") "npz" true = (k1, Ok tt) /\
  build_features angle_props.ex_whiten angle_props.ex_kmeans associate Python2 "/home/u" k1 None None false 15 = (k2, Ok tt) /\
  List.length X = 2 /\ get_data "/home/u" k2 None = (Some 2, Ok X) /\ get_labels "/home/u" k2 (Some 2) = (Some 2, Ok ["jump"; "wave"]).
Proof.
  destruct (C101_pipeline angle_props.ex_whiten angle_props.ex_kmeans associate reshape ex angle_props.ex_records "/home/u" no_files true false 15)
    as (k1 & k2 & X & names & E1 & E2 & (L & _) & F & H).
  - exists "/home/", "u"%char. split; [reflexivity|discriminate].
  - reflexivity.
  - exact C101_ex_plain.
  - exact C101_ex_called.
  - exact angle_props.C56_ex_db.
  - exact angle_props.C56_ex_whiten.
  - exact (angle_props.C56_ex_kmeans 15).
  - exact angle_props.C56_ex_vq.
  - lia.
  - right. repeat split; intros; intros [].
  - exists k1, k2, X. split; [exact E1|]. split; [exact E2|]. split; [exact L|]. split; [apply H; left; reflexivity|].
    destruct (H (Some 2) (or_intror eq_refl)) as (_ & G). replace ["jump"; "wave"] with names; [exact G|].
    unfold ex, ex_db, angle_props.ex_records in F. cbn [m_records m_desc combine map] in F. clear -F.
    destruct names as [|a [|b [|c names]]]; try (exfalso; apply forall2_length in F; discriminate F).
    apply forall2_cons in F. destruct F as ((l & ls & [= <- <-] & D) & F). apply forall2_cons in F. destruct F as ((l & ls & [= <- <-] & D') & _).
    inversion D as [ss n s En EA EB|]; subst. inversion D' as [ss' n' s' En' EA' EB'|]; subst.
    assert (n = 1) as -> by lia. assert (n' = 0) as -> by lia. cbn in En, En'. congruence.
Qed.

(** The same disk with the features in another order, and with features for one record. *)
Definition ex_disk (X : list (list R)) (d : db) : disk :=
  fst (export shape_of (fun a _ => a) d (mkDisk [] [("/home/u/work/data/features/choreo2_angle_hist.npz", [("Xmotion", Features X)])] [] [] [])
         "/home/u/work/data/db/choreo2" (Some "choreo2") "npz" true).
Example C101_ex_loaded X : load "/home/u" (ex_disk X ex) None false = Ok ex /\ load_features "/home/u" (ex_disk X ex) None = Ok X.
Proof. split; reflexivity. Qed.
Example C101_ex_swapped (a b : list R) : get_data "/home/u" (ex_disk [b; a] ex) None = (Some 2, Ok [b; a]) /\
  get_labels "/home/u" (ex_disk [b; a] ex) (Some 2) = (Some 2, Ok ["jump"; "wave"]).
Proof. split; reflexivity. Qed.
Example C101_ex_not_noticed (a b : list R) : exists names, Forall2 (called (m_desc ex)) (m_records ex) names /\
  get_data "/home/u" (ex_disk [b; a] ex) None = (Some 2, Ok [b; a]) /\ get_labels "/home/u" (ex_disk [b; a] ex) (Some 2) = (Some 2, Ok names).
Proof.
  destruct (C101_stale_refuted "/home/u" _ [b; a] ex (proj2 (C101_ex_loaded _)) (proj1 (C101_ex_loaded _)) (di_list _) C101_ex_called eq_refl) as (names & F & H).
  exists names. split; [exact F|]. split; [apply (H None); left; reflexivity|apply (H (Some 2)); right; reflexivity].
Qed.
Example C101_ex_stale (a : list R) : snd (get_labels "/home/u" (ex_disk [a] ex) (Some 1)) = Err AssertionError.
Proof. apply (C101_stale "/home/u" _ [a] ex (proj2 (C101_ex_loaded _)) (proj1 (C101_ex_loaded _))). discriminate. Qed.
Example C101_ex_kept v (a : list R) : build_features angle_props.ex_whiten angle_props.ex_kmeans associate v "/home/u" (ex_disk [a] ex) None None false 15 = (ex_disk [a] ex, Err ValueError).
Proof. apply C101_kept. intros (_ & N & _). apply (N [("Xmotion", Features [a])]). left. reflexivity. Qed.
Example C101_ex_suffix (a : list R) : exists k' X,
  build_features angle_props.ex_whiten angle_props.ex_kmeans associate Python2 "/home/u" (ex_disk [a] ex) None (Some "/tmp/f") false 15 = (k', Ok tt) /\
  List.length X = 2 /\ load_features "/home/u" k' (Some "/tmp/f.npz") = Ok X /\ load_features "/home/u" k' (Some "/tmp/f") = Err IOError.
Proof.
  destruct (C101_suffix_refuted angle_props.ex_whiten angle_props.ex_kmeans associate "/home/u" (ex_disk [a] ex) None "/tmp/f" 15 ex angle_props.ex_records) as (k' & X & E & (L & _) & A & B & _).
  - intros H. apply logger_file.ends_with_spec in H. discriminate.
  - apply C101_ex_loaded.
  - reflexivity.
  - exact angle_props.C56_ex_db.
  - exact angle_props.C56_ex_whiten.
  - exact (angle_props.C56_ex_kmeans 15).
  - exact angle_props.C56_ex_vq.
  - lia.
  - repeat split; intros; intros I; cbn in I; intuition discriminate.
  - exists k', X. tauto.
Qed.
Example C101_ex_built (a : list R) : exists k' X,
  build_features angle_props.ex_whiten angle_props.ex_kmeans associate Python2 "/home/u" (ex_disk [a] ex) None (Some "/tmp/f.npz") false 15 = (k', Ok tt) /\
  List.length X = 2 /\ load_features "/home/u" k' (Some "/tmp/f.npz") = Ok X.
Proof.
  destruct (C101_built angle_props.ex_whiten angle_props.ex_kmeans associate "/home/u" (ex_disk [a] ex) None "/tmp/f.npz" false 15 ex angle_props.ex_records) as (k' & X & E & (L & _) & A & B).
  - exists "/tmp/f". reflexivity.
  - apply C101_ex_loaded.
  - reflexivity.
  - exact angle_props.C56_ex_db.
  - exact angle_props.C56_ex_whiten.
  - exact (angle_props.C56_ex_kmeans 15).
  - exact angle_props.C56_ex_vq.
  - lia.
  - right. repeat split; intros; intros I; cbn in I; intuition discriminate.
  - exists k', X. tauto.
Qed.
(** The second record has no label; a dictionary with integer keys, once loaded. *)
Example C101_ex_no_label X : snd (get_labels "/home/u" (ex_disk X (ex_db [LInt 0] [] (DList ["wave"]))) None) = Err IndexError.
Proof.
  apply (C101_no_name "/home/u" _ (ex_db [LInt 0] [] (DList ["wave"])) [(Motion [angle_props.ex_sample 0; angle_props.ex_sample 1], [LInt 0])] (Motion [angle_props.ex_sample 2], []) []).
  - reflexivity.
  - reflexivity.
  - constructor.
  - constructor; [|constructor]. exists "wave", (LInt 0), []. split; [reflexivity|exact (de_list ["wave"] 0 "wave" eq_refl)].
  - reflexivity.
Qed.
Example C101_ex_int_keys X : snd (get_labels "/home/u" (ex_disk X (ex_db [LInt 0] [LInt 0] (DDict [(LInt 0, "wave")]))) None) = Err KeyError.
Proof. reflexivity. Qed.
Example C101_ex_and_labels (a b : list R) : load_features_and_labels "/home/u" (ex_disk [a; b] ex) None None = Ok ([a; b], [[LInt 1; LInt 0]; [LInt 0]], DList ["wave"; "jump"]).
Proof. apply (C101_features_and_labels "/home/u" _ None None ex [a; b] (proj1 (C101_ex_loaded _)) (proj2 (C101_ex_loaded _))). reflexivity. Qed.
