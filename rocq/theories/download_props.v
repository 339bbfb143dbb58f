(** * Theorems on downloads (C103). *)

From Coq Require Import List ZArith Arith Bool String Ascii Lia.
Import ListNotations.
From Verif Require Import Py logger_model sound_model sound_spec motion_model motion_spec choreo2_model choreo2_proof download_model download_spec download_proof.
From Verif Require acorns_model experiment_keys motion_proof sound_count sound_proof.
Local Open Scope string_scope.

Section Props.
Context {F : Type}.
Variable fetch : string -> option F * result unit.

(** A destination that was given is written without slash at its end. *)
Definition given (o : option string) : Prop := forall x, o = Some x -> directory x.

(** The three files of the second choreography dataset. *)
Theorem C103_choreo2 home (k : store F) meta_dest features_dest overwrite : directory home -> given meta_dest -> given features_dest ->
  let dm := chosen meta_dest (home ++ "/work/data/db/choreo2") in let df := chosen features_dest (home ++ "/work/data/features") in
  In dm (dirs k) -> In df (dirs k) -> ready fetch overwrite k (app (choreo2_data dm) (choreo2_features df)) ->
  exists k', choreo2_download_with_features fetch home k meta_dest features_dest overwrite = (k', Ok tt) /\
    transferred fetch k k' (app (choreo2_data dm) (choreo2_features df)).
Proof.
  intros D A B dm df IM IF R. rewrite all_steps. unfold choreo2_dir, features_dir. rewrite (strip_plain home D). fold dm. fold df.
  rewrite <- choreo2_under in *. apply steps_ok; [|apply choreo2_names| |exact R].
  - apply choreo2_plain; apply chosen_directory; auto; apply dir_suffix; [exists "/work/data/db/choreo", "2"%char|exists "/work/data/feature", "s"%char]; split; try reflexivity; discriminate.
  - intros x [<-|[<-|[<-|[]]]]; assumption.
Qed.

(** The description and the features of all speakers of a year of ACORNS. *)
Theorem C103_acorns home (k : store F) year y speakers meta_dest features_dest overwrite : directory home -> given meta_dest -> given features_dest ->
  year = 1%Z /\ y = "1" /\ speakers = four_speakers \/ year = 2%Z /\ y = "2" /\ speakers = ten_speakers ->
  let dm := chosen meta_dest (home ++ "/work/data/db/ACORNS") in let df := chosen features_dest (home ++ "/work/data/features") in
  In dm (dirs k) -> In df (dirs k) -> ready fetch overwrite k (app (acorns_meta y dm) (acorns_features y df speakers)) ->
  exists k', acorns_download_meta_and_features fetch home k year meta_dest features_dest overwrite = (k', Ok tt) /\
    transferred fetch k k' (app (acorns_meta y dm) (acorns_features y df speakers)).
Proof.
  intros D A B Y dm df IM IF R.
  assert (E : exists zs, year_speakers year = Some (y, zs, speakers)) by (destruct Y as [(-> & -> & ->)|(-> & -> & ->)]; eexists; reflexivity). destruct E as (zs & E).
  assert (DM : directory dm) by (apply chosen_directory; auto; apply dir_suffix; exists "/work/data/db/ACORN", "S"%char; split; [reflexivity|discriminate]).
  assert (DF : directory df) by (apply chosen_directory; auto; apply dir_suffix; exists "/work/data/feature", "s"%char; split; [reflexivity|discriminate]).
  destruct (acorns_plain year y zs speakers dm df E DM DF) as (EP & P & ND & U).
  rewrite (acorns_run fetch home k year meta_dest features_dest overwrite zs EP). unfold acorns_dir, features_dir. rewrite (strip_plain home D). fold dm. fold df.
  rewrite <- U in *. apply steps_ok; [exact P|exact ND| |exact R].
  intros x [<-|I]; [exact IM|]. apply in_map_iff in I. destruct I as (s & <- & _). exact IF.
Qed.

(** The two files of the objects dataset. *)
Theorem C103_objects home (k : store F) dest overwrite : directory home -> given dest ->
  let d := chosen dest (home ++ "/work/data/db/objects") in In d (dirs k) -> ready fetch overwrite k (object_files d) ->
  exists k', objects_download_meta_and_features fetch home k dest overwrite = (k', Ok tt) /\ transferred fetch k k' (object_files d).
Proof.
  intros D A d I R. rewrite object_run. unfold objects_dir. rewrite (strip_plain home D). fold d. apply (steps_ok fetch overwrite (object_steps d)).
  - apply object_plain, chosen_directory; auto; apply dir_suffix; exists "/work/data/db/object", "s"%char; split; [reflexivity|discriminate].
  - cbn. repeat constructor; cbn; intuition discriminate.
  - intros x [<-|[<-|[]]]; assumption.
  - exact R.
Qed.

(** These are the places where the datasets are loaded from. *)
Theorem C103_places home : directory home ->
  default_db_file home = home ++ "/work/data/db/choreo2" ++ "/choreo2.json" /\
  path_join (dirname (default_db_file home)) "choreo2.npz" = home ++ "/work/data/db/choreo2" ++ "/choreo2.npz" /\
  get_default_feature_file home = home ++ "/work/data/features" ++ "/choreo2_angle_hist.npz" /\
  path_join (acorns_model.default_acorns_dir (db_dir home)) (acorns_model.default_acorns_file 1) = home ++ "/work/data/db/ACORNS" ++ "/Acorns_Y1.json" /\
  path_join (acorns_model.default_acorns_dir (db_dir home)) (acorns_model.default_acorns_file 2) = home ++ "/work/data/db/ACORNS" ++ "/Acorns_Y2.json" /\
  Forall2 (fun s t => path_join (feat_dir home) (acorns_model.feature_file_name 1 s) = home ++ "/work/data/features" ++ "/acorns_HAC_Y1_S" ++ t ++ "_python.mat")
    [0; 1; 2; 3]%Z four_speakers /\
  objects_db_file home true = home ++ "/work/data/db/objects" ++ "/single_object_label.json".
Proof.
  intros D. pose proof (strip_plain home D) as S. split; [rewrite db_file_eq, S; reflexivity|]. split.
  { unfold default_db_file. rewrite db_dest, S. assert (DD : directory (home ++ "/work/data/db/choreo2")) by (rewrite <- S; apply dest_dir).
    rewrite motion_proof.found_again; [|right; right; left; exact DD| |]; try (apply base_closed; reflexivity).
    rewrite motion_proof.join_dir by (exact DD || reflexivity). rewrite sound_count.append_assoc. reflexivity. }
  split; [rewrite feat_file_eq, S; reflexivity|].
  assert (AC : forall f, base_name f -> path_join (acorns_model.default_acorns_dir (db_dir home)) f = home ++ "/work/data/db/ACORNS" ++ "/" ++ f).
  { intros f B. unfold acorns_model.default_acorns_dir. rewrite (db_sub home "ACORNS"), S by (split; [discriminate|apply base_closed; reflexivity]).
    rewrite motion_proof.join_dir; [rewrite !sound_count.append_assoc; reflexivity| |exact (motion_proof.starts_base f B)].
    pose proof (acorns_directory home) as AD. unfold acorns_dir in AD. rewrite S in AD. exact AD. }
  split; [apply AC, base_closed; reflexivity|]. split; [apply AC, base_closed; reflexivity|]. split.
  - assert (FT : forall f, base_name f -> path_join (feat_dir home) f = home ++ "/work/data/features" ++ "/" ++ f).
    { intros f B. rewrite feat_dir_eq, motion_proof.join_dir; [|apply features_directory|exact (motion_proof.starts_base f B)]. unfold features_dir. rewrite S, !sound_count.append_assoc. reflexivity. }
    repeat constructor; apply FT, base_closed; reflexivity.
  - rewrite object_place. unfold objects_dir. rewrite S, !sound_count.append_assoc. reflexivity.
Qed.

(** Whatever the server answers, only files of the dataset are written; without overwrite no
    file that was there is lost. *)
Theorem C103_frame home (k k' : store F) meta_dest features_dest overwrite r : directory home -> given meta_dest -> given features_dest ->
  let dm := chosen meta_dest (home ++ "/work/data/db/choreo2") in let df := chosen features_dest (home ++ "/work/data/features") in
  choreo2_download_with_features fetch home k meta_dest features_dest overwrite = (k', r) ->
  only_files k k' (app (choreo2_data dm) (choreo2_features df)) /\ (overwrite = false -> nothing_lost k k').
Proof.
  intros D A B dm df. rewrite all_steps. unfold choreo2_dir, features_dir. rewrite (strip_plain home D). fold dm. fold df.
  rewrite <- choreo2_under. apply steps_frame.
  apply choreo2_plain; apply chosen_directory; auto; apply dir_suffix; [exists "/work/data/db/choreo", "2"%char|exists "/work/data/feature", "s"%char]; split; try reflexivity; discriminate.
Qed.
Theorem C103_frame_data home (k k' : store F) dest overwrite r : directory home -> given dest ->
  let dm := chosen dest (home ++ "/work/data/db/choreo2") in
  choreo2_download fetch home k dest overwrite = (k', r) \/ choreo2_download_meta fetch home k dest overwrite = (k', r) ->
  only_files k k' (choreo2_data dm) /\ (overwrite = false -> nothing_lost k k').
Proof.
  intros D A dm. rewrite data_steps, meta_steps. unfold choreo2_dir. rewrite (strip_plain home D). fold dm.
  assert (DM : directory dm) by (apply chosen_directory; auto; apply dir_suffix; exists "/work/data/db/choreo", "2"%char; split; [reflexivity|discriminate]).
  intros [E|E].
  - revert E. apply (steps_frame fetch overwrite (choreo2_steps dm)). repeat constructor; auto; apply base_closed; reflexivity.
  - apply steps_frame in E; [|repeat constructor; auto; apply base_closed; reflexivity]. destruct E as ((E1 & E2) & E3). split; [|exact E3]. split; [exact E1|].
    intros p N. apply E2. intros I. apply N. cbn in *. tauto.
Qed.
Theorem C103_frame_acorns home (k k' : store F) year meta_dest features_dest overwrite r :
  acorns_download_meta_and_features fetch home k year meta_dest features_dest overwrite = (k', r) ->
  dirs k' = dirs k /\ (overwrite = false -> nothing_lost k k').
Proof.
  unfold acorns_download_meta_and_features. match goal with |- context [get_files fetch overwrite k ?l] => destruct (get_files fetch overwrite k l) as (k1, [u|e]) eqn:E1 end;
    apply get_files_frame in E1; destruct E1 as ((D1 & _) & N1).
  - destruct (py_nth ALL_SPEAKERS (year - 1)) as [zs|e]; [|intros [= <- <-]; split; assumption].
    intros E2. apply get_files_frame in E2. destruct E2 as ((D2 & _) & N2). split; [congruence|]. intros O p c S. apply (N2 O), (N1 O), S.
  - intros [= <- <-]. split; assumption.
Qed.
(** For the two years of ACORNS only the files of the dataset change. *)
Theorem C103_frame_acorns_files home (k k' : store F) year y speakers meta_dest features_dest overwrite r :
  directory home -> given meta_dest -> given features_dest ->
  year = 1%Z /\ y = "1" /\ speakers = four_speakers \/ year = 2%Z /\ y = "2" /\ speakers = ten_speakers ->
  let dm := chosen meta_dest (home ++ "/work/data/db/ACORNS") in let df := chosen features_dest (home ++ "/work/data/features") in
  acorns_download_meta_and_features fetch home k year meta_dest features_dest overwrite = (k', r) ->
  only_files k k' (app (acorns_meta y dm) (acorns_features y df speakers)).
Proof.
  intros D A B C dm df.
  assert (DM : directory dm) by (apply chosen_directory; auto; apply dir_suffix; exists "/work/data/db/ACORN", "S"%char; split; [reflexivity|discriminate]).
  assert (DF : directory df) by (apply chosen_directory; auto; apply dir_suffix; exists "/work/data/feature", "s"%char; split; [reflexivity|discriminate]).
  destruct C as [(-> & -> & ->)|(-> & -> & ->)].
  - destruct (acorns_plain 1 "1" _ four_speakers _ _ eq_refl DM DF) as (EP & P & ND & U).
    rewrite (acorns_run fetch home k 1 meta_dest features_dest overwrite _ EP). unfold acorns_dir, features_dir. rewrite (strip_plain home D).
    fold dm. fold df. intros E. rewrite <- U. exact (proj1 (steps_frame fetch overwrite _ k k' r P E)).
  - destruct (acorns_plain 2 "2" _ ten_speakers _ _ eq_refl DM DF) as (EP & P & ND & U).
    rewrite (acorns_run fetch home k 2 meta_dest features_dest overwrite _ EP). unfold acorns_dir, features_dir. rewrite (strip_plain home D).
    fold dm. fold df. intros E. rewrite <- U. exact (proj1 (steps_frame fetch overwrite _ k k' r P E)).
Qed.
Theorem C103_frame_objects home (k k' : store F) dest overwrite r : directory home -> given dest ->
  let d := chosen dest (home ++ "/work/data/db/objects") in
  objects_download_meta_and_features fetch home k dest overwrite = (k', r) -> only_files k k' (object_files d) /\ (overwrite = false -> nothing_lost k k').
Proof.
  intros D A d. rewrite object_run. unfold objects_dir. rewrite (strip_plain home D). fold d. apply (steps_frame fetch overwrite (object_steps d)).
  apply object_plain, chosen_directory; auto; apply dir_suffix; exists "/work/data/db/object", "s"%char; split; [reflexivity|discriminate].
Qed.

(** A destination which is not a directory, and a first file that exists: IOError, and nothing changes. *)
Theorem C103_refused home (k : store F) meta_dest features_dest overwrite : directory home -> given meta_dest ->
  let dm := chosen meta_dest (home ++ "/work/data/db/choreo2") in
  ~ In dm (dirs k) \/ overwrite = false /\ (exists c, stored k (dm ++ "/choreo2.json") c) ->
  choreo2_download_with_features fetch home k meta_dest features_dest overwrite = (k, Err IOError) /\
  choreo2_download fetch home k meta_dest overwrite = (k, Err IOError) /\ choreo2_download_meta fetch home k meta_dest overwrite = (k, Err IOError).
Proof.
  intros D A dm H. rewrite all_steps, data_steps, meta_steps. unfold choreo2_dir. rewrite (strip_plain home D). fold dm.
  assert (DM : directory dm) by (apply chosen_directory; auto; apply dir_suffix; exists "/work/data/db/choreo", "2"%char; split; [reflexivity|discriminate]).
  unfold choreo2_all, choreo2_steps. cbn [app get_files].
  assert (E : get_file fetch overwrite k (CHOREO2_SRC ++ "choreo2.json") dm "choreo2.json" = (k, Err IOError)).
  { destruct H as [N|(-> & c & S)]; [apply get_file_no_dir, N|]. apply (get_file_kept fetch k _ dm "choreo2.json" c). rewrite motion_proof.join_dir by (exact DM || reflexivity). exact S. }
  rewrite E. auto.
Qed.

(** A download may stop halfway: when only the data file exists, the description is written
    and then IOError is raised. *)
Theorem C103_halfway_refuted home (k : store F) dest c old : directory home -> given dest ->
  let dm := chosen dest (home ++ "/work/data/db/choreo2") in
  In dm (dirs k) -> ~ In (dm ++ "/choreo2.json") (dirs k) -> (forall x, ~ stored k (dm ++ "/choreo2.json") x) -> stored k (dm ++ "/choreo2.npz") old ->
  sends fetch "http://olivier.mangin.com/data/choreo2/choreo2.json" c ->
  exists k', choreo2_download fetch home k dest false = (k', Err IOError) /\ stored k' (dm ++ "/choreo2.json") c /\ stored k' (dm ++ "/choreo2.npz") old.
Proof.
  intros D A dm I ND NS SO SC. rewrite data_steps. unfold choreo2_dir. rewrite (strip_plain home D). fold dm.
  assert (DM : directory dm) by (apply chosen_directory; auto; apply dir_suffix; exists "/work/data/db/choreo", "2"%char; split; [reflexivity|discriminate]).
  assert (JJ : path_join dm "choreo2.json" = dm ++ "/choreo2.json") by (rewrite motion_proof.join_dir by (exact DM || reflexivity); reflexivity).
  assert (JN : path_join dm "choreo2.npz" = dm ++ "/choreo2.npz") by (rewrite motion_proof.join_dir by (exact DM || reflexivity); reflexivity).
  unfold choreo2_steps. cbn [get_files].
  rewrite (get_file_ok fetch false k _ dm "choreo2.json" c I); [|rewrite JJ; split; [exact ND|right; exact NS]|exact SC]. rewrite JJ.
  set (k1 := mkStore _ _). assert (S1 : stored k1 (dm ++ "/choreo2.npz") old).
  { unfold stored, k1. cbn [files]. rewrite sound_proof.sget_set. destruct (String.eqb_spec (dm ++ "/choreo2.json") (dm ++ "/choreo2.npz")) as [E|]; [apply experiment_keys.app_inj_l in E; discriminate|exact SO]. }
  exists k1. rewrite (get_file_kept fetch k1 _ dm "choreo2.npz" old) by (rewrite JN; exact S1). split; [reflexivity|]. split; [|exact S1].
  unfold stored, k1. cbn [files]. rewrite sound_proof.sget_set, String.eqb_refl. reflexivity.
Qed.

(** The year is not checked: year 0 gives ten files of year 0, and IndexError comes after the
    description was written for other years. *)
Theorem C103_year_refuted home (k : store F) year meta_dest features_dest overwrite : directory home -> given meta_dest -> given features_dest ->
  let dm := chosen meta_dest (home ++ "/work/data/db/ACORNS") in let df := chosen features_dest (home ++ "/work/data/features") in
  In dm (dirs k) -> In df (dirs k) ->
  (year = 0%Z -> ready fetch overwrite k (app (acorns_meta "0" dm) (acorns_features "0" df ten_speakers)) ->
     exists k', acorns_download_meta_and_features fetch home k year meta_dest features_dest overwrite = (k', Ok tt) /\
       transferred fetch k k' (app (acorns_meta "0" dm) (acorns_features "0" df ten_speakers))) /\
  (year < -1 \/ 2 < year -> forall y, y = string_of_Z year -> base_name y -> ready fetch overwrite k (acorns_meta y dm) ->
     exists k', acorns_download_meta_and_features fetch home k year meta_dest features_dest overwrite = (k', Err IndexError) /\ transferred fetch k k' (acorns_meta y dm))%Z.
Proof.
  intros D A B dm df IM IF.
  assert (DM : directory dm) by (apply chosen_directory; auto; apply dir_suffix; exists "/work/data/db/ACORN", "S"%char; split; [reflexivity|discriminate]).
  assert (DF : directory df) by (apply chosen_directory; auto; apply dir_suffix; exists "/work/data/feature", "s"%char; split; [reflexivity|discriminate]).
  split.
  - intros -> R. destruct (acorns_plain 0 "0" _ ten_speakers dm df eq_refl DM DF) as (EP & P & ND & U).
    rewrite (acorns_run fetch home k 0 meta_dest features_dest overwrite _ EP). unfold acorns_dir, features_dir. rewrite (strip_plain home D). fold dm. fold df.
    rewrite <- U in *. apply steps_ok; [exact P|exact ND| |exact R].
    intros x [<-|I]; [exact IM|]. apply in_map_iff in I. destruct I as (s & <- & _). exact IF.
  - intros H y EY BY R. rewrite (acorns_bad fetch home k year meta_dest features_dest overwrite (no_year year H)). unfold acorns_dir. rewrite (strip_plain home D). fold dm.
    destruct (steps_ok fetch overwrite [(ACORNS_SRC ++ acorns_model.default_acorns_file year, dm, acorns_model.default_acorns_file year)] k) as (k' & E & T).
    + constructor; [|constructor]. split; [exact DM|]. cbn [snd]. unfold acorns_model.default_acorns_file, acorns_model.format_d. rewrite <- EY.
      apply motion_proof.base_app; [apply base_closed; reflexivity|]. apply motion_proof.base_app; [exact BY|apply base_closed; reflexivity].
    + cbn. repeat constructor; intros [].
    + intros x [<-|[]]. exact IM.
    + cbn [map under fst snd]. unfold acorns_model.default_acorns_file, acorns_model.format_d. rewrite <- EY. exact R.
    + rewrite E. exists k'. split; [reflexivity|]. cbn [map under fst snd] in T. unfold acorns_model.default_acorns_file, acorns_model.format_d in T. rewrite <- EY in T. exact T.
Qed.

(** The script that downloads all datasets never succeeds and never downloads the objects. *)
Definition script_files (home : string) : list (string * string) :=
  app (app (choreo2_data (home ++ "/work/data/db/choreo2")) (choreo2_features (home ++ "/work/data/features")))
      (app (acorns_meta "1" (home ++ "/work/data/db/ACORNS")) (acorns_features "1" (home ++ "/work/data/features") four_speakers)).
Theorem C103_script_refuted home (k : store F) : directory home ->
  exists k' e, download_dbs fetch home k = (k', Err e) /\ only_files k k' (script_files home).
Proof.
  intros D. unfold download_dbs. destruct (choreo2_download_with_features fetch home k None None true) as (k1, r1) eqn:E1.
  pose proof (C103_frame home k k1 None None true r1 D ltac:(discriminate) ltac:(discriminate) E1) as ((D1 & U1) & _). cbn [chosen] in *.
  assert (O1 : only_files k k1 (script_files home)).
  { split; [exact D1|]. intros p N. apply U1. intros I. apply N. unfold script_files. rewrite map_app. apply in_or_app. left. exact I. }
  destruct r1 as [u|e]; [|exists k1, e; split; [reflexivity|exact O1]].
  assert (DM : directory (home ++ "/work/data/db/ACORNS")) by (apply dir_suffix; exists "/work/data/db/ACORN", "S"%char; split; [reflexivity|discriminate]).
  assert (DF : directory (home ++ "/work/data/features")) by (apply dir_suffix; exists "/work/data/feature", "s"%char; split; [reflexivity|discriminate]).
  destruct (acorns_plain 1 "1" _ four_speakers _ _ eq_refl DM DF) as (EP & P & ND & U).
  rewrite (acorns_run fetch home k1 1 None None true _ EP). unfold acorns_dir, features_dir. rewrite (strip_plain home D). cbn [chosen].
  destruct (get_files fetch true k1 _) as (k2, r2) eqn:E2. pose proof (steps_frame fetch true _ k1 k2 r2 P E2) as ((D2 & U2) & _). rewrite U in U2.
  assert (O2 : only_files k k2 (script_files home)).
  { split; [congruence|]. intros p N. unfold unchanged in *. rewrite U2; [apply O1, N|]. intros I. apply N. unfold script_files. rewrite map_app. apply in_or_app. right. exact I. }
  destruct r2 as [u2|e]; [exists k2, TypeError|exists k2, e]; (split; [reflexivity|exact O2]).
Qed.
End Props.
Print Assumptions C103_choreo2.
Print Assumptions C103_acorns.
Print Assumptions C103_objects.
Print Assumptions C103_places.
Print Assumptions C103_frame.
Print Assumptions C103_frame_data.
Print Assumptions C103_frame_acorns.
Print Assumptions C103_frame_acorns_files.
Print Assumptions C103_frame_objects.
Print Assumptions C103_refused.
Print Assumptions C103_halfway_refuted.
Print Assumptions C103_year_refuted.
Print Assumptions C103_script_refuted.

(** ** Examples: a server that sends its addresses *)
Definition server (url : string) : option string * result unit := (Some url, Ok tt).
Definition ex_dirs : list string := map (append "/home/u/work/data") ["/db/choreo2"; "/db/ACORNS"; "/db/objects"; "/features"].
Definition ex_store (fs : list (string * string)) : store string := mkStore fs ex_dirs.
Example C103_ex_home : directory "/home/u".
Proof. exists "/home/", "u"%char. split; [reflexivity|discriminate]. Qed.
Lemma none_given : given None. Proof. intros x E. discriminate. Qed.
Lemma ex_ready overwrite fs l : (overwrite = true \/ fs = []) -> Forall (fun x => ~ In (snd x) ex_dirs) l -> ready server overwrite (ex_store fs) l.
Proof.
  intros H A url p I. rewrite Forall_forall in A. split; [|exists url; reflexivity]. split; [exact (A _ I)|].
  destruct H as [->| ->]; [left; reflexivity|right]. intros c S. discriminate.
Qed.
Ltac not_dirs := repeat constructor; cbn; intuition discriminate.
Example C103_ex_choreo2 : exists k', choreo2_download_with_features server "/home/u" (ex_store []) None None false = (k', Ok tt) /\
  stored k' "/home/u/work/data/features/choreo2_angle_hist.npz" "http://olivier.mangin.com/data/choreo2/choreo2_angle_hist.npz".
Proof.
  destruct (C103_choreo2 server "/home/u" (ex_store []) None None false C103_ex_home none_given none_given) as (k' & E & T & _); cbn; [tauto|tauto|apply ex_ready; [right; reflexivity|not_dirs]|].
  exists k'. split; [exact E|]. destruct (T "http://olivier.mangin.com/data/choreo2/choreo2_angle_hist.npz" "/home/u/work/data/features/choreo2_angle_hist.npz") as (c & [= <-] & S); [cbn; tauto|exact S].
Qed.
Example C103_ex_acorns : exists k', acorns_download_meta_and_features server "/home/u" (ex_store []) 2 None (Some "/home/u/work/data/features") false = (k', Ok tt) /\
  stored k' "/home/u/work/data/features/acorns_HAC_Y2_S10_python.mat" "http://olivier.mangin.com/data/acorns-caregiver/acorns_HAC_Y2_S10_python.mat".
Proof.
  destruct (C103_acorns server "/home/u" (ex_store []) 2 "2" ten_speakers None (Some "/home/u/work/data/features") false C103_ex_home none_given) as (k' & E & T & _).
  - intros x [= <-]. exists "/home/u/work/data/feature", "s"%char. split; [reflexivity|discriminate].
  - right. auto.
  - cbn. tauto.
  - cbn. tauto.
  - apply ex_ready; [right; reflexivity|not_dirs].
  - exists k'. split; [exact E|]. destruct (T "http://olivier.mangin.com/data/acorns-caregiver/acorns_HAC_Y2_S10_python.mat" "/home/u/work/data/features/acorns_HAC_Y2_S10_python.mat") as (c & [= <-] & S);
      [cbn; tauto|exact S].
Qed.
Example C103_ex_objects fs : exists k', objects_download_meta_and_features server "/home/u" (ex_store fs) None true = (k', Ok tt) /\
  stored k' "/home/u/work/data/db/objects/single_object_label.mat" "http://olivier.mangin.com/data/objects/single_object_label.mat".
Proof.
  destruct (C103_objects server "/home/u" (ex_store fs) None true C103_ex_home none_given) as (k' & E & T & _); cbn; [tauto|apply ex_ready; [left; reflexivity|not_dirs]|].
  exists k'. split; [exact E|]. destruct (T "http://olivier.mangin.com/data/objects/single_object_label.mat" "/home/u/work/data/db/objects/single_object_label.mat") as (c & [= <-] & S); [cbn; tauto|exact S].
Qed.
(** The data file is old, the description becomes new. *)
Example C103_ex_halfway : exists k', choreo2_download server "/home/u" (ex_store [("/home/u/work/data/db/choreo2/choreo2.npz", "old")]) None false = (k', Err IOError) /\
  stored k' "/home/u/work/data/db/choreo2/choreo2.json" "http://olivier.mangin.com/data/choreo2/choreo2.json" /\ stored k' "/home/u/work/data/db/choreo2/choreo2.npz" "old".
Proof.
  apply (C103_halfway_refuted server "/home/u" _ None "http://olivier.mangin.com/data/choreo2/choreo2.json" "old" C103_ex_home none_given); cbn; try tauto; try reflexivity;
    [intuition discriminate|intros x S; discriminate].
Qed.
Example C103_ex_refused : choreo2_download server "/home/u" (mkStore [] []) None true = (mkStore [] [], Err IOError).
Proof. apply (C103_refused server "/home/u" (mkStore [] []) None None true C103_ex_home none_given). left. intros []. Qed.
Example C103_ex_year : exists k', acorns_download_meta_and_features server "/home/u" (ex_store []) 3 None None false = (k', Err IndexError) /\
  stored k' "/home/u/work/data/db/ACORNS/Acorns_Y3.json" "http://olivier.mangin.com/data/acorns-caregiver/Acorns_Y3.json".
Proof.
  destruct (C103_year_refuted server "/home/u" (ex_store []) 3 None None false C103_ex_home none_given none_given) as (_ & H); cbn; [tauto|tauto|].
  destruct (H ltac:(lia) "3" eq_refl) as (k' & E & T & _); [intros I; cbn in I; intuition discriminate|apply ex_ready; [right; reflexivity|not_dirs]|].
  exists k'. split; [exact E|]. destruct (T _ _ (or_introl eq_refl)) as (c & [= <-] & S). exact S.
Qed.
Example C103_ex_script : exists k', download_dbs server "/home/u" (ex_store []) = (k', Err TypeError) /\ List.length (files k') = 8 /\
  forall c, ~ stored k' "/home/u/work/data/db/objects/single_object_label.json" c.
Proof. eexists. split; [vm_compute; reflexivity|]. split; [reflexivity|]. intros c S. discriminate. Qed.
