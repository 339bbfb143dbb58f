(** * Proofs on downloads. *)

From Coq Require Import List ZArith Arith Bool String Ascii Lia.
Import ListNotations.
From Verif Require Import Py Py_proof logger_model logger_file sound_model sound_spec sound_proof sound_file motion_model motion_spec motion_proof motion_file
  choreo2_model choreo2_proof download_model download_spec experiment_keys.
From Verif Require acorns_model.
Open Scope py_scope.
Local Open Scope string_scope.

Section Download.
Context {F : Type}.
Variable fetch : string -> option F * result unit.
Notation store := (store F).

Lemma is_dir_in (k : store) p : is_dir k p = true <-> In p (dirs k).
Proof.
  unfold is_dir. rewrite existsb_exists. split; [intros (q & I & E); apply String.eqb_eq in E; subst q; exact I|].
  intros I. exists p. split; [exact I|apply String.eqb_refl].
Qed.
Lemma not_dir (k : store) p : is_dir k p = false <-> ~ In p (dirs k).
Proof. rewrite <- not_true_iff_false, is_dir_in. tauto. Qed.
Lemma is_file_stored (k : store) p : is_file k p = true <-> exists c, stored k p c.
Proof. unfold is_file, stored. destruct (dict_get _ _ _); split; intros H; eauto; try discriminate. destruct H; discriminate. Qed.

(** The place of a step. *)
Definition place (x : string * string * string) : string * string := (fst (fst x), path_join (snd (fst x)) (snd x)).

(** ** One file *)
Lemma get_file_frame ow (k k' : store) url path name r : get_file fetch ow k url path name = (k', r) ->
  dirs k' = dirs k /\ (forall p, p <> path_join path name -> unchanged k k' p) /\ (ow = false -> nothing_lost k k').
Proof.
  unfold get_file. destruct (check_destination_path k path name ow) as [p|e] eqn:E.
  2: { intros [= <- <-]. split; [reflexivity|]. split; [intros; reflexivity|intros _ q c H; exact H]. }
  unfold check_destination_path in E. destruct (is_dir k path); cbn [negb] in E; [|discriminate].
  destruct ((is_file k (path_join path name) || is_dir k (path_join path name)) && negb ow) eqn:B; [discriminate|]. injection E as <-.
  unfold urlretrieve. destruct (is_dir k (path_join path name)); [intros [= <- <-]; split; [reflexivity|]; split; [intros; reflexivity|intros _ q c H; exact H]|].
  destruct (fetch url) as ([c|], r'); intros [= <- <-]; (split; [reflexivity|]); (split; [|intros EO]).
  - intros q N. unfold unchanged. cbn [files]. rewrite sget_set. destruct (String.eqb_spec (path_join path name) q); [congruence|reflexivity].
  - intros q d H. unfold stored in *. cbn [files]. rewrite sget_set. destruct (String.eqb_spec (path_join path name) q) as [<-|]; [|exact H].
    exfalso. subst ow. cbn [negb] in B. rewrite andb_true_r, orb_false_iff in B. destruct B as (B & _). unfold is_file in B. rewrite H in B. discriminate.
  - intros q N. reflexivity.
  - intros q d H. exact H.
Qed.
Lemma get_file_ok ow (k : store) url path name c : In path (dirs k) -> free_place ow k (path_join path name) -> sends fetch url c ->
  get_file fetch ow k url path name = (mkStore (dict_set String.eqb (files k) (path_join path name) c) (dirs k), Ok tt).
Proof.
  intros D (ND & FR) S. unfold get_file, check_destination_path. apply is_dir_in in D. rewrite D. cbn [negb]. apply not_dir in ND. rewrite ND, orb_false_r.
  replace (is_file k (path_join path name) && negb ow) with false.
  2: { destruct FR as [-> |FR]; [rewrite andb_false_r; reflexivity|]. unfold is_file. destruct (dict_get _ _ _) as [c'|] eqn:E; [destruct (FR c' E)|reflexivity]. }
  unfold urlretrieve. rewrite ND. unfold sends in S. rewrite S. reflexivity.
Qed.
Lemma get_file_no_dir ow (k : store) url path name : ~ In path (dirs k) -> get_file fetch ow k url path name = (k, Err IOError).
Proof. intros D. unfold get_file, check_destination_path. apply not_dir in D. rewrite D. reflexivity. Qed.
Lemma get_file_kept (k : store) url path name c : stored k (path_join path name) c -> get_file fetch false k url path name = (k, Err IOError).
Proof.
  intros S. unfold get_file, check_destination_path. destruct (is_dir k path); [|reflexivity]. cbn [negb]. unfold is_file. unfold stored in S. rewrite S. reflexivity.
Qed.

(** ** Several files *)
Lemma get_files_frame ow l : forall (k k' : store) r, get_files fetch ow k l = (k', r) ->
  only_files k k' (map place l) /\ (ow = false -> nothing_lost k k').
Proof.
  induction l as [|((url, path), name) l IH]; intros k k' r; cbn [get_files].
  - intros [= <- <-]. split; [split; [reflexivity|intros p N; reflexivity]|intros _ p c H; exact H].
  - destruct (get_file fetch ow k url path name) as (k1, [u|e]) eqn:E; apply get_file_frame in E; destruct E as (D & U & N).
    + intros H. apply IH in H. destruct H as ((D' & U') & N'). split; [split; [congruence|]|].
      * intros p NI. cbn [map place fst snd] in NI. unfold unchanged in *. rewrite U' by (intros I; apply NI; right; exact I). apply U. intros ->. apply NI. left. reflexivity.
      * intros EO p c S. apply (N' EO), (N EO), S.
    + intros [= <- <-]. split; [split; [exact D|]|exact N]. intros p NI. apply U. intros ->. apply NI. left. reflexivity.
Qed.
Lemma get_files_ok ow l : forall k : store, NoDup (map snd (map place l)) -> (forall x, In x l -> In (snd (fst x)) (dirs k)) -> ready fetch ow k (map place l) ->
  exists k', get_files fetch ow k l = (k', Ok tt) /\ transferred fetch k k' (map place l).
Proof.
  induction l as [|((url, path), name) l IH]; intros k ND D R.
  - exists k. split; [reflexivity|]. split; [intros ? ? []|]. split; [reflexivity|intros p N; reflexivity].
  - cbn [get_files map place fst snd] in *. inversion ND as [|? ? NI ND']; subst. destruct (R url (path_join path name) (or_introl eq_refl)) as (FP & c & S).
    rewrite (get_file_ok ow k url path name c (D (url, path, name) (or_introl eq_refl)) FP S). set (k1 := mkStore _ _).
    assert (U : forall p, p <> path_join path name -> unchanged k k1 p).
    { intros p N. unfold unchanged, k1. cbn [files]. rewrite sget_set. destruct (String.eqb_spec (path_join path name) p); [congruence|reflexivity]. }
    destruct (IH k1 ND') as (k' & E & T & DD & UU).
    + intros x I. exact (D x (or_intror I)).
    + intros u p I. destruct (R u p (or_intror I)) as ((A & B) & C). split; [split; [exact A|]|exact C]. destruct B as [B|B]; [left; exact B|right]. intros c' S'. apply (B c').
      unfold stored in *. rewrite <- (U p); [exact S'|]. intros ->. apply NI. apply in_map_iff. exists (u, path_join path name). split; [reflexivity|exact I].
    + exists k'. split; [exact E|]. split; [|split; [rewrite DD; reflexivity|]].
      * intros u p [[= <- <-]|I]; [|exact (T u p I)]. exists c. split; [exact S|]. unfold stored. rewrite (UU _ NI). unfold k1. cbn [files]. rewrite sget_set, String.eqb_refl. reflexivity.
      * intros p N. unfold unchanged in *. rewrite UU by (intros I; apply N; right; exact I). apply U. intros ->. apply N. left. reflexivity.
Qed.
Lemma get_files_app ow a b (k : store) : get_files fetch ow k (a ++ b) =
  match get_files fetch ow k a with (k1, Ok _) => get_files fetch ow k1 b | (k1, Err e) => (k1, Err e) end.
Proof.
  revert k. induction a as [|((url, path), name) a IH]; intros k; cbn [get_files app]; [reflexivity|].
  destruct (get_file fetch ow k url path name) as (k1, [u|e]); [apply IH|reflexivity].
Qed.

(** ** The functions as lists of files *)
Lemma base_dotless s : before_last_dot s = None -> splitext_root s = s.
Proof. unfold splitext_root. intros ->. reflexivity. Qed.
Lemma basename_join d f : base_name f -> basename (d ++ "/" ++ f) = f.
Proof.
  intros B. induction d as [|c d IH].
  - change ("" ++ "/" ++ f) with (String "/"%char f). cbn [basename list_ascii_of_string existsb]. rewrite Ascii.eqb_refl. cbn [orb].
    destruct f as [|c f]; [reflexivity|]. cbn [basename]. replace (existsb (Ascii.eqb "/"%char) (list_ascii_of_string (String c f))) with false; [reflexivity|].
    symmetry. apply not_true_iff_false. rewrite existsb_exists. intros (x & I & E). apply Ascii.eqb_eq in E. subst x. exact (B I).
  - change (String c d ++ "/" ++ f) with (String c (d ++ "/" ++ f)). cbn [basename]. rewrite IH.
    replace (existsb (Ascii.eqb "/"%char) (list_ascii_of_string (String c (d ++ "/" ++ f)))) with true; [reflexivity|]. symmetry. rewrite existsb_exists.
    exists "/"%char. split; [|apply Ascii.eqb_refl]. right. clear. induction d as [|c d IH]; [left; reflexivity|right; exact IH].
Qed.

Definition choreo2_dir (home : string) := strip_slashes home ++ "/work/data/db/choreo2".
Definition features_dir (home : string) := strip_slashes home ++ "/work/data/features".
Definition acorns_dir (home : string) := strip_slashes home ++ "/work/data/db/ACORNS".
Definition objects_dir (home : string) := strip_slashes home ++ "/work/data/db/objects".

Lemma db_sub home s : plain_name s -> path_join (db_dir home) s = strip_slashes home ++ "/work/data/db/" ++ s.
Proof.
  intros P. unfold db_dir. rewrite (data_dir_eq home "db") by reflexivity. rewrite join_dir; [|apply dir_suffix; exists "/work/data/d", "b"%char; split; [reflexivity|discriminate]|].
  - rewrite !sound_count.append_assoc. reflexivity.
  - destruct P as (NE & NS). destruct s as [|c s]; [congruence|]. cbn. destruct (Ascii.eqb_spec c "/"%char) as [->|]; [destruct NS; left; reflexivity|reflexivity].
Qed.
Lemma feat_dir_eq home : feat_dir home = features_dir home.
Proof. unfold feat_dir, features_dir. rewrite (data_dir_eq home "features") by reflexivity. reflexivity. Qed.
Lemma features_directory home : directory (features_dir home).
Proof. apply dir_suffix. exists "/work/data/feature", "s"%char. split; [reflexivity|discriminate]. Qed.

Lemma get_dest_eq home dest ext : get_dest home dest ext = (chosen dest (choreo2_dir home), if ext then "choreo2.json" else "choreo2").
Proof. clear fetch F.
  unfold get_dest. destruct dest as [d|]; cbn [chosen]; [destruct ext; reflexivity|].
  unfold default_db_file. rewrite db_dest, join_dir by (apply dest_dir || reflexivity).
  assert (B : base_name "choreo2.json") by (intros I; cbn in I; intuition discriminate).
  rewrite (dirname_join _ _ (dest_dir home) B), (basename_join _ _ B). unfold choreo2_dir. destruct ext; reflexivity.
Qed.
Definition choreo2_steps (dm : string) : list (string * string * string) :=
  [(CHOREO2_SRC ++ "choreo2.json", dm, "choreo2.json"); (CHOREO2_SRC ++ "choreo2.npz", dm, "choreo2.npz")].
Definition choreo2_all dm df : list (string * string * string) := app (choreo2_steps dm) [(CHOREO2_SRC ++ "choreo2_angle_hist.npz", df, "choreo2_angle_hist.npz")].
Lemma meta_steps home (k : store) dest ow : choreo2_download_meta fetch home k dest ow =
  get_files fetch ow k [(CHOREO2_SRC ++ "choreo2.json", chosen dest (choreo2_dir home), "choreo2.json")].
Proof. unfold choreo2_download_meta. rewrite get_dest_eq. reflexivity. Qed.
Lemma data_steps home (k : store) dest ow : choreo2_download fetch home k dest ow = get_files fetch ow k (choreo2_steps (chosen dest (choreo2_dir home))).
Proof. unfold choreo2_download. rewrite get_dest_eq. reflexivity. Qed.
Lemma all_steps home (k : store) dm df ow : choreo2_download_with_features fetch home k dm df ow =
  get_files fetch ow k (choreo2_all (chosen dm (choreo2_dir home)) (chosen df (features_dir home))).
Proof.
  unfold choreo2_download_with_features, choreo2_all. rewrite get_files_app, data_steps. destruct (get_files fetch ow k _) as (k1, [u|e]); [|reflexivity].
  replace (or_default df (feat_dir home)) with (chosen df (features_dir home)) by (destruct df; [reflexivity|symmetry; exact (feat_dir_eq home)]). reflexivity.
Qed.
Definition acorns_steps (year : Z) (dm df : string) (speakers : list Z) : list (string * string * string) :=
  (ACORNS_SRC ++ acorns_model.default_acorns_file year, dm, acorns_model.default_acorns_file year) ::
  map (fun s => (ACORNS_SRC ++ acorns_model.feature_file_name year s, df, acorns_model.feature_file_name year s)) speakers.
Lemma acorns_run home (k : store) year dm df ow speakers : py_nth ALL_SPEAKERS (year - 1) = Ok speakers ->
  acorns_download_meta_and_features fetch home k year dm df ow = get_files fetch ow k (acorns_steps year (chosen dm (acorns_dir home)) (chosen df (features_dir home)) speakers).
Proof.
  intros E. unfold acorns_download_meta_and_features, acorns_steps. rewrite E.
  replace (or_default dm (acorns_model.default_acorns_dir (db_dir home))) with (chosen dm (acorns_dir home)).
  2: { destruct dm; [reflexivity|]. cbn [or_default chosen]. unfold acorns_model.default_acorns_dir. rewrite (db_sub home "ACORNS"); [reflexivity|].
       split; [discriminate|]. intros I; cbn in I; intuition discriminate. }
  replace (or_default df (feat_dir home)) with (chosen df (features_dir home)) by (destruct df; [reflexivity|symmetry; exact (feat_dir_eq home)]).
  match goal with |- _ = get_files _ _ _ (?x :: ?l) => change (x :: l) with (app [x] l) end. rewrite get_files_app. reflexivity.
Qed.
Lemma acorns_bad home (k : store) year dm df ow : py_nth ALL_SPEAKERS (year - 1) = Err IndexError ->
  acorns_download_meta_and_features fetch home k year dm df ow =
    match get_files fetch ow k [(ACORNS_SRC ++ acorns_model.default_acorns_file year, chosen dm (acorns_dir home), acorns_model.default_acorns_file year)] with
    | (k1, Ok _) => (k1, Err IndexError) | (k1, Err e) => (k1, Err e) end.
Proof.
  intros E. unfold acorns_download_meta_and_features. rewrite E.
  replace (or_default dm (acorns_model.default_acorns_dir (db_dir home))) with (chosen dm (acorns_dir home)); [reflexivity|].
  destruct dm; [reflexivity|]. cbn [or_default chosen]. unfold acorns_model.default_acorns_dir. rewrite (db_sub home "ACORNS"); [reflexivity|].
  split; [discriminate|]. intros I; cbn in I; intuition discriminate.
Qed.
Definition object_steps (d : string) : list (string * string * string) :=
  [(OBJECTS_SRC ++ "single_object_label.json", d, "single_object_label.json"); (OBJECTS_SRC ++ "single_object_label.mat", d, "single_object_label.mat")].
Lemma object_place home b : objects_db_file home b = objects_dir home ++ "/" ++ "single_object_label" ++ (if b then ".json" else "").
Proof. clear fetch F.
  unfold objects_db_file. rewrite (db_sub home "objects") by (split; [discriminate|intros I; cbn in I; intuition discriminate]).
  rewrite join_dir; [|apply dir_suffix; exists "/work/data/db/object", "s"%char; split; [reflexivity|discriminate]|destruct b; reflexivity].
  unfold objects_dir. rewrite !sound_count.append_assoc. reflexivity.
Qed.
Lemma object_run home (k : store) dest ow : objects_download_meta_and_features fetch home k dest ow = get_files fetch ow k (object_steps (chosen dest (objects_dir home))).
Proof.
  unfold objects_download_meta_and_features. rewrite object_place. change ("single_object_label" ++ "") with "single_object_label".
  assert (B : base_name "single_object_label") by (intros I; cbn in I; intuition discriminate).
  assert (D : directory (objects_dir home)) by (apply dir_suffix; exists "/work/data/db/object", "s"%char; split; [reflexivity|discriminate]).
  rewrite (dirname_join _ _ D B), (basename_join _ _ B). replace (or_default dest (objects_dir home)) with (chosen dest (objects_dir home)) by (destruct dest; reflexivity). reflexivity.
Qed.

(** ** Places *)
Definition plain_step (x : string * string * string) : Prop := directory (snd (fst x)) /\ base_name (snd x).
Definition under (x : string * string * string) : string * string := (fst (fst x), snd (fst x) ++ "/" ++ snd x).
Lemma places l : Forall plain_step l -> map place l = map under l.
Proof.
  intros H. induction H as [|((u, d), n) l (D & B) H IH]; [reflexivity|]. cbn [fst snd] in D, B. cbn [map]. rewrite IH. f_equal. unfold place, under. cbn [fst snd]. rewrite (join_dir d n D (starts_base n B)). reflexivity.
Qed.
Lemma places_distinct l : Forall plain_step l -> NoDup (map snd l) -> NoDup (map snd (map under l)).
Proof.
  intros H ND. apply (NoDup_map_inv basename). replace (map basename (map snd (map under l))) with (map snd l); [exact ND|].
  clear ND. induction H as [|((u, d), n) l (D & B) H IH]; [reflexivity|]. cbn [fst snd] in D, B. cbn [map snd]. rewrite IH. f_equal. unfold under. cbn [fst snd]. rewrite (basename_join d n B). reflexivity.
Qed.
Lemma steps_ok ow l (k : store) : Forall plain_step l -> NoDup (map snd l) -> (forall x, In x l -> In (snd (fst x)) (dirs k)) -> ready fetch ow k (map under l) ->
  exists k', get_files fetch ow k l = (k', Ok tt) /\ transferred fetch k k' (map under l).
Proof.
  intros P ND D R. destruct (get_files_ok ow l k) as (k' & E & T); [rewrite (places l P); apply places_distinct; assumption|exact D|rewrite (places l P); exact R|].
  exists k'. split; [exact E|]. rewrite <- (places l P). exact T.
Qed.
Lemma steps_frame ow l (k k' : store) r : Forall plain_step l -> get_files fetch ow k l = (k', r) -> only_files k k' (map under l) /\ (ow = false -> nothing_lost k k').
Proof. intros P E. apply get_files_frame in E. rewrite (places l P) in E. exact E. Qed.

Lemma choreo2_directory home : directory (choreo2_dir home). Proof. exact (dest_dir home). Qed.
Lemma acorns_directory home : directory (acorns_dir home).
Proof. apply dir_suffix. exists "/work/data/db/ACORN", "S"%char. split; [reflexivity|discriminate]. Qed.
Lemma objects_directory home : directory (objects_dir home).
Proof. apply dir_suffix. exists "/work/data/db/object", "s"%char. split; [reflexivity|discriminate]. Qed.
Lemma chosen_directory o d : directory d -> (forall x, o = Some x -> directory x) -> directory (chosen o d).
Proof. intros D H. destruct o; [apply H; reflexivity|exact D]. Qed.

Lemma choreo2_plain dm df : directory dm -> directory df -> Forall plain_step (choreo2_all dm df).
Proof. clear fetch F. intros A B. repeat constructor; auto; intros I; cbn in I; intuition discriminate. Qed.
Lemma choreo2_names dm df : NoDup (map snd (choreo2_all dm df)).
Proof. clear fetch F. cbn. repeat constructor; cbn; intuition discriminate. Qed.
Lemma choreo2_under dm df : map under (choreo2_all dm df) = app (choreo2_data dm) (choreo2_features df). Proof. reflexivity. Qed.
Lemma object_plain d : directory d -> Forall plain_step (object_steps d).
Proof. clear fetch F. intros A. repeat constructor; auto; intros I; cbn in I; intuition discriminate. Qed.

Lemma base_closed l : (forallb (fun c => negb (Ascii.eqb c slash)) (list_ascii_of_string l) = true) -> base_name l.
Proof. intros H I. rewrite forallb_forall in H. specialize (H _ I). rewrite Ascii.eqb_refl in H. discriminate. Qed.

(** The years for which there are lists of speakers. *)
Definition year_speakers (year : Z) : option (string * list Z * list string) :=
  match year with
  | 1%Z => Some ("1", map Z.of_nat (seq 0 4), four_speakers)
  | 2%Z => Some ("2", map Z.of_nat (seq 0 10), ten_speakers)
  | 0%Z => Some ("0", map Z.of_nat (seq 0 10), ten_speakers)
  | _ => None
  end.
Lemma acorns_plain year y zs ss dm df : year_speakers year = Some (y, zs, ss) -> directory dm -> directory df ->
  py_nth ALL_SPEAKERS (year - 1) = Ok zs /\ Forall plain_step (acorns_steps year dm df zs) /\ NoDup (map snd (acorns_steps year dm df zs)) /\
  map under (acorns_steps year dm df zs) = app (acorns_meta y dm) (acorns_features y df ss).
Proof. clear fetch F.
  intros E A B. assert (C : (year = 0 \/ year = 1 \/ year = 2)%Z) by (unfold year_speakers in E; destruct year as [|[|[]|]|]; try discriminate; auto).
  destruct C as [->|[->| ->]]; injection E as <- <- <-; (split; [reflexivity|]); (split; [|split; [|reflexivity]]);
    try (repeat constructor; cbn [fst snd]; auto; apply base_closed; vm_compute; reflexivity);
    match goal with |- NoDup ?l => let l' := eval vm_compute in l in change l with l' end; repeat constructor; cbn; intuition discriminate.
Qed.
Lemma no_year year : (year < -1 \/ 2 < year)%Z -> py_nth ALL_SPEAKERS (year - 1) = Err IndexError.
Proof.
  intros H. unfold py_nth. replace (norm_index (List.length ALL_SPEAKERS) (year - 1)) with (@Err nat IndexError); [reflexivity|].
  unfold norm_index. change (Z.of_nat (List.length ALL_SPEAKERS)) with 2%Z. 
  repeat match goal with |- context [Z.ltb ?a ?b] => destruct (Z.ltb_spec a b) | |- context [Z.leb ?a ?b] => destruct (Z.leb_spec a b) end; cbn [andb]; try reflexivity; lia.
Qed.
End Download.
