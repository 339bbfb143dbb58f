(** * Proofs on the first choreography dataset. *)

From Coq Require Import List ZArith Arith Bool String Ascii Lia.
Import ListNotations.
From Verif Require Import Py Py_proof logger_model serial_model sound_model sound_spec motion_model motion_spec motion_proof angle_model choreo2_model choreo1_model choreo1_spec.
Open Scope py_scope.
Local Open Scope string_scope.

Section Choreo1.
Context {Arr : Type}.
Notation val := (logger_model.val Arr).

Lemma item_found (v : val) k x : has_item v k x -> item v k = Ok x.
Proof.
  intros (d & -> & I & ND). cbn [item]. replace (find _ d) with (Some (KStr k, x)); [reflexivity|]. symmetry.
  induction d as [|(q, y) d IH]; [destruct I|]. cbn [map fst] in ND. inversion ND as [|? ? NI ND']; subst. cbn [find fst]. destruct I as [[= -> ->]|I].
  - rewrite String.eqb_refl. reflexivity.
  - destruct q; try (apply IH; assumption).
    + match goal with |- context [String.eqb ?s k] => destruct (String.eqb_spec s k) as [-> |] end; [|apply IH; assumption]. destruct NI. apply in_map_iff. exists (KStr k, x). split; [reflexivity|exact I].
Qed.
Lemma arch_found {V} (arch : list (string * V)) t a : In (t, a) arch -> NoDup (map fst arch) -> dict_get String.eqb arch t = Some a.
Proof.
  induction arch as [|(q, x) arch IH]; [intros []|]. cbn [map fst dict_get]. intros I ND. inversion ND as [|? ? NI ND']; subst. destruct I as [[= -> ->]|I]; [rewrite String.eqb_refl; reflexivity|].
  destruct (String.eqb_spec q t) as [->|]; [|auto]. destruct NI. apply in_map_iff. exists (t, a). split; [reflexivity|exact I].
Qed.
Lemma record_ok arch (e : val) a ls : NoDup (map fst arch) -> entry_of arch e a ls -> load_record arch e = Ok (a, ls).
Proof.
  intros ND (i & l & t & HI & T & IA & HL). unfold load_record. rewrite (item_found _ _ _ HI). cbn [bind].
  assert (S : str_of_val i = Ok t) by (destruct T as [(-> & ->)| ->]; reflexivity). rewrite S. cbn [bind]. rewrite (arch_found _ _ _ IA ND). cbn [bind].
  rewrite (item_found _ _ _ HL). reflexivity.
Qed.
Lemma known dataset : existsb (String.eqb dataset) DATASETS = true <-> dataset = "primitive" \/ dataset = "mixed_partial" \/ dataset = "mixed_full".
Proof.
  unfold DATASETS. cbn [existsb]. rewrite !orb_true_iff, !String.eqb_eq. intuition discriminate.
Qed.
Lemma base_json dataset : existsb (String.eqb dataset) DATASETS = true -> base_name (dataset ++ ".json").
Proof. intros H. apply known in H. destruct H as [->|[->| ->]]; intros I; cbn in I; intuition discriminate. Qed.

Lemma loaded v home (k : motion_model.disk Arr) dataset data_path dir data labels markers : directory dir ->
  data_path = Some dir \/ data_path = None /\ dir = path_join (db_dir home) "choreo" ->
  dataset = "primitive" \/ dataset = "mixed_partial" \/ dataset = "mixed_full" ->
  files_of k dir dataset data labels markers ->
  load v home k dataset data_path = match v return result (list Arr * list val * val) with Python2 => Ok (data, labels, VList (map VStr markers)) | Python3 => Err TypeError end.
Proof.
  intros D P KN (meta & df & arch & entries & name & EJ & HDF & BD & EN & ND & HR & HN & HM & F & L). apply known in KN.
  unfold load. assert (EP : or_default data_path (path_join (db_dir home) "choreo") = dir) by (destruct P as [->|(-> & ->)]; reflexivity). rewrite EP, KN.
  pose proof (base_json dataset KN) as B. rewrite (join_dir dir _ D (starts_base _ B)), EJ. cbn [bind]. rewrite (item_found _ _ _ HDF). cbn [bind as_string].
  rewrite (dirname_join dir _ D B), (join_dir dir _ D (starts_base _ BD)), EN. cbn [bind]. rewrite (item_found _ _ _ HR). cbn [bind iter].
  assert (EM : mapM (load_record arch) entries = Ok (combine data labels)).
  { apply mapM_ok. clear -F ND. induction F as [|e (a, ls) es xs H F IH]; constructor; [|exact IH]. apply record_ok; assumption. }
  rewrite EM. cbn [bind]. rewrite (item_found _ _ _ HN). cbn [bind]. rewrite (item_found _ _ _ HM). cbn [bind iter].
  assert (ES : mapM (@as_string Arr) (map VStr markers) = Ok markers) by (clear; induction markers as [|m ms IH]; [reflexivity|cbn [map mapM as_string bind]; rewrite IH; reflexivity]).
  rewrite ES. cbn [bind]. destruct v; [|reflexivity]. f_equal. f_equal. f_equal.
  - clear -L. revert labels L. induction data as [|a data IH]; intros [|b labels] L; cbn in *; try discriminate; [reflexivity|f_equal; apply IH; lia].
  - clear -L. revert labels L. induction data as [|a data IH]; intros [|b labels] L; cbn in *; try discriminate; [reflexivity|f_equal; apply IH; lia].
Qed.
Lemma missing v home (k : motion_model.disk Arr) dataset dir : directory dir ->
  dataset = "primitive" \/ dataset = "mixed_partial" \/ dataset = "mixed_full" ->
  dict_get String.eqb (k_json k) (dir ++ "/" ++ dataset ++ ".json") = None \/
  (exists meta df, dict_get String.eqb (k_json k) (dir ++ "/" ++ dataset ++ ".json") = Some (Some meta) /\ has_item meta "data-file" (VStr df) /\ base_name df /\
     dict_get String.eqb (k_npz k) (dir ++ "/" ++ df) = None) ->
  load v home k dataset (Some dir) = Err IOError.
Proof.
  intros D KN H. apply known in KN. unfold load. cbn [or_default]. rewrite KN. pose proof (base_json dataset KN) as B. rewrite (join_dir dir _ D (starts_base _ B)).
  destruct H as [->|(meta & df & -> & HDF & BD & EN)]; [reflexivity|]. cbn [bind]. rewrite (item_found _ _ _ HDF). cbn [bind as_string].
  rewrite (dirname_join dir _ D B), (join_dir dir _ D (starts_base _ BD)), EN. reflexivity.
Qed.
Lemma missing_array v home (k : motion_model.disk Arr) dataset dir meta df arch es1 e es2 xs t : directory dir ->
  dataset = "primitive" \/ dataset = "mixed_partial" \/ dataset = "mixed_full" ->
  dict_get String.eqb (k_json k) (dir ++ "/" ++ dataset ++ ".json") = Some (Some meta) -> has_item meta "data-file" (VStr df) -> base_name df ->
  dict_get String.eqb (k_npz k) (dir ++ "/" ++ df) = Some arch -> NoDup (map fst arch) ->
  has_item meta "records" (VList (es1 ++ e :: es2)%list) -> Forall2 (fun e x => entry_of arch e (fst x) (snd x)) es1 xs ->
  has_item e "data-id" (VStr t) -> ~ In t (map fst arch) ->
  load v home k dataset (Some dir) = Err KeyError.
Proof.
  intros D KN EJ HDF BD EN ND HR F HI NI. apply known in KN. unfold load. cbn [or_default]. rewrite KN. pose proof (base_json dataset KN) as B.
  rewrite (join_dir dir _ D (starts_base _ B)), EJ. cbn [bind]. rewrite (item_found _ _ _ HDF). cbn [bind as_string].
  rewrite (dirname_join dir _ D B), (join_dir dir _ D (starts_base _ BD)), EN. cbn [bind]. rewrite (item_found _ _ _ HR). cbn [bind iter].
  assert (EM : mapM (load_record arch) (es1 ++ e :: es2)%list = Err KeyError); [|rewrite EM; reflexivity].
  clear -F HI NI ND. induction F as [|e1 (a, ls) es xs H F IH]; cbn [app mapM].
  - assert (X : load_record arch e = Err KeyError); [|rewrite X; reflexivity]. unfold load_record. rewrite (item_found _ _ _ HI). cbn [bind str_of_val].
    destruct (dict_get String.eqb arch t) as [a|] eqn:E; [|reflexivity]. exfalso. apply NI. revert E. clear. induction arch as [|(q, w) fs IH]; cbn; [discriminate|].
    destruct (String.eqb_spec q t) as [->|]; auto.
  - rewrite (record_ok _ _ _ _ ND H). cbn [bind]. rewrite IH. reflexivity.
Qed.
Lemma unknown v home (k : motion_model.disk Arr) dataset data_path : ~ (dataset = "primitive" \/ dataset = "mixed_partial" \/ dataset = "mixed_full") ->
  load v home k dataset data_path = Err ValueError.
Proof. intros N. unfold load. destruct (existsb (String.eqb dataset) DATASETS) eqn:E; [apply known in E; contradiction|reflexivity]. Qed.
Lemma never_python3 home (k : motion_model.disk Arr) dataset data_path x : load Python3 home k dataset data_path <> Ok x.
Proof.
  unfold load. destruct (existsb _ _); [|discriminate]. intros E.
  repeat match type of E with bind ?r _ = _ => destruct r; cbn [bind] in E; [|discriminate] end. discriminate.
Qed.
(** What Python 2 gives comes from the files. *)
Lemma from_files home (k : motion_model.disk Arr) dataset data_path data labels markers : load Python2 home k dataset data_path = Ok (data, labels, markers) ->
  List.length data = List.length labels /\ exists p arch, dict_get String.eqb (k_npz k) p = Some arch /\ Forall (fun a => exists t, In (t, a) arch) data.
Proof.
  unfold load. destruct (existsb _ _); [|discriminate]. intros E.
  destruct (dict_get String.eqb (k_json k) _) as [[m|]|]; cbn [bind] in E; try discriminate.
  destruct (item m "data-file") as [df|]; cbn [bind] in E; [|discriminate]. destruct (as_string df) as [f|]; cbn [bind] in E; [|discriminate].
  destruct (dict_get String.eqb (k_npz k) _) as [arch|] eqn:EA; cbn [bind] in E; [|discriminate].
  destruct (item m "records") as [rs|]; cbn [bind] in E; [|discriminate]. destruct (iter rs) as [es|]; cbn [bind] in E; [|discriminate].
  destruct (mapM (load_record arch) es) as [xs|] eqn:EM; cbn [bind] in E; [|discriminate].
  repeat match type of E with bind ?r _ = _ => destruct r; cbn [bind] in E; [|discriminate] end. injection E as <- <- <-. split; [rewrite !map_length; reflexivity|].
  exists (path_join (dirname (path_join (or_default data_path (path_join (db_dir home) "choreo")) (dataset ++ ".json"))) f), arch. split; [exact EA|].
  apply mapM_ok in EM. induction EM as [|e (a, ls) es xs H F IH]; cbn [map fst]; constructor; [|exact IH]. unfold load_record in H.
  destruct (item e "data-id") as [i|]; cbn [bind] in H; [|discriminate]. destruct (str_of_val i) as [t|]; cbn [bind] in H; [|discriminate].
  destruct (dict_get String.eqb arch t) as [a'|] eqn:G; cbn [bind] in H; [|discriminate]. destruct (item e "labels"); cbn [bind] in H; [|discriminate]. injection H as <- <-.
  exists t. clear -G. induction arch as [|(q, x) arch IH]; cbn [dict_get] in G; [discriminate|]. destruct (String.eqb_spec q t) as [->|]; [injection G as ->; left; reflexivity|right; auto].
Qed.
End Choreo1.
