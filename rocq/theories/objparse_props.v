(** * Theorems on the parsing of the objects dataset (C108). *)

From Coq Require Import List ZArith Arith Bool String Ascii Reals QArith Lia Lra Sorted.
Import ListNotations.
From Verif Require Import Py logger_model serial_model sound_model sound_spec nd_model nd_spec motion_model download_model
  objects_model objects_spec objects_proof objects_read objects_build objects_file objparse_model objparse_spec objparse_proof.
Local Open Scope nat_scope.
Local Open Scope string_scope.

Section Theorems.
Variable int_of : string -> result Z.
Variable time_of : string -> result Q.
Variable float_of : string -> result R.
Variable abspath : string -> string.
Variable other : string -> bool.
Notation run := (run_parse_objects int_of time_of float_of abspath other).

(** What the script writes is loaded by default: the frames that could be read, with the
    names of the table and the matrices of their vectors.  Only two files change. *)
Theorem C108_parse home files k fs r : directory home -> abspath (home ++ "/work/data/db/objects") = home ++ "/work/data/db/objects" ->
  ~ taken other k (in_objects home "single_object_label") ->
  listed int_of time_of files (in_objects home "stat_one_obj_no_hand") fs -> kept float_of files (home ++ "/work/data/db/objects") fs r -> last_seen r ->
  exists k' d, run home files k = (k', Ok tt) /\ load_objects home k' None = Ok d /\ parsed r d /\
    (forall p, p <> in_objects home "single_object_label.json" -> dict_get String.eqb (d_json k') p = dict_get String.eqb (d_json k) p) /\
    (forall p, p <> in_objects home "single_object_label.mat" -> dict_get String.eqb (d_mat k') p = dict_get String.eqb (d_mat k) p).
Proof.
  intros D A X%exists_not_taken LI KE LS. destruct (script_ok int_of time_of float_of abspath other home files k fs r D A X LI KE LS) as (k' & d & R & L & P & _ & J1 & J2). eauto 8.
Qed.
(** A path that exists is left; without source, or frame, nothing is written. *)
Theorem C108_present home files k : directory home -> taken other k (in_objects home "single_object_label") -> run home files k = (k, Ok tt).
Proof. intros D X%exists_taken. exact (script_present int_of time_of float_of abspath other home files k D X). Qed.
Theorem C108_no_source home files k : directory home -> ~ taken other k (in_objects home "single_object_label") ->
  files (in_objects home "stat_one_obj_no_hand") = None -> run home files k = (k, Err IOError).
Proof. intros D X%exists_not_taken. exact (script_no_source int_of time_of float_of abspath other home files k D X). Qed.
Theorem C108_no_frame home files k fs r : directory home -> ~ taken other k (in_objects home "single_object_label") ->
  listed int_of time_of files (in_objects home "stat_one_obj_no_hand") fs -> kept float_of files (home ++ "/work/data/db/objects") fs r -> ~ last_seen r ->
  run home files k = (k, Err IndexError).
Proof. intros D X%exists_not_taken. exact (script_no_frame int_of time_of float_of abspath other home files k fs r D X). Qed.
End Theorems.

(** The default loader gives the frames of the objects 1 to 10, with their features and
    the name of the table, after any calls. *)
Theorem C108_loader r d features l : parsed r d -> features <> [] -> Forall (fun t => exists k, position t k) features ->
  (forall f vs, In (f, vs) r -> (0 <= f_label f <= 32)%Z) -> used (ObjectsLoader features DEFAULT_LABELS d) l ->
  exists Ms idx X ls, Forall2 (feature_of r) features Ms /\
    StronglySorted Peano.lt idx /\ (forall i, In i idx <-> exists f vs, nth_error r i = Some (f, vs) /\ usual (f_label f)) /\
    snd (get_data l) = Ok X /\ snd (get_labels l) = Ok ls /\ nrows X = List.length idx /\ List.length ls = List.length idx /\
    forall q i, nth_error idx q = Some i -> row X q = List.concat (map (fun M => row M i) Ms) /\
      exists f vs n, nth_error r i = Some (f, vs) /\ In (f_label f, n) table /\ nth_error ls q = Some (Some n).
Proof. exact (loader_ok r d features l). Qed.
(** One frame with a larger number makes the loader fail, whatever the labels. *)
Theorem C108_loader_bad r d features labels f vs : parsed r d -> In (f, vs) r -> (32 < f_label f)%Z ->
  exists e, snd (get_labels (ObjectsLoader features labels d)) = Err e.
Proof. exact (loader_bad r d features labels f vs). Qed.
(** load_features_and_labels gives all frames, with their numbers. *)
Theorem C108_features home k db_file r d features : load_objects home k db_file = Ok d -> parsed r d -> features <> [] -> Forall (fun t => exists k, position t k) features ->
  exists Ms X, load_features_and_labels home k features db_file = Ok (X, map (fun fv => f_label (fst fv)) r, o_names d) /\ Forall2 (feature_of r) features Ms /\
    nrows X = List.length r /\ forall i, row X i = List.concat (map (fun M => row M i) Ms).
Proof.
  intros L P NE FF. destruct (features_ok r d features P NE FF) as (Ms & X & FM & E & NR & RX). exists Ms, X. split; [|auto].
  unfold load_features_and_labels. rewrite L. cbn [bind]. rewrite E. cbn [bind]. destruct P as (F & _). rewrite F, map_map. reflexivity.
Qed.

(** ** Examples *)
Definition ex_int (w : string) : result Z := if String.eqb w "0" then Ok 0%Z else if String.eqb w "4" then Ok 4%Z else if String.eqb w "7" then Ok 7%Z else Err ValueError.
Definition ex_time (w : string) : result Q := if String.eqb w "12.5" then Ok (25 # 2) else Err ValueError.
Definition ex_float (w : string) : result R := if String.eqb w "1" then Ok 1%R else if String.eqb w "3" then Ok 3%R else Err ValueError.
Definition ex_f1 := mkFrame "s_o0_12.5" 0 (25 # 2) [Some [7%Z]].
Definition ex_f2 := mkFrame "s_o4_12.5" 4 (25 # 2) [Some [7%Z]; Some [7%Z]].
Definition ex_files (p : string) : option (list string) :=
  if String.eqb p "h/work/data/db/objects/stat_one_obj_no_hand" then Some ["s_o0_12.5 |7"; "s_o4_12.5 |7|7"]
  else if String.eqb p "h/work/data/db/objects/histograms/s_o0_12.5" then Some ["1"; "1"; "1"; "1"; "3 1"]
  else if String.eqb p "h/work/data/db/objects/histograms/s_o4_12.5" then Some ["1"; "1"; "1"; "1"; "3"; " "; "1"; "1"; "1"; "1"; "1 1"]
  else None.
Definition ex_r : list (frame * list (list (list R))) :=
  [(ex_f1, [[[3; 1]; [1]; [1]; [1]; [1]]]); (ex_f2, [[[1; 1]; [1]; [1]; [1]; [1]]; [[3]; [1]; [1]; [1]; [1]]])]%R.
Example ex_home : directory "h".
Proof. exists "", "h"%char. split; [reflexivity|discriminate]. Qed.
Example ex_hyps : listed ex_int ex_time ex_files (in_objects "h" "stat_one_obj_no_hand") [ex_f1; ex_f2] /\
  kept ex_float ex_files ("h" ++ "/work/data/db/objects") [ex_f1; ex_f2] ex_r /\ last_seen ex_r.
Proof.
  split; [|split].
  - exists ["s_o0_12.5 |7"; "s_o4_12.5 |7|7"]. eexists. split; [reflexivity|]. split; [apply without_lines; reflexivity|].
    repeat constructor; apply line_spec; reflexivity.
  - constructor; [apply read_spec; reflexivity|]. constructor; [apply read_spec; reflexivity|constructor].
  - exists [(ex_f1, [[[3; 1]; [1]; [1]; [1]; [1]]])]%R, ex_f2. eexists. split; [reflexivity|discriminate].
Qed.
(** An older description at the place of the new one. *)
Definition ex_disk : odisk := mkOdisk [(in_objects "h" "single_object_label.json", Some VNone)] [].
Lemma ex_free : ~ taken (fun _ => false) ex_disk (in_objects "h" "single_object_label").
Proof. apply exists_not_taken. reflexivity. Qed.
(** The script replaces it, although it says that it aborts when the destination
    exists: it looks for the path without extension. *)
Theorem C108_guard_refuted : ~ forall int_of time_of float_of abspath other home files k,
  directory home -> dict_get String.eqb (d_json k) (in_objects home "single_object_label.json") <> None ->
  fst (run_parse_objects int_of time_of float_of abspath other home files k) = k.
Proof.
  intros H. destruct ex_hyps as (A & B & C).
  destruct (C108_parse ex_int ex_time ex_float (fun p => p) (fun _ => false) "h" ex_files ex_disk _ _ ex_home eq_refl ex_free A B C) as (k' & d & R & L & _).
  specialize (H ex_int ex_time ex_float (fun p => p) (fun _ => false) "h" ex_files ex_disk ex_home ltac:(discriminate)). rewrite R in H. cbn [fst] in H. subst k'.
  vm_compute in L. discriminate.
Qed.
Example ex_labels : (forall f vs, In (f, vs) ex_r -> (0 <= f_label f <= 32)%Z) /\ usual (f_label ex_f2) /\ ~ usual (f_label ex_f1).
Proof.
  split; [intros f vs I; repeat (destruct I as [I|I]; [injection I as <- _; cbn; lia|]); destruct I|]. split; unfold usual; cbn; lia.
Qed.
Example ex_parsed : exists k' d, run_parse_objects ex_int ex_time ex_float (fun p => p) (fun _ => false) "h" ex_files ex_disk = (k', Ok tt) /\
  load_objects "h" k' None = Ok d /\ parsed ex_r d /\ exists X, snd (get_data (ObjectsLoader ["color"; "SURF"] DEFAULT_LABELS d)) = Ok X /\ nrows X = 1.
Proof.
  destruct ex_hyps as (A & B & C).
  destruct (C108_parse ex_int ex_time ex_float (fun p => p) (fun _ => false) "h" ex_files ex_disk _ _ ex_home eq_refl ex_free A B C) as (k' & d & R & L & P & _).
  exists k', d. split; [exact R|]. split; [exact L|]. split; [exact P|].
  destruct (C108_loader ex_r d ["color"; "SURF"] (ObjectsLoader ["color"; "SURF"] DEFAULT_LABELS d) P ltac:(discriminate)) as (Ms & idx & X & ls & _ & SS & W & GD & _ & NR & _).
  { constructor; [exists 1; reflexivity|]. constructor; [exists 0; reflexivity|constructor]. }
  { exact (proj1 ex_labels). }
  { apply used_new. }
  exists X. split; [exact GD|]. rewrite NR.
  assert (I : In 1 idx) by (apply W; do 2 eexists; split; [reflexivity|exact (proj1 (proj2 ex_labels))]).
  assert (O : forall i, In i idx -> i = 1).
  { intros i J. apply W in J. destruct J as (f & vs & E & U). destruct i as [|[|i]]; [|reflexivity|destruct i; discriminate]. injection E as <- _. destruct (proj2 (proj2 ex_labels) U). }
  destruct idx as [|a [|b idx]]; [destruct I|reflexivity|]. rewrite (O a), (O b) in SS by (cbn; auto).
  inversion SS as [|? ? _ F]. inversion F. lia.
Qed.

Print Assumptions C108_parse.
Print Assumptions C108_present.
Print Assumptions C108_no_source.
Print Assumptions C108_no_frame.
Print Assumptions C108_loader.
Print Assumptions C108_loader_bad.
Print Assumptions C108_features.
Print Assumptions C108_guard_refuted.
