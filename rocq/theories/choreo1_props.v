(** * Theorems on the first choreography dataset (C102). *)

From Coq Require Import List ZArith Arith Bool String Ascii Lia.
Import ListNotations.
From Verif Require Import Py logger_model sound_model sound_spec motion_model motion_spec angle_model choreo2_model choreo1_model choreo1_spec choreo1_proof.
From Verif Require choreo2_proof.
Local Open Scope string_scope.

(** Python 2: the arrays, the labels and the names of markers of the files, in the order of
    the records of the description. *)
Theorem C102_loaded {Arr} home (k : motion_model.disk Arr) dataset dir data labels markers : directory dir ->
  dataset = "primitive" \/ dataset = "mixed_partial" \/ dataset = "mixed_full" -> files_of k dir dataset data labels markers ->
  load Python2 home k dataset (Some dir) = Ok (data, labels, VList (map VStr markers)).
Proof. intros D K F. exact (loaded Python2 home k dataset (Some dir) dir data labels markers D (or_introl eq_refl) K F). Qed.
Print Assumptions C102_loaded.

(** By default the directory is work/data/db/choreo of the user. *)
Theorem C102_default {Arr} home (k : motion_model.disk Arr) dataset data labels markers : directory home ->
  dataset = "primitive" \/ dataset = "mixed_partial" \/ dataset = "mixed_full" -> files_of k (home ++ "/work/data/db/choreo") dataset data labels markers ->
  load Python2 home k dataset None = Ok (data, labels, VList (map VStr markers)).
Proof.
  intros D K F. assert (E : home ++ "/work/data/db/choreo" = path_join (db_dir home) "choreo").
  { unfold db_dir. rewrite (choreo2_proof.data_dir_eq home "db") by reflexivity. rewrite (choreo2_proof.strip_plain home D).
    rewrite motion_proof.join_dir; [|apply choreo2_proof.dir_suffix; exists "/work/data/d", "b"%char; split; [reflexivity|discriminate]|reflexivity].
    rewrite !sound_count.append_assoc. reflexivity. }
  refine (loaded Python2 home k dataset None _ data labels markers _ (or_intror (conj eq_refl E)) K F).
  apply choreo2_proof.dir_suffix. exists "/work/data/db/chore", "o"%char. split; [reflexivity|discriminate].
Qed.
Print Assumptions C102_default.

(** Any other name of a dataset is refused, whatever the files. *)
Theorem C102_unknown {Arr} v home (k : motion_model.disk Arr) dataset data_path :
  ~ (dataset = "primitive" \/ dataset = "mixed_partial" \/ dataset = "mixed_full") -> load v home k dataset data_path = Err ValueError.
Proof. exact (unknown v home k dataset data_path). Qed.
Print Assumptions C102_unknown.

(** Without the description or the archive, or if an array is not in the archive, nothing is loaded. *)
Theorem C102_missing {Arr} v home (k : motion_model.disk Arr) dataset dir : directory dir ->
  dataset = "primitive" \/ dataset = "mixed_partial" \/ dataset = "mixed_full" ->
  dict_get String.eqb (k_json k) (dir ++ "/" ++ dataset ++ ".json") = None \/
  (exists meta df, dict_get String.eqb (k_json k) (dir ++ "/" ++ dataset ++ ".json") = Some (Some meta) /\ has_item meta "data-file" (VStr df) /\ base_name df /\
     dict_get String.eqb (k_npz k) (dir ++ "/" ++ df) = None) ->
  load v home k dataset (Some dir) = Err IOError.
Proof. exact (missing v home k dataset dir). Qed.
Print Assumptions C102_missing.
Theorem C102_missing_array {Arr} v home (k : motion_model.disk Arr) dataset dir meta df arch es1 e es2 xs t : directory dir ->
  dataset = "primitive" \/ dataset = "mixed_partial" \/ dataset = "mixed_full" ->
  dict_get String.eqb (k_json k) (dir ++ "/" ++ dataset ++ ".json") = Some (Some meta) -> has_item meta "data-file" (VStr df) -> base_name df ->
  dict_get String.eqb (k_npz k) (dir ++ "/" ++ df) = Some arch -> NoDup (map fst arch) ->
  has_item meta "records" (VList (es1 ++ e :: es2)) -> Forall2 (fun e x => entry_of arch e (fst x) (snd x)) es1 xs ->
  has_item e "data-id" (VStr t) -> ~ In t (map fst arch) ->
  load v home k dataset (Some dir) = Err KeyError.
Proof. exact (missing_array v home k dataset dir meta df arch es1 e es2 xs t). Qed.
Print Assumptions C102_missing_array.

(** Python 3 never gives the data; it raises TypeError for the very files that Python 2 loads. *)
Theorem C102_python3_refuted {Arr} home (k : motion_model.disk Arr) dataset dir data labels markers : directory dir ->
  dataset = "primitive" \/ dataset = "mixed_partial" \/ dataset = "mixed_full" -> files_of k dir dataset data labels markers ->
  load Python3 home k dataset (Some dir) = Err TypeError.
Proof. intros D K F. exact (loaded Python3 home k dataset (Some dir) dir data labels markers D (or_introl eq_refl) K F). Qed.
Print Assumptions C102_python3_refuted.
Theorem C102_python3_never {Arr} home (k : motion_model.disk Arr) dataset data_path x : load Python3 home k dataset data_path <> Ok x.
Proof. exact (never_python3 home k dataset data_path x). Qed.
Print Assumptions C102_python3_never.

(** Whenever data are given there are as many labels, and every array is in an archive. *)
Theorem C102_from_files {Arr} home (k : motion_model.disk Arr) dataset data_path data labels markers :
  load Python2 home k dataset data_path = Ok (data, labels, markers) ->
  List.length data = List.length labels /\ exists p arch, dict_get String.eqb (k_npz k) p = Some arch /\ Forall (fun a => exists t, In (t, a) arch) data.
Proof. exact (from_files home k dataset data_path data labels markers). Qed.
Print Assumptions C102_from_files.

(** ** Examples: three records whose entries are not in the order of the archive *)
Definition ex_entry (i : logger_model.val nat) (ls : list Z) : logger_model.val nat := VDict [(KStr "data-id", i); (KStr "labels", VList (map VInt ls))].
Definition ex_entries := [ex_entry (VInt 2) [5%Z]; ex_entry (VInt 0) [1%Z; 6%Z]; ex_entry (VStr "1") []].
Definition ex_meta : logger_model.val nat :=
  VDict [(KStr "name", VStr "mixed"); (KStr "data-file", VStr "data.npz"); (KStr "records", VList ex_entries); (KStr "marker-names", VList [VStr "head"; VStr "hand"])].
Definition ex_arch : list (string * nat) := [("0", 10); ("1", 11); ("2", 12)].
Definition ex_disk dir : motion_model.disk nat := mkDisk [(dir ++ "/mixed_full.json", Some ex_meta)] [(dir ++ "/data.npz", ex_arch)] [] [] [].
Example C102_ex_files : files_of (ex_disk "/home/u/work/data/db/choreo") "/home/u/work/data/db/choreo" "mixed_full" [12; 10; 11]
  (map (fun ls => VList (map VInt ls)) [[5%Z]; [1%Z; 6%Z]; []]) ["head"; "hand"].
Proof.
  assert (ND : NoDup (map fst [(KStr "name", 0); (KStr "data-file", 0); (KStr "records", 0); (KStr "marker-names", 0)])).
  { cbn. repeat constructor; cbn; intuition discriminate. }
  assert (N2 : NoDup (map fst [(KStr "data-id", 0); (KStr "labels", 0)])). { cbn. repeat constructor; cbn; intuition discriminate. }
  exists ex_meta, "data.npz", ex_arch, ex_entries, (VStr "mixed"). split; [reflexivity|].
  split; [eexists; split; [reflexivity|split; [right; left; reflexivity|exact ND]]|]. split; [intros I; cbn in I; intuition discriminate|]. split; [reflexivity|].
  split; [cbn; repeat constructor; cbn; intuition discriminate|].
  split; [eexists; split; [reflexivity|split; [right; right; left; reflexivity|exact ND]]|].
  split; [eexists; split; [reflexivity|split; [left; reflexivity|exact ND]]|].
  split; [eexists; split; [reflexivity|split; [right; right; right; left; reflexivity|exact ND]]|]. split; [|reflexivity].
  assert (H : forall i t a ls l, (i = VInt l /\ t = string_of_Z l \/ i = VStr t) -> In (t, a) ex_arch -> entry_of ex_arch (ex_entry i ls) a (VList (map VInt ls))).
  { intros i t a ls l T I. exists i, l, t. split; [eexists; split; [reflexivity|split; [left; reflexivity|exact N2]]|]. split; [exact T|]. split; [exact I|].
    eexists. split; [reflexivity|split; [right; left; reflexivity|exact N2]]. }
  cbn [map combine ex_entries]. constructor; [|constructor; [|constructor; [|constructor]]]; cbn [fst snd].
  - apply (H (VInt 2) "2" 12 [5%Z] 2%Z); [left; split; reflexivity|right; right; left; reflexivity].
  - apply (H (VInt 0) "0" 10 [1%Z; 6%Z] 0%Z); [left; split; reflexivity|left; reflexivity].
  - apply (H (VStr "1") "1" 11 [] 0%Z); [right; reflexivity|right; left; reflexivity].
Qed.
Example C102_ex_dir s : directory ("/home/u" ++ s ++ "o").
Proof. exists ("/home/u" ++ s), "o"%char. split; [symmetry; apply sound_count.append_assoc|discriminate]. Qed.
Example C102_ex_loaded : load Python2 "/home/u" (ex_disk "/home/u/work/data/db/choreo") "mixed_full" None =
  Ok ([12; 10; 11], map (fun ls => VList (map VInt ls)) [[5%Z]; [1%Z; 6%Z]; []], VList [VStr "head"; VStr "hand"]).
Proof. apply (C102_default "/home/u" _ "mixed_full" _ _ ["head"; "hand"]); [exists "/home/", "u"%char; split; [reflexivity|discriminate]|auto|exact C102_ex_files]. Qed.
Example C102_ex_python3 : load Python3 "/x" (ex_disk "/home/u/work/data/db/choreo") "mixed_full" (Some "/home/u/work/data/db/choreo") = Err TypeError.
Proof. exact (C102_python3_refuted "/x" _ "mixed_full" _ _ _ _ (C102_ex_dir "/work/data/db/chore") (or_intror (or_intror eq_refl)) C102_ex_files). Qed.
Example C102_ex_unknown v : load v "/x" (ex_disk "/d") "mixed_base" (Some "/d") = Err ValueError.
Proof. apply C102_unknown. intuition discriminate. Qed.
Example C102_ex_no_archive : load Python2 "/x" (mkDisk [("/d/primitive.json", Some ex_meta)] [] [] [] []) "primitive" (Some "/d") = Err IOError.
Proof. reflexivity. Qed.
Example C102_ex_missing : load Python2 "/x" (ex_disk "/home/u/work/data/db/choreo") "primitive" (Some "/home/u/work/data/db/choreo") = Err IOError.
Proof. apply C102_missing; [exact (C102_ex_dir "/work/data/db/chore")|auto|left; reflexivity]. Qed.
Definition ex_short_disk : motion_model.disk nat := mkDisk [("/d/primitive.json", Some (VDict [(KStr "data-file", VStr "a.npz"); (KStr "records", VList [VDict [(KStr "data-id", VStr "0")]])]))] [("/d/a.npz", [("1", 5)])] [] [] [].
Example C102_ex_missing_array : load Python2 "/x" ex_short_disk "primitive" (Some "/d") = Err KeyError.
Proof.
  apply (C102_missing_array Python2 "/x" ex_short_disk "primitive" "/d" (VDict [(KStr "data-file", VStr "a.npz"); (KStr "records", VList [VDict [(KStr "data-id", VStr "0")]])]) "a.npz" [("1", 5)] []
    (VDict [(KStr "data-id", VStr "0")]) [] [] "0").
  - exists "/", "d"%char. split; [reflexivity|discriminate].
  - auto.
  - reflexivity.
  - eexists. split; [reflexivity|]. split; [left; reflexivity|]. repeat constructor; cbn; intuition discriminate.
  - intro I. cbn in I. intuition discriminate.
  - reflexivity.
  - repeat constructor. intros [].
  - eexists. split; [reflexivity|]. split; [right; left; reflexivity|]. repeat constructor; cbn; intuition discriminate.
  - constructor.
  - eexists. split; [reflexivity|]. split; [left; reflexivity|]. repeat constructor. intros [].
  - cbn. intuition discriminate.
Qed.
