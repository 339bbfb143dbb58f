(** * Theorems on motion databases (C60, C87). *)

From Coq Require Import List ZArith Arith Bool String Ascii Lia.
Import ListNotations.
From Verif Require Import Py logger_model serial_model sound_model sound_spec motion_model motion_spec motion_proof motion_file.
Local Open Scope nat_scope.
Local Open Scope string_scope.

Section Theorems.
Context {Arr : Type}.
Variable shape : Arr -> list nat.
Variable reshape : Arr -> list nat -> Arr.
Notation db := (motion_db Arr).

(** ** C60 *)
(** A file that is not there is not loaded. *)
Theorem C60_missing (k : disk Arr) location verbose : ~ In location (map fst (k_json k)) -> load_from_npz shape k location verbose = Err IOError.
Proof.
  intros N. unfold load_from_npz. destruct (dict_get String.eqb (k_json k) location) as [v|] eqn:E; [|reflexivity].
  exfalso. apply N. revert E. clear. induction (k_json k) as [|(q, w) fs IH]; cbn; [discriminate|]. destruct (String.eqb_spec q location) as [->|]; auto.
Qed.
(** A database whose labels JSON can write, exported as npz under a name without
    directory, is loaded again with the same name, markers and records, in order; the
    keys of its descriptions are strings; no other file changes.  With verbose, only
    an empty database makes a difference. *)
Theorem C60_round_trip (d : db) k dest filename force_flat :
  plain_db d -> destination dest -> base_name (file_of d filename) ->
  exists k' ds, export shape reshape d k dest filename "npz" force_flat = (k', Ok tt) /\
    desc_image (m_desc d) ds /\
    load_from_npz shape k' (path_join dest (file_of d filename ++ ".json")) false = Ok (mkMotion (m_name d) (m_markers d) (m_records d) ds) /\
    load_from_npz shape k' (path_join dest (file_of d filename ++ ".json")) true =
      match m_records d with [] => Err ValueError | _ => Ok (mkMotion (m_name d) (m_markers d) (m_records d) ds) end /\
    (forall p, p <> path_join dest (file_of d filename ++ ".json") -> dict_get String.eqb (k_json k') p = dict_get String.eqb (k_json k) p) /\
    (forall p, p <> path_join dest (file_of d filename ++ ".npz") -> dict_get String.eqb (k_npz k') p = dict_get String.eqb (k_npz k) p) /\
    k_txt k' = k_txt k /\ k_mat k' = k_mat k /\ k_dirs k' = k_dirs k.
Proof. exact (round_trip shape reshape d k dest filename force_flat). Qed.

(** A file name with a directory: the export succeeds, and cannot be loaded. *)
Theorem C60_subdirectory_refuted (d : db) k dest sub f force_flat :
  plain_db d -> directory dest -> plain_name sub -> base_name f ->
  dict_get String.eqb (k_npz k) (dest ++ "/" ++ sub ++ "/" ++ sub ++ "/" ++ f ++ ".npz") = None ->
  exists k', export shape reshape d k dest (Some (sub ++ "/" ++ f)) "npz" force_flat = (k', Ok tt) /\
    load_from_npz shape k' (dest ++ "/" ++ sub ++ "/" ++ f ++ ".json") false = Err IOError.
Proof. exact (subdirectory shape reshape d k dest sub f force_flat). Qed.

(** Other types of data are refused before anything is written. *)
Theorem C60_unknown_type (d : db) k dest filename data_type force_flat :
  data_type <> "npz" -> data_type <> "txt" -> data_type <> "mat" ->
  export shape reshape d k dest filename data_type force_flat = (k, Err ValueError).
Proof. exact (wrong_type shape reshape d k dest filename data_type force_flat). Qed.

(** A label that JSON cannot write: TypeError; the JSON file left cannot be read. *)
Theorem C60_bad_label (d : db) k dest filename force_flat a ls l :
  In (a, ls) (m_records d) -> In l ls -> ~ plain_label l ->
  exists k', export shape reshape d k dest filename "npz" force_flat = (k', Err TypeError) /\ k_npz k' = k_npz k /\
    load_from_npz shape k' (path_join dest (file_of d filename ++ ".json")) false = Err BadFile.
Proof. exact (export_bad shape reshape d k dest filename force_flat a ls l). Qed.

(** extend: the records of the other follow, exactly when markers are the same and
    both describe every label that occurs in the same words; otherwise an exception
    and no change: ValueError for different markers or words, the error of the
    missing description otherwise. *)
Theorem C60_extend ord (d o : db) : lists_labels ord ->
  (extend ord d (Some o) = (with_motions d (m_records d ++ m_records o), Ok tt) /\ m_markers d = m_markers o /\
     forall l, occurs d l \/ occurs o l -> exists s, describe (m_desc d) l = Ok s /\ describe (m_desc o) l = Ok s) \/
  (extend ord d (Some o) = (d, Err ValueError) /\ m_markers d <> m_markers o) \/
  (extend ord d (Some o) = (d, Err ValueError) /\ m_markers d = m_markers o /\
     (forall l, occurs d l \/ occurs o l -> exists s t, describe (m_desc d) l = Ok s /\ describe (m_desc o) l = Ok t) /\
     exists l s t, (occurs d l \/ occurs o l) /\ describe (m_desc d) l = Ok s /\ describe (m_desc o) l = Ok t /\ s <> t) \/
  (exists e l, extend ord d (Some o) = (d, Err e) /\ m_markers d = m_markers o /\ (occurs d l \/ occurs o l) /\
     (describe (m_desc d) l = Err e \/ describe (m_desc o) l = Err e)).
Proof. exact (extend_cases ord d o). Qed.
Theorem C60_extend_records ord (d : db) other : fst (extend ord d other) = d \/
  exists o, other = Some o /\ extend ord d other = (with_motions d (m_records d ++ m_records o), Ok tt).
Proof. exact (extend_all ord d other). Qed.

(** Descriptions by integer, after a round trip: no integer has a description any
    more, its text has the description; a database loaded in this way cannot be
    extended when integers are its labels. *)
Theorem C60_int_keys ds ds' z : desc_image ds ds' -> (exists x, ds = DDict x) -> describe ds' (LInt z) = Err KeyError.
Proof. exact (dict_keys ds ds' z). Qed.
Theorem C60_text_keys ds ds' l t s : desc_image (DDict ds) ds' -> NoDup (map fst ds) -> label_text l t ->
  describe (DDict ds) l = Ok s -> describe ds' (LStr t) = Ok s.
Proof. intros A B C. exact (dict_strings ds ds' l t A B C s). Qed.
Theorem C60_int_extend ord (d d' o : db) z : lists_labels ord -> desc_image (m_desc d) (m_desc d') -> (exists x, m_desc d = DDict x) ->
  m_markers d' = m_markers o -> (forall l, occurs d' l \/ occurs o l -> exists y, l = LInt y) -> occurs d' (LInt z) \/ occurs o (LInt z) ->
  exists e, extend ord d' (Some o) = (d', Err e) /\ e = KeyError.
Proof. exact (no_extend ord d d' o z). Qed.

(** ** C87 *)
(** Export as text: one file per record, numbered in order, until the first array
    that is not of two dimensions (more than two, with force_flat, are joined). *)
Theorem C87_text (d : db) k dest filename ff : plain_db d ->
  let dir := path_join dest (file_of d filename) in let ddir := path_join dir (file_of d filename ++ "_data") in
  let path i := path_join ddir (string_of_Z (Z.of_nat i) ++ ".txt") in
  exists k' r, export shape reshape d k dest filename "txt" ff = (k', r) /\
    (exists v, dict_get String.eqb (k_json k') (path_join dir (file_of d filename ++ ".json")) = Some (Some v) /\
       item v "name" = Ok (VStr (m_name d)) /\ item v "marker_names" = Ok (VList (map VStr (m_markers d))) /\
       item v "data_dir" = Ok (VStr (file_of d filename ++ "_data")) /\
       exists rs, item v "records" = Ok (VList rs) /\ List.length rs = List.length (m_records d) /\
         forall i a ls, nth_error (m_records d) i = Some (a, ls) -> exists r, nth_error rs i = Some r /\
           item r "data_id" = Ok (VInt (Z.of_nat i)) /\ item r "labels" = Ok (VList (map label_val ls))) /\
    (forall p, p <> path_join dir (file_of d filename ++ ".json") -> dict_get String.eqb (k_json k') p = dict_get String.eqb (k_json k) p) /\
    k_npz k' = k_npz k /\ k_mat k' = k_mat k /\ (forall p, In p (k_dirs k') <-> In p (k_dirs k) \/ p = dir \/ p = ddir) /\
    (forall p, (forall i, i < List.length (m_records d) -> p <> path i) -> dict_get String.eqb (k_txt k') p = dict_get String.eqb (k_txt k) p) /\
    ((r = Ok tt /\ forall i a, nth_error (map fst (m_records d)) i = Some a ->
        exists b, text_array shape reshape ff a b /\ dict_get String.eqb (k_txt k') (path i) = Some b) \/
     (r = Err ValueError /\ exists i a, nth_error (map fst (m_records d)) i = Some a /\ (forall b, ~ text_array shape reshape ff a b) /\
       (forall j x, j < i -> nth_error (map fst (m_records d)) j = Some x ->
          exists b, text_array shape reshape ff x b /\ dict_get String.eqb (k_txt k') (path j) = Some b) /\
       (forall j, i <= j -> dict_get String.eqb (k_txt k') (path j) = dict_get String.eqb (k_txt k) (path j)))).
Proof. exact (export_text shape reshape d k dest filename ff). Qed.
(** A database exported as text has no data file: it cannot be loaded. *)
Theorem C87_text_not_loaded (d : db) k dest filename ff : plain_db d ->
  load_from_npz shape (fst (export shape reshape d k dest filename "txt" ff))
    (path_join (path_join dest (file_of d filename)) (file_of d filename ++ ".json")) false = Err KeyError.
Proof. exact (text_not_loaded shape reshape d k dest filename ff). Qed.
(** Export for Matlab: one file with every array and list of labels, in order. *)
Theorem C87_mat (d : db) k dest filename ff :
  exists k', export shape reshape d k dest filename "mat" ff = (k', Ok tt) /\
    dict_get String.eqb (k_mat k') (path_join dest (file_of d filename ++ ".mat")) =
      Some (mkMat (m_name d) (m_markers d) (match m_desc d with DNone => None | ds => Some ds end) (map fst (m_records d)) (map snd (m_records d))) /\
    (forall p, p <> path_join dest (file_of d filename ++ ".mat") -> dict_get String.eqb (k_mat k') p = dict_get String.eqb (k_mat k) p) /\
    k_json k' = k_json k /\ k_npz k' = k_npz k /\ k_txt k' = k_txt k /\ k_dirs k' = k_dirs k.
Proof. exact (export_mat shape reshape d k dest filename ff). Qed.
End Theorems.

Print Assumptions C60_missing.
Print Assumptions C60_round_trip.
Print Assumptions C60_subdirectory_refuted.
Print Assumptions C60_unknown_type.
Print Assumptions C60_bad_label.
Print Assumptions C60_extend.
Print Assumptions C60_extend_records.
Print Assumptions C60_int_keys.
Print Assumptions C60_text_keys.
Print Assumptions C60_int_extend.
Print Assumptions C87_text.
Print Assumptions C87_text_not_loaded.
Print Assumptions C87_mat.

(** ** Examples: arrays are their shapes *)
Definition shp (a : list nat) := a.
Definition rsh (a : list nat) (s : list nat) := s.
Definition ex : motion_db (list nat) :=
  mkMotion "choreo" ["head"; "hand"] [([10; 2], [LInt 0; LInt 1]); ([12; 2; 3], [LInt 1])] (DDict [(LInt 0, "walk"); (LInt 1, "turn")]).
Definition no_files : disk (list nat) := mkDisk [] [] [] [] [].
Example ex_plain : plain_db ex.
Proof.
  split.
  - cbn. intros a ls l [E|[E|[]]] I; injection E as <- <-; cbn in I; destruct l; try (eexists; constructor); intuition discriminate.
  - eexists. apply di_dict with (d' := [(LStr "0", "walk"); (LStr "1", "turn")]).
    + constructor; [exists "0"; split; [exact (lt_int 0)|reflexivity]|]. constructor; [exists "1"; split; [exact (lt_int 1)|reflexivity]|constructor].
    + cbn. repeat constructor; cbn; intuition discriminate.
Qed.
Example ex_destination : destination "data" /\ base_name (file_of ex None).
Proof. split; [right; right; left; exists "dat", "a"%char; split; [reflexivity|discriminate]|intros I; cbn in I; intuition discriminate]. Qed.
Example ex_round : load_from_npz shp (fst (export shp rsh ex no_files "data" None "npz" false)) "data/choreo.json" true =
  Ok (mkMotion "choreo" ["head"; "hand"] (m_records ex) (DDict [(LStr "0", "walk"); (LStr "1", "turn")])).
Proof. reflexivity. Qed.
Example ex_sub : snd (export shp rsh ex no_files "data" (Some "sub/c") "npz" false) = Ok tt /\
  load_from_npz shp (fst (export shp rsh ex no_files "data" (Some "sub/c") "npz" false)) "data/sub/c.json" false = Err IOError.
Proof. split; reflexivity. Qed.
Example ex_bad : snd (export shp rsh (add ex [4; 2] [LOther 7]) no_files "data" None "npz" false) = Err TypeError.
Proof. reflexivity. Qed.
Example ex_extend : extend (fun l => l) ex (Some ex) = (with_motions ex (m_records ex ++ m_records ex), Ok tt) /\
  snd (extend (fun l => l) ex (Some (mkMotion "o" ["head"] [] DNone))) = Err ValueError /\
  snd (extend (fun l => l) ex (Some (mkMotion "o" ["head"; "hand"] [] DNone))) = Err TypeError /\
  snd (extend (fun l => l) ex (Some (mkMotion "o" ["head"; "hand"] [] (DList ["walk"; "run"])))) = Err ValueError.
Proof. repeat split; reflexivity. Qed.
Example ex_reloaded : bind (load_from_npz shp (fst (export shp rsh ex no_files "data" None "npz" false)) "data/choreo.json" true)
  (fun d => Ok (get_description_safe d (LInt 0), get_description_safe d (LStr "0"), snd (extend (fun l => l) d (Some d)))) =
  Ok (Ok "", Ok "walk", Err KeyError).
Proof. reflexivity. Qed.
Example ex_text : k_txt (fst (export shp rsh ex no_files "data" None "txt" true)) =
  [("data/choreo/choreo_data/0.txt", [10; 2]); ("data/choreo/choreo_data/1.txt", [12; 6])] /\
  (let e := export shp rsh ex no_files "data" None "txt" false in snd e = Err ValueError /\ k_txt (fst e) = [("data/choreo/choreo_data/0.txt", [10; 2])]).
Proof. repeat split; reflexivity. Qed.
Example ex_missing : load_from_npz (fun _ : nat => []) (mkDisk [] [] [] [] []) "d/base.json" false = Err IOError.
Proof. apply C60_missing. intros []. Qed.
