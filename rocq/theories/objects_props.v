(** * Theorems on object databases (C61, C88, C89). *)

From Coq Require Import List ZArith Arith Bool QArith Reals String Ascii Lia Lra Sorted.
Import ListNotations.
From Verif Require Import Py logger_model serial_model sound_model sound_spec nd_model nd_spec array_utils_model array_utils_spec motion_model motion_spec
  objects_model objects_spec objects_proof objects_read objects_build objects_file objects_refuse.
Local Open Scope nat_scope.

Section Theorems.
Variable int_of : string -> result Z.
Variable time_of : string -> result Q.
Variable float_of : string -> result R.

(** ** C61 *)
(** A line of the statistics file is accepted exactly when it has this form. *)
Theorem C61_line line f : from_line int_of time_of line = Ok f <-> describes int_of time_of line f.
Proof. exact (line_spec int_of time_of line f). Qed.
Theorem C61_line_errors line e : (forall w x, int_of w = Err x -> x = ValueError) -> (forall w x, time_of w = Err x -> x = ValueError) ->
  from_line int_of time_of line = Err e -> e = ValueError.
Proof. exact (line_errors int_of time_of line e). Qed.
(** A file name has at most one label and time. *)
Theorem C61_name_once name l t l' t' : named name l t -> named name l' t' -> l = l' /\ t = t'.
Proof. exact (named_once name l t l' t'). Qed.
(** A line with four views gives a frame with five. *)
Theorem C61_four_views b b1 b2 b3 b4 f : (forall x, In x [b; b1; b2; b3; b4] -> chars (fun c => c <> "|"%char) x) ->
  from_line int_of time_of (String.concat "|" [b; b1; b2; b3; b4]) = Ok f -> exists v1 v2 v3 v4, f_views f = [None; Some v1; Some v2; Some v3; Some v4].
Proof. exact (four_views int_of time_of b b1 b2 b3 b4 f). Qed.
(** Features are given in the reverse order of the lines, and only to files with five
    lines for each view; so a frame with four views and their twenty lines is left out. *)
Theorem C61_read files f path vs : read_features float_of files f path = Ok vs <-> reads float_of files path f vs.
Proof. exact (read_spec float_of files f path vs). Qed.
Theorem C61_read_errors files f path e : (forall w x, float_of w = Err x -> x = ValueError) ->
  read_features float_of files f path = Err e -> e = ValueError \/ left_out files path f.
Proof. exact (read_errors float_of files f path e). Qed.
(** Histograms by frame. *)
Theorem C61_by_frame d t k h : dict_get String.eqb FEATURES_INDEX t = Some k -> nth_error (o_histos d) k = Some h -> k < List.length (o_by_frame d) ->
  o_frames d <> [] -> (forall j, j < List.length (o_frames d) -> offset (o_frames d) j < nth 0 (shape (value h)) 0) ->
  list_sum (map views (o_frames d)) <= nth 0 (shape (value h)) 0 ->
  exists M, compute_histos_matrix_by_frame d t = Ok (mkObjects (o_frames d) (o_histos d) (list_set (o_by_frame d) k (Some M)) (o_names d)) /\
    by_frame (o_frames d) (value h) M.
Proof. exact (compute_value d t k h). Qed.
(** No frame, or a frame without view after all rows. *)
Theorem C61_by_frame_refused d t k h : dict_get String.eqb FEATURES_INDEX t = Some k -> nth_error (o_histos d) k = Some h ->
  o_frames d = [] \/ (exists j, j < List.length (o_frames d) /\ nth 0 (shape (value h)) 0 <= offset (o_frames d) j) ->
  compute_histos_matrix_by_frame d t = Err IndexError.
Proof. exact (compute_refused d t k h). Qed.
(** Frames made by Frame(...) are given back by to_dict, JSON and from_dict. *)
Theorem C61_frame_dict f : constructed f -> bind (json_rt (to_dict f)) from_dict = Ok f.
Proof. intros H. rewrite (logger_file.json_rt_ok _ _ (frame_image f)). exact (frame_again f H). Qed.

(** ** C89 *)
(** The database built from files: the frames whose features can be read, in order;
    matrix [k] has the mean over the views of every frame of vectors padded with
    zeros. *)
Theorem C89_build files path names fs r : listed int_of time_of files path fs -> kept float_of files (dirname path) fs r -> last_seen r ->
  exists d Ms, build_from int_of time_of float_of files path names = Ok d /\ o_frames d = map fst r /\ o_names d = names /\
    o_by_frame d = map Some Ms /\ List.length Ms = 5 /\ (forall k M, nth_error Ms k = Some M -> computed r k M) /\
    List.length (o_histos d) = 5 /\ forall k h, nth_error (o_histos d) k = Some h -> padded (vectors k r) (value h).
Proof. exact (build_ok int_of time_of float_of files path names fs r). Qed.
(** If no frame is left, or the last one has no view, IndexError. *)
Theorem C89_build_refused files path names fs r : listed int_of time_of files path fs -> kept float_of files (dirname path) fs r -> ~ last_seen r ->
  build_from int_of time_of float_of files path names = Err IndexError.
Proof. exact (build_none int_of time_of float_of files path names fs r). Qed.
(** What is saved is loaded again. *)
Theorem C89_save_load d k path name Ms : Forall constructed (o_frames d) -> List.length (o_histos d) = 5 -> o_by_frame d = map Some Ms -> List.length Ms = 5 ->
  destination path -> base_name name ->
  exists k', save d k path name = (k', Ok tt) /\
    load k' (path_join path (name ++ ".json")) = Ok (mkObjects (o_frames d) (map (fun h => Loaded (value h)) (o_histos d)) (o_by_frame d) (o_names d)) /\
    (forall p, p <> path_join path (name ++ ".json") -> dict_get String.eqb (d_json k') p = dict_get String.eqb (d_json k) p) /\
    (forall p, p <> path_join path (name ++ ".mat") -> dict_get String.eqb (d_mat k') p = dict_get String.eqb (d_mat k) p).
Proof. exact (save_load d k path name Ms). Qed.
Theorem C89_line_constructed line f : describes int_of time_of line f -> constructed f.
Proof. exact (described_constructed int_of time_of line f). Qed.
Theorem C89_save_early d k path name : In None (o_by_frame d) -> exists k', save d k path name = (k', Err TypeError) /\ d_mat k' = d_mat k.
Proof. exact (save_early d k path name). Qed.
End Theorems.

(** ** C88 *)
(** The data and the labels of a loader have the same frames in the same order, after
    any calls. *)
Theorem C88_aligned d features labels Ms l : name_ok d -> histograms d features Ms -> features <> [] -> Forall (fun M => nrows M = List.length (o_frames d)) Ms ->
  used (ObjectsLoader features labels d) l ->
  exists idx X ls, wanted d labels idx /\ snd (get_data l) = Ok X /\ snd (get_labels l) = Ok ls /\ nrows X = List.length idx /\ List.length ls = List.length idx /\
    forall q i, nth_error idx q = Some i -> row X q = List.concat (map (fun M => row M i) Ms) /\
      exists f n, nth_error (o_frames d) i = Some f /\ name_of d f n /\ nth_error ls q = Some (Some n).
Proof. exact (aligned d features labels Ms l). Qed.
(** A frame whose label is not the number of an entry of the names makes it fail, even if no such label is wanted. *)
Theorem C88_bad_name features labels d f : In f (o_frames d) -> (forall n, ~ entry_of d f n) ->
  exists e, snd (get_labels (ObjectsLoader features labels d)) = Err e.
Proof. exact (bad_name features labels d f). Qed.
(** No data without features, for a feature that does not exist, or before the matrices by frame
    are computed; the loader stays as it was. *)
Theorem C88_no_features l : l_features l = [] -> get_data l = (l, Err ValueError).
Proof. exact (no_features l). Qed.
Theorem C88_unknown_feature l fs t fs' : l_features l = (fs ++ t :: fs')%list -> dict_get String.eqb FEATURES_INDEX t = None ->
  (forall t, In t fs -> exists k b, dict_get String.eqb FEATURES_INDEX t = Some k /\ nth_error (o_by_frame (l_db l)) k = Some b) ->
  get_data l = (l, Err KeyError).
Proof. exact (unknown_feature l fs t fs'). Qed.
Theorem C88_not_computed l : l_features l <> [] ->
  (forall t, In t (l_features l) -> exists k, dict_get String.eqb FEATURES_INDEX t = Some k /\ nth_error (o_by_frame (l_db l)) k = Some None) ->
  get_data l = (l, Err AttributeError).
Proof. exact (no_matrices l). Qed.

Print Assumptions C61_line.
Print Assumptions C88_no_features.
Print Assumptions C88_unknown_feature.
Print Assumptions C88_not_computed.
Print Assumptions C61_line_errors.
Print Assumptions C61_name_once.
Print Assumptions C61_four_views.
Print Assumptions C61_read.
Print Assumptions C61_read_errors.
Print Assumptions C61_by_frame.
Print Assumptions C61_by_frame_refused.
Print Assumptions C61_frame_dict.
Print Assumptions C89_build.
Print Assumptions C89_build_refused.
Print Assumptions C89_save_load.
Print Assumptions C89_line_constructed.
Print Assumptions C89_save_early.
Print Assumptions C88_aligned.
Print Assumptions C88_bad_name.

(** ** Examples *)
Local Open Scope string_scope.
Definition ex_int (w : string) : result Z := if String.eqb w "7" then Ok 7%Z else Err ValueError.
Definition ex_time (w : string) : result Q := if String.eqb w "12.5" then Ok (25 # 2) else Err ValueError.
Definition ex_float (w : string) : result R := if String.eqb w "1" then Ok 1%R else if String.eqb w "3" then Ok 3%R else Err ValueError.
Example ex_line : from_line ex_int ex_time "shot_o03_12.5 |7 7| 7" = Ok (mkFrame "shot_o03_12.5" 3 (25 # 2) [Some [7%Z; 7%Z]; Some [7%Z]]).
Proof. reflexivity. Qed.
Example ex_four : from_line ex_int ex_time "shot_o3_12.5 |7|7|7|7" = Ok (mkFrame "shot_o3_12.5" 3 (25 # 2) [None; Some [7%Z]; Some [7%Z]; Some [7%Z]; Some [7%Z]]).
Proof. reflexivity. Qed.
Example ex_no_name : from_line ex_int ex_time "shot_03_12.5 |7" = Err ValueError.
Proof. reflexivity. Qed.
(** The last line is the first feature. *)
Definition f1 := mkFrame "s_o0_12.5" 0 (25 # 2) [Some [7%Z]].
Definition f2 := mkFrame "s_o1_12.5" 1 (25 # 2) [Some [7%Z]; Some [7%Z]].
Definition ex_files (p : string) : option (list string) :=
  if String.eqb p "d/stat" then Some ["s_o0_12.5 |7"; "gone_o0_12.5 |7"; "s_o1_12.5 |7|7"]
  else if String.eqb p "d/histograms/s_o0_12.5" then Some ["1"; "1"; "1"; "1"; "3 1"]
  else if String.eqb p "d/histograms/s_o1_12.5" then Some ["1"; "1"; "1"; "1"; "3"; " "; "1"; "1"; "1"; "1"; "1 1"]
  else None.
Example ex_read : read_features ex_float ex_files f1 "d" = Ok [[[3; 1]; [1]; [1]; [1]; [1]]]%R.
Proof. reflexivity. Qed.
Definition ex_kept : list (frame * list (list (list R))) :=
  [(f1, [[[3; 1]; [1]; [1]; [1]; [1]]]); (f2, [[[1; 1]; [1]; [1]; [1]; [1]]; [[3]; [1]; [1]; [1]; [1]]])]%R.
Definition fgone := mkFrame "gone_o0_12.5" 0 (25 # 2) [Some [7%Z]].
Example ex_hyps : listed ex_int ex_time ex_files "d/stat" [f1; fgone; f2] /\ kept ex_float ex_files (dirname "d/stat") [f1; fgone; f2] ex_kept /\ last_seen ex_kept.
Proof.
  split; [|split].
  - exists ["s_o0_12.5 |7"; "gone_o0_12.5 |7"; "s_o1_12.5 |7|7"]. eexists. split; [reflexivity|]. split; [apply without_lines; reflexivity|].
    repeat constructor; apply C61_line; reflexivity.
  - constructor; [apply C61_read; reflexivity|]. constructor; [left; reflexivity|]. constructor; [apply C61_read; reflexivity|constructor].
  - exists [(f1, [[[3; 1]; [1]; [1]; [1]; [1]]])]%R, f2. eexists. split; [reflexivity|discriminate].
Qed.
(** The histogram of the second frame is the mean of (1, 1) and (3, 0). *)
Example ex_build : exists d M, build_from ex_int ex_time ex_float ex_files "d/stat" (Some [Some "cup"; Some "ball"]) = Ok d /\ nth_error (o_by_frame d) 0 = Some (Some M) /\
  shape M = [2; 2] /\ el M [0; 0] = 3%R /\ el M [1; 0] = 2%R /\ el M [1; 1] = (1 / 2)%R.
Proof.
  destruct ex_hyps as (A & B & C). destruct (C89_build _ _ _ ex_files "d/stat" (Some [Some "cup"; Some "ball"]) _ _ A B C) as (d & Ms & E & _ & _ & BF & L5 & CM & _).
  destruct Ms as [|M Ms]; [discriminate|]. exists d, M. split; [exact E|]. rewrite BF. split; [reflexivity|]. destruct (CM 0 M eq_refl) as (SH & EL).
  split; [exact SH|]. change (longest (vectors 0 ex_kept)) with 2 in EL.
  split; [|split].
  - destruct (EL 0 f1 _ 0 eq_refl ltac:(lia)) as (X & _). rewrite (X ltac:(cbn; lia)). unfold mean, padded_at. cbn. lra.
  - destruct (EL 1 f2 _ 0 eq_refl ltac:(lia)) as (X & _). rewrite (X ltac:(cbn; lia)). unfold mean, padded_at. cbn. lra.
  - destruct (EL 1 f2 _ 1 eq_refl ltac:(lia)) as (X & _). rewrite (X ltac:(cbn; lia)). unfold mean, padded_at. cbn. lra.
Qed.
(** A loader that keeps one of two frames. *)
Definition ex_db := mkObjects [f1; f2] (repeat (Loaded (Nd [2; 1] (fun ix => INR (nth 0 ix 0)))) 5) (repeat (Some (Nd [2; 1] (fun ix => INR (nth 0 ix 0)))) 5) (Some [Some "cup"; Some "ball"]).
Example ex_loader : name_ok ex_db /\ histograms ex_db ["SURF"; "color"] [Nd [2; 1] (fun ix => INR (nth 0 ix 0)); Nd [2; 1] (fun ix => INR (nth 0 ix 0))] /\
  snd (get_labels (fst (get_data (ObjectsLoader ["SURF"; "color"] ["ball"; "car"] ex_db)))) = Ok [Some "ball"].
Proof.
  split; [|split; [|reflexivity]].
  - intros f [<-|[<-|[]]]; eexists; eexists; (split; [reflexivity|reflexivity]).
  - repeat constructor; eexists; (split; [reflexivity|reflexivity]).
Qed.
Definition ex_fresh := mkObjects [f1] (repeat (Loaded (Nd [1; 1] (fun _ => 1%R))) 5) (repeat None 5) None.
Example ex_not_computed : snd (get_data (ObjectsLoader ["SURF"; "color"] [] ex_fresh)) = Err AttributeError.
Proof.
  rewrite C88_not_computed; [reflexivity|discriminate|]. intros t [<-|[<-|[]]]; eexists; (split; [reflexivity|reflexivity]).
Qed.
Example ex_unknown_feature : snd (get_data (ObjectsLoader ["SURF"; "smell"] [] ex_db)) = Err KeyError.
Proof.
  rewrite (C88_unknown_feature _ ["SURF"] "smell" []); [reflexivity|reflexivity|reflexivity|].
  intros t [<-|[]]. do 2 eexists. split; reflexivity.
Qed.
