(** * Model of samples/image_sound_eval_sliding.py (lines 34-132).

    The script is made of statements, not of functions: the definitions below are
    its parts in their order.  The recordings (wavfile.read), the functions of librosa
    and scipy, the numbers drawn by the factorisations, the order of the keys of a
    dictionary, the working directory and os.path.expanduser are arguments of the
    model.  Not modelled: what is printed, the temporary directory (which is not used),
    and that the windows are handed to several processes (Pool.map keeps their order
    and raises what a call raises). *)

From Coq Require Import List ZArith Reals Bool Arith String QArith.
Import ListNotations.
From Verif Require Import Py utils_model logger_model nd_model sparse_model metrics_model nmf_model learner_model experiment_model figures_model window_model hac_model.
From Verif Require sound_model hacfeat_model stack_model.
Open Scope py_scope.
Local Open Scope nat_scope.
Notation length := List.length.
Notation Q := QArith_base.Q.

(** ** The command line (lines 34-37 and 43-48); [cwd] is os.getcwd().  The name of the log is set by
    set_out_path_and_name (experiment.py:38-39). *)
Definition pop_debug (argv : list string) : bool * list string :=
  match argv with
  | prog :: a :: rest => if String.eqb a "--debug" then (true, prog :: rest) else (false, argv)
  | _ => (false, argv)
  end.
Definition log_name (expanduser : string -> string) (cwd : string) (argv : list string) : option string :=
  match argv with
  | _ :: name :: rest =>
      let path := match rest with p :: _ => expanduser p | [] => ""%string end in
      Some (sound_model.path_join (sound_model.path_join cwd path) name)
  | _ => None
  end.

(** The experiment (lines 39-41): the modalities are in the order of the keys of a dictionary. *)
Definition new_experiment (objects_first : bool) (objects sounds : loader) (debug : bool) : experiment :=
  let mods := ["objects"; "sound"]%string in
  let loaders := [objects; sounds] in
  Exp Two (if objects_first then mods else rev mods) (if objects_first then loaders else rev loaders)
    50 None 50 50 false Single debug.

(** ** Values of the log. *)
Definition read_nat (v : val) : result nat :=
  match v with VInt z => if (z <? 0)%Z then Err ValueError else Ok (Z.to_nat z) | _ => Err TypeError end.
Definition read_nats (v : val) : result (list nat) :=
  match v with VList l => mapM read_nat l | VTuple l => mapM read_nat l | _ => Err TypeError end.
Definition read_pairing (v : val) : result (list (list nat)) :=
  match v with VList l => mapM read_nats l | _ => Err TypeError end.

(** l[:10] in debug mode (lines 66-69). *)
Definition first_ten {B} (debug : bool) (l : list B) : list B := if debug then slice_to l 10 else l.

(** Lines 54-55 *)
Definition WIDTH : Q := 1 # 2.
Definition SHIFT : Q := 1 # 10.

Section Script.
Context {A F : Type} (zero : F).
(** scipy.io.wavfile.read *)
Variable wavs : wavfiles string A.
(** sound_loader.records[i].get_audio_path() *)
Variable audio : nat -> result string.
(** The functions used by hac (see hac_model); a sound is its rate and its samples. *)
Variable mfcc : Q * list A -> result (mat F).
Variable delta : mat F -> nat -> result (mat F).
Variable vq : mat F -> mat F -> result (list Z).
Notation leaf := (leaf nat A string).

(** Lines 72-76; [m] is sound_modality. *)
Definition sound_windows (m : nat) (pairing : list (list nat)) : result (list leaf) :=
  paths <- mapM (fun t => i <- py_nth t (Z.of_nat m) ;; audio i) pairing ;;
  concat_from_list_of_wavs wavs paths None.
(** Lines 78-81 *)
Definition index_windows (m : nat) (pairing : list (list nat)) (wins : list leaf) : result (list leaf) :=
  ws <- mapM (fun iw => i <- py_nth (fst iw) (Z.of_nat m) ;; Ok (LB (Basic (w_start (snd iw)) (w_end (snd iw)) (Some i)))) (combine pairing wins) ;;
  new_concat ws.
(** Lines 82-84: the objects of the first windows are replaced. *)
Definition set_obj (w : leaf) (l : nat) : leaf :=
  match w with LB b => LB (Basic (b_start b) (b_end b) (Some l)) | w => w end.
Fixpoint set_objs (ws : list leaf) (labels : list nat) : list leaf :=
  match ws, labels with
  | w :: ws', l :: labels' => set_obj w l :: set_objs ws' labels'
  | _, _ => ws
  end.
Definition label_windows (idx_wins : list leaf) (labels : list nat) : result (list leaf) :=
  ws <- concat_copy wavs idx_wins ;; Ok (set_objs ws labels).
(** Lines 87-91 *)
Definition sliding_windows (wins : list leaf) : result (list (list leaf)) :=
  s <- concat_start wins ;;
  e <- concat_end wins ;;
  times <- slider s e WIDTH SHIFT false TOL ;;
  mapM (fun p => concat_get_subwindow wavs wins (fst p) (snd p)) times.

(** Lines 31 and 94: the file of the codebooks, written by db/scripts/build_codebook. *)
Definition load_codebooks (feat_dir : string) (store : list (string * hacfeat_model.mat_file F)) : result (hacfeat_model.codebooks F) :=
  match dict_get String.eqb store (hacfeat_model.CODEBOOK_PATH feat_dir) with
  | None => Err IOError
  | Some f => Ok (hacfeat_model.m_codebooks f)
  end.
(** hac with the lags 5 and 2; numbers cannot be compared with vectors (see hacfeat_model). *)
Definition hac_of (c : hacfeat_model.codebooks F) (s : Q * list A) : result (list nat) :=
  match c with
  | hacfeat_model.Cells l => hac F zero vq (Q * list A) mfcc delta s l [5; 2]%Z
  | hacfeat_model.Numbers _ => m <- mfcc s ;; delta m 1 ;;; delta m 2 ;;; Err ValueError
  end.
(** Lines 97-100: a csc_matrix of one row, here as its rows. *)
Definition row_matrix (v : list nat) : matrix :=
  Sparse (of_dense 1 (length v) (Nd [1; length v] (fun idx => INR (nth (nth 1 idx 0) v 0)))).
Definition process_win (c : hacfeat_model.codebooks F) (w : list leaf) : result matrix :=
  a <- concat_to_array wavs w ;;
  v <- hac_of c (a_rate a, a_data a) ;;
  Ok (row_matrix v).
(** X_test.tocsr()[:, :n] (line 115) *)
Definition first_cols (n : nat) (x : matrix) : matrix :=
  match x with
  | Dense a => Dense (Nd [rows_of x; Nat.min n (cols_of x)] (el a))
  | Sparse s => Sparse (Csr (Nat.min n (ncol s)) (map (filter (fun p => fst p <? n)) (lines s)))
  end.

(** Lines 107-115 *)
Definition test_matrix (debug : bool) (n_features : nat) (c : hacfeat_model.codebooks F) (wins : list (list leaf)) : result matrix :=
  vectors <- mapM (process_win c) wins ;;
  x <- stack_model.sp_vstack vectors ;;
  Ok (if debug then first_cols n_features x else x).

(** An array of the log. *)
Definition read_array (v : val) : result nd := match v with VArr a => Ok a | _ => Err TypeError end.

(** Lines 58-126: the distances, from the log [w] and from the attributes [p] that run
    leaves; [draws] gives the numbers drawn by the two factorisations. *)
Definition sliding_distances (draws : nat -> nat -> list nat -> R) (feat_dir : string) (store : list (string * hacfeat_model.mat_file F))
    (x : experiment) (p : prepared) (w : world) : result nd :=
  sound_modality <- list_index String.eqb (x_mods x) "sound"%string 0 ;;
  objects_modality <- list_index String.eqb (x_mods x) "objects"%string 0 ;;
  v <- get_last_value w 0 "test" ;;
  test_idx <- read_nats v ;;
  test_labels <- mapM (fun t => py_nth (p_labels p) (Z.of_nat t)) test_idx ;;
  v <- get_value w 0 "sample_pairing" ;;
  assoc_idx <- read_pairing v ;;
  let test_labels := first_ten (x_debug x) test_labels in
  let assoc_idx := first_ten (x_debug x) assoc_idx in
  wins <- sound_windows sound_modality assoc_idx ;;
  idx_wins <- index_windows sound_modality assoc_idx wins ;;
  _ <- label_windows idx_wins test_labels ;;
  sliding <- sliding_windows wins ;;
  codebooks <- load_codebooks feat_dir store ;;
  let n_features := map cols_of (p_data p) in
  n <- py_nth n_features (Z.of_nat sound_modality) ;;
  X_test <- test_matrix (x_debug x) n codebooks sliding ;;
  v <- get_last_value w 0 "dictionary" ;;
  d <- read_array v ;;
  let learner := Learner (x_mods x) n_features (p_coefs p) (x_k x) false (Some d) in
  test_coefs <- reconstruct_internal (draws 0) 0 learner "sound"%string X_test (x_iter_test x) ;;
  data_ex <- py_nth (p_data_ex p) (Z.of_nat objects_modality) ;;
  ex_coefs <- reconstruct_internal (draws 1) 0 learner "objects"%string data_ex (x_iter_test x) ;;
  all_distances_nd test_coefs ex_coefs cosine_diff.

(** Lines 51-132 for any experiment; the attributes left by run are those of prepare. *)
Definition evaluate_sliding (ord : list string -> list string) (rd : random) (draws : nat -> nat -> list nat -> R) (feat_dir : string)
    (store : list (string * hacfeat_model.mat_file F)) (x : experiment) (filename : option string) (f : fs nd) : world * fs nd * result unit :=
  match run ord rd x filename f with
  | (w, f, Err e) => (w, f, Err e)
  | (w, f, Ok _) =>
      match (_ <- snd (print_two w x) ;; p <- prepare rd x ;; d <- sliding_distances draws feat_dir store x p w ;; Ok (p, d)) with
      | Err e => (w, f, Err e)
      | Ok (p, d) =>
          match (log w, _ <- logger_model.store w 0 "sliding_distances"%string (VArr d) ;;
                 logger_model.store w 0 "label_ex"%string (VNats (p_labels_ex p))) with
          | (w, Err e) => (w, f, Err e)
          | (w, Ok _) =>
              let '(f, r) := save ord w 0 f in
              (w, f, match r with Err NoFileError => Ok tt | r => r end)
          end
      end
  end.

(** samples/plot_image_sound_eval_sliding.py:27-28, 32-33, 39 and 47-51: the windows to be plotted, from the log. *)
Definition read_strings (v : val) : result (list string) :=
  match v with VList l => mapM (fun v => match v with VStr s => Ok s | _ => Err TypeError end) l | _ => Err TypeError end.
Definition plot_windows (w : world) (i : nat) : result (list (list leaf)) :=
  v <- get_value w i "modalities" ;;
  mods <- read_strings v ;;
  m <- list_index String.eqb mods "sound"%string 0 ;;
  v <- get_value w i "sample_pairing" ;;
  assoc_idx <- read_pairing v ;;
  wins <- sound_windows m assoc_idx ;;
  sliding_windows wins.

(** The whole script. *)
Definition script (expanduser : string -> string) (cwd : string) (argv : list string) (objects_first : bool) (objects sounds : loader)
    (ord : list string -> list string) (rd : random) (draws : nat -> nat -> list nat -> R) (feat_dir : string)
    (store : list (string * hacfeat_model.mat_file F)) (f : fs nd) : world * fs nd * result unit :=
  let '(debug, argv) := pop_debug argv in
  evaluate_sliding ord rd draws feat_dir store (new_experiment objects_first objects sounds debug) (log_name expanduser cwd argv) f.
End Script.
