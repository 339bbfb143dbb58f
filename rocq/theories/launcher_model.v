(** * Model of the launcher of experiments (samples/launcher.py) and of the scripts that
    run one experiment (samples/two_modalities.py, samples/three_modalities.py).

    The numbers of components Ks and the number N_RUN of repetitions are arguments.  The
    package expjobs is not in the repository: a job is its name and its script, [config]
    gives the path of its file of parameters, and its helper run_class is taken to load the
    experiment from that file, to give it the directory and the name of the job
    (set_out_path_and_name, experiment.py:38-39) and to call run.  The jobs of a pool are
    run one after the other, in any order; a job that raises does not stop the others.
    Dictionaries are in the order of their insertion.  The arguments of the command line,
    the saving of figures and the display of the status of jobs (lines 22-66, 181-195,
    238-253) are in launch_model.v; the parameters of matplotlib are not modelled. *)

From Coq Require Import List ZArith Reals Bool Arith String.
Import ListNotations.
From Verif Require Import Py nd_model logger_model experiment_model figures_model.
From Verif Require serial_model sound_model.
Open Scope py_scope.
Local Open Scope nat_scope.
Notation length := List.length.
Notation val := (logger_model.val nd).
Notation world := (logger_model.world nd).
Notation exper := (serial_model.exper nd).

(** "{}".format of a natural number. *)
Definition fmt (n : nat) : string := string_of_nat n.

(** ** The experiments (launcher.py:71-116)

    An experiment with its class; [labels] is DEFAULT_LABELS of db/objects.py. *)
Record planned := Planned { pl_name : string; pl_kind : kind; pl_exper : exper }.

Section Plan.
Variable labels : list string.
Variable Ks : list nat.
Variable n_run : nat.

Definition image_loader (features : list string) : serial_model.loader nd :=
  serial_model.ObjectsLoader (VList (map VStr features)) labels.
Definition motion_loader : serial_model.loader nd := serial_model.Choreo2Loader.
Definition sound_loader : serial_model.loader nd := serial_model.Year1Loader (VInt 1).

(** lines 81, 86, 91, 98, 113: the last arguments are 50, 50, coefs=None and DEFAULT_PARAMS (lines 71-75). *)
Definition with_defaults (loaders : list (string * serial_model.loader nd)) (k : nat) : exper :=
  serial_model.init loaders (VInt (Z.of_nat k)) (VInt 50) (VInt 50) VNone (VBool true) (VStr "single") (VBool false).

Definition for_k_i {A} (f : nat -> nat -> A) : list A := flat_map (fun k => map (f k) (seq 0 n_run)) Ks.
(** launcher.py:77-92 *)
Definition exps_2 : list planned :=
  for_k_i (fun k i => Planned ("motion_sound_" ++ fmt k ++ "_" ++ fmt i)%string Two
    (with_defaults [("motion"%string, motion_loader); ("sound"%string, sound_loader)] k)) ++
  for_k_i (fun k i => Planned ("image_sound_" ++ fmt k ++ "_" ++ fmt i)%string Two
    (with_defaults [("image"%string, image_loader ["SURF"; "color"]%string); ("sound"%string, sound_loader)] k)) ++
  for_k_i (fun k i => Planned ("image_motion_" ++ fmt k ++ "_" ++ fmt i)%string Two
    (with_defaults [("image"%string, image_loader ["SURF"; "color"]%string); ("motion"%string, motion_loader)] k)).
(** launcher.py:93-99 *)
Definition exps_3 : list planned :=
  for_k_i (fun k i => Planned ("image_motion_sound_" ++ fmt k ++ "_" ++ fmt i)%string Three
    (with_defaults [("image"%string, image_loader ["SURF"; "color"]%string); ("motion"%string, motion_loader); ("sound"%string, sound_loader)] k)).
(** launcher.py:101-114 *)
Definition image_features : list string := ["SURF"; "color"; "SURF_pairs"; "color_pairs"; "color_triplets"]%string.
Definition descriptor_sets : list (list string) :=
  map (fun f => [f]) image_features ++
  [["SURF"; "color"]; ["SURF_pairs"; "color_pairs"]; ["SURF_pairs"; "color_triplets"]; image_features]%string.
Definition exp_images : list planned :=
  flat_map (fun d => map (fun i => Planned ("image_sound_feats_" ++ join d ++ "_" ++ fmt i)%string Two
    (with_defaults [("image"%string, image_loader d); ("sound"%string, sound_loader)] 50)) (seq 0 n_run)) descriptor_sets.
(** launcher.py:116 *)
Definition exps : list planned := exps_2 ++ exps_3 ++ exp_images.

(** ** Jobs (launcher.py:118-120, 129-133) *)
Inductive script := SCRIPT2 | SCRIPT3.
Record job := Job { j_name : string; j_script : script }.
Definition jobs : list job :=
  map (fun e => Job (pl_name e) SCRIPT2) exps_2 ++ map (fun e => Job (pl_name e) SCRIPT3) exps_3 ++
  map (fun e => Job (pl_name e) SCRIPT2) exp_images.
Definition MOD_PAIRS : list (string * string) := [("motion", "sound"); ("image", "motion"); ("image", "sound")]%string.
Definition JOBS_BY_NAME : list (string * job) := fold_left (fun d j => dict_set String.eqb d (j_name j) j) jobs [].

(** ** The action prepare (launcher.py:198-201) *)
Fixpoint save_configs (ord : list string -> list string) (config : string -> string) (fs : serial_model.files nd) (l : list (planned * job))
  : serial_model.files nd * result unit :=
  match l with
  | [] => (fs, Ok tt)
  | (e, j) :: l' =>
      match serial_model.save_serialized_parameters ord fs (pl_exper e) (config (j_name j)) with
      | (fs', Ok _) => save_configs ord config fs' l'
      | (fs', Err x) => (fs', Err x)
      end
  end.
Definition prepare_action (ord : list string -> list string) (config : string -> string) (fs : serial_model.files nd) : serial_model.files nd * result unit :=
  save_configs ord config fs (combine exps jobs).

(** ** The scripts (two_modalities.py:14-23, three_modalities.py:14-23)

    [data] is what a loader gives from the files of its dataset.  The parameters are those
    that the constructor got; other types than the ones here raise TypeError here. *)
Definition mode_of (v : val) : result mode :=
  match v with
  | VStr s => if String.eqb s "leave-one-out" then Ok LeaveOneOut else if String.eqb s "single" then Ok Single else Err TypeError
  | VFloat q => Ok (Ratio q)
  | _ => Err TypeError
  end.
Definition experiment_of (data : serial_model.loader nd -> loader) (kd : kind) (e : exper) : result experiment :=
  m <- mode_of (serial_model.ex_run_mode e) ;;
  match serial_model.ex_k e, serial_model.ex_coefs e, serial_model.ex_iter_train e, serial_model.ex_iter_test e,
        serial_model.ex_shuffle_labels e, serial_model.ex_debug e with
  | VInt k, VNone, VInt itr, VInt ite, VBool sh, VBool db =>
      Ok (Exp kd (serial_model.ex_modalities e) (map data (serial_model.ex_loaders e)) (Z.to_nat k) None itr ite sh m db)
  | _, _, _, _, _, _ => Err TypeError
  end.
Definition script_kind (s : script) : kind := match s with SCRIPT2 => Two | SCRIPT3 => Three end.
(** The log is written by run, then the table is printed. *)
Definition run_job (py2 : bool) (ord : list string -> list string) (config : string -> string) (workdir : string)
  (data : serial_model.loader nd -> loader) (rd : string -> random) (files : serial_model.files nd) (f : fs nd) (j : job) : fs nd * result unit :=
  match (e <- serial_model.load_from_serialized files (config (j_name j)) ;; experiment_of data (script_kind (j_script j)) e) with
  | Err x => (f, Err x)
  | Ok x =>
      match run ord (rd (j_name j)) x (Some (sound_model.path_join workdir (j_name j))) f with
      | (w, f', Err x) => (f', Err x)
      | (w, f', Ok _) => (f', match j_script j with SCRIPT2 => snd (print_two w x) | SCRIPT3 => snd (print_three py2 w x) end)
      end
  end.
Definition run_jobs py2 ord config workdir data rd files (f : fs nd) (order : list job) : fs nd :=
  fold_left (fun f j => fst (run_job py2 ord config workdir data rd files f j)) order f.

(** ** Collecting of the logs (launcher.py:136-178)

    Every load makes new objects in the world. *)
Fixpoint wmap {A B} (f : world -> A -> world * result B) (l : list A) (w : world) : world * result (list B) :=
  match l with
  | [] => (w, Ok [])
  | a :: l' => log w, b <- f w a ;; log w, bs <- wmap f l' w ;; (w, Ok (b :: bs))
  end.
Definition load_job (workdir : string) (f : fs nd) (name : string) (w : world) : world * result nat :=
  match dict_get String.eqb JOBS_BY_NAME name with
  | None => (w, Err KeyError)
  | Some j => load w f (sound_model.path_join workdir (j_name j)) false false
  end.
Definition load_merged (workdir : string) (f : fs nd) (name : nat -> string) (w : world) : world * result nat :=
  log w, current <- wmap (fun w i => load_job workdir f (name i) w) (seq 0 n_run) w ;;
  merge_experiments w current.
(** launcher.py:136-149 *)
Definition collect_results (workdir : string) (f : fs nd) (w : world) : world * result (list ((string * string) * list nat)) :=
  wmap (fun w m => log w, ls <- wmap (fun w k => load_merged workdir f (fun i => fst m ++ "_" ++ snd m ++ "_" ++ fmt k ++ "_" ++ fmt i)%string w) Ks w ;;
                   (w, Ok (m, ls))) MOD_PAIRS w.
(** launcher.py:152-165: one list is filled for each pair, all with the same loggers. *)
Definition collect_results3 (workdir : string) (f : fs nd) (w : world) : world * result (list ((string * string) * list nat)) :=
  log w, ls <- wmap (fun w k => load_merged workdir f (fun i => "image_motion_sound_" ++ fmt k ++ "_" ++ fmt i)%string w) Ks w ;;
  (w, Ok (map (fun m => (m, ls)) MOD_PAIRS)).
(** launcher.py:168-178 *)
Definition collect_results_image (workdir : string) (f : fs nd) (w : world) : world * result (list (list string * nat)) :=
  wmap (fun w d => log w, l <- load_merged workdir f (fun i => "image_sound_feats_" ++ join d ++ "_" ++ fmt i)%string w ;;
                   (w, Ok (d, l))) descriptor_sets w.

(** ** The action plot (launcher.py:226-237)

    Ks.index(50) raises ValueError when 50 is not in the list. *)
Definition index_of (l : list nat) (k : nat) : result Z :=
  i <- list_index Nat.eqb l k 0 ;; Ok (Z.of_nat i).
Definition figures : Type :=
  (list curve * list (string * curve)) * (list (string * list box) * (string * list box)) * list (list box) * (list box * list (list box)).
Definition plot_action (py2 : bool) (workdir : string) (f : fs nd) (w : world) : world * result figures :=
  log w, loggers_2 <- collect_results workdir f w ;;
  log w, loggers_3 <- collect_results3 workdir f w ;;
  log w, loggers_image <- collect_results_image workdir f w ;;
  lift w (
    fig_2k <- plot_2k_graphs w [loggers_2; loggers_3] Ks "_cosine" ;;
    idx50 <- index_of Ks 50 ;;
    at_50 <- mapM (fun l => lg <- py_nth (snd l) idx50 ;; Ok (fst l, lg)) loggers_2 ;;
    l3 <- match dict_get pair_eqb loggers_3 ("image", "motion")%string with Some l => Ok l | None => Err KeyError end ;;
    lg3 <- py_nth l3 idx50 ;;
    fig_one2one <- plot_boxes py2 w at_50 lg3 ;;
    fig_feats <- plot_boxes_by_feats py2 w loggers_image ;;
    fig_all_mod <- plot_boxes_all_mods py2 w lg3 ;;
    Ok (fig_2k, fig_one2one, fig_feats, fig_all_mod)).
End Plan.
