(** * Model of multimodal/experiment.py.

    A loader is what it gives: the labels and the data matrix of its modality
    (dense or sparse, two axes).  Numbers given by the user are integers and
    rationals; a float of Python is a rational.  The attributes of an experiment
    are those of one call of run; writing of files is [save] of logger_model.
    Printing (log) is not modelled; print_result_table is in figures_model.v. *)

From Coq Require Import List ZArith Reals Bool Arith String.
Import ListNotations.
From Verif Require Import Py pairing_model evaluation_model utils_model logger_model nd_model sparse_model metrics_model nmf_model learner_model.
From Coq Require Import QArith Qreals.
Open Scope py_scope.
Local Open Scope nat_scope.
Notation length := List.length.
Notation Q := QArith_base.Q.
Notation val := (logger_model.val nd).
Notation world := (logger_model.world nd).

(** run_mode (experiment.py:54, 123-130). *)
Inductive mode := LeaveOneOut | Single | Ratio (q : Q).
(** TwoModalitiesExperiment, ThreeModalitiesExperiment or MultimodalExperiment. *)
Inductive kind := Two | Three | Base.

Record loader := Loader { ld_labels : list string; ld_data : matrix }.
(** experiment.py:44-55 *)
Record experiment := Exp {
  x_kind : kind; x_mods : list string; x_loaders : list loader; x_k : nat;
  x_coefs : option (list Q); x_iter_train : Z; x_iter_test : Z;
  x_shuffle_labels : bool; x_mode : mode; x_debug : bool }.

(** Everything that is random, depends on the order of a set or on the clock:
    the names of list(set(labels)) of each modality (shuffled or not), the
    shuffles of associate_samples, the order of set(labels) in chose_examples,
    the shuffle of random_split, the numbers drawn by each factorisation (run,
    number of the call in the run), the times. *)
Record random := Random {
  r_names : list (list string); r_buckets : nat -> nat -> list nat -> list nat;
  r_label_set : list nat; r_split : list nat -> list nat;
  r_draws : nat -> nat -> nat -> list nat -> R;
  r_start : string; r_end : string }.

(** x[rows, :] with a list of row numbers. *)
Definition take_rows (x : matrix) (idx : list nat) : result matrix :=
  if forallb (fun i => i <? rows_of x) idx then
    Ok match x with
       | Dense a => Dense (Nd [length idx; cols_of x] (fun ix => el a [nth (nth 0 ix 0) idx 0; nth 1 ix 0]))
       | Sparse s => Sparse (Csr (ncol s) (map (fun i => nth i (lines s) []) idx))
       end
  else Err IndexError.

(** x[:200, :11] *)
Definition crop (x : matrix) : matrix :=
  match x with
  | Dense a => Dense (Nd [Nat.min 200 (rows_of x); Nat.min 11 (cols_of x)] (el a))
  | Sparse s => Sparse (Csr (Nat.min 11 (ncol s)) (map (filter (fun p => fst p <? 11)) (firstn 200 (lines s))))
  end.

(** np.average(x.sum(axis=1)) of a matrix, and _set_coefs (experiment.py:70-72). *)
Definition row_average (x : matrix) : result R := s <- sum_axis (mvalue x) (Some 1%Z) ;; Ok (average s).
Definition set_coefs (x : experiment) : result (list R) :=
  match x_coefs x with
  | Some cs => Ok (map Q2R cs)
  | None => mapM (fun l => a <- row_average (ld_data l) ;; Ok (1 / a)%R) (x_loaders x)
  end.

(** The attributes set by prepare (experiment.py:74-121). *)
Record prepared := Prep {
  p_names : list (list string); p_pairing : list (list nat); p_coefs : list R;
  p_labels_all : list nat; p_examples : list nat; p_others : list nat;
  p_data_ex : list matrix; p_data : list matrix; p_labels_ex : list nat; p_labels : list nat;
  p_generator : result (list (list nat * list nat)) }.

(** get_generator (experiment.py:123-130).  A generator is the list of what it
    gives; random_split is a generator too, so its exception is raised by the
    first call of next: the outer result is what get_generator raises, the inner
    one what the first next raises. *)
Definition get_generator (rd : random) (m : mode) (n_samples : nat) : result (result (list (list nat * list nat))) :=
  match m with
  | LeaveOneOut => Ok (Ok (leave_one_out n_samples))
  | Single =>
      l <- random_split round64 (r_split rd) n_samples (round64 (/ 10)) ;;
      match l with [] => Err StopIteration | s :: _ => Ok (Ok [s]) end
  | Ratio q => Ok (random_split round64 (r_split rd) n_samples (Q2R q))
  end.

(** set(a) == set(b) of numbers. *)
Definition nat_mem (x : nat) (l : list nat) : bool := existsb (Nat.eqb x) l.
Definition same_set (a b : list nat) : bool :=
  forallb (fun x => nat_mem x b) a && forallb (fun x => nat_mem x a) b.

Definition prepare (rd : random) (x : experiment) : result prepared :=
  '(names, labels, pairing) <- associate_samples String.eqb (r_names rd) (r_buckets rd) (map ld_labels (x_loaders x)) ;;
  coefs <- set_coefs x ;;
  data <- mapM (fun p => idx <- mapM (fun t => py_nth t (Z.of_nat (fst p))) pairing ;; take_rows (snd p) idx)
               (enumerate (map ld_data (x_loaders x))) ;;
  let data := if x_debug x then map crop data else data in
  let labels_all := if x_debug x then slice_to labels 200 else labels in
  examples <- chose_examples Nat.eqb labels_all (r_label_set rd) 1 ;;
  let others := filter (fun i => negb (nat_mem i examples)) (seq 0 (length labels_all)) in
  data_ex <- mapM (fun y => take_rows y examples) data ;;
  data <- mapM (fun y => take_rows y others) data ;;
  labels_ex <- mapM (fun i => py_nth labels_all (Z.of_nat i)) examples ;;
  labels <- mapM (fun i => py_nth labels_all (Z.of_nat i)) others ;;
  gen <- get_generator rd (x_mode x) (length labels) ;;
  py_assert (same_set labels_ex labels_all) ;;;
  py_assert (forallb (fun y => length labels =? rows_of y) data) ;;;
  py_assert (forallb (fun l => l <? 10) labels) ;;;
  Ok (Prep names pairing coefs labels_all examples others data_ex data labels_ex labels gen).

(** ** One run. *)

Definition wbind {A B} (s : world * result A) (f : world -> A -> world * result B) : world * result B :=
  match s with
  | (w, Ok a) => f w a
  | (w, Err e) => (w, Err e)
  end.
Notation "'log' w , x <- s ;; k" := (wbind s (fun w x => k))
  (at level 61, w name, x name, s at next level, right associativity).

(** A computation that does not use the logger. *)
Definition lift {A} (w : world) (r : result A) : world * result A := (w, r).

Definition VNats (l : list nat) : val := VList (map (fun i => VInt (Z.of_nat i)) l).
(** A score of no labels is nan in Python; it is VNone here. *)
Definition VScore (s : option Q) : val := match s with Some q => VFloat q | None => VNone end.

(** The measures with the suffixes of their keys (experiment.py:245-247, 331-333). *)
Definition kl_measure (a b : nd) (axis : Z) : result nd := '(r, _, _) <- kl_div a b axis EPSILON false ;; Ok r.
Definition rev_kl_measure (a b : nd) (axis : Z) : result nd := '(r, _, _) <- rev_kl_div a b axis EPSILON false ;; Ok r.
Definition measures : list ((nd -> nd -> Z -> result nd) * string) :=
  [(kl_measure, ""); (rev_kl_measure, "_bis"); (frobenius, "_frob"); (cosine_diff, "_cosine")]%string.

(** classify_NN (evaluation.py:109-116) on matrices. *)
Definition dists_of (d : nd) : dists R :=
  Dists (map (fun i => map (fun j => el d [i; j]) (seq 0 (nth 1 (shape d) 0))) (seq 0 (nth 0 (shape d) 0))) (nth 1 (shape d) 0).
Definition classify_matrix (test ex : matrix) (labels_ex : list nat) (measure : nd -> nd -> Z -> result nd) : result (list nat) :=
  d <- all_distances_nd (mvalue test) (mvalue ex) measure ;;
  dists_to_found_labels Rlt_bool (dists_of d) labels_ex.

(** self.modalities[m] *)
Definition mod_name (mods : list string) (m : nat) : string := nth m mods ""%string.

(** Keys of TwoModalitiesExperiment (experiment.py:281-290); [None] is INTERNAL. *)
Definition exp_key (mods : list string) (m1 m2 : nat) (cmp : option nat) (metric : string) : string :=
  (mod_name mods m1 ++ "2" ++ mod_name mods m2 ++
   (match cmp with None => "" | Some c => "_" ++ mod_name mods c end) ++ metric)%string.
Definition score_key mods m1 m2 cmp metric : string := ("score_" ++ exp_key mods m1 m2 cmp metric)%string.
Definition found_key mods m1 m2 cmp metric : string := ("found_" ++ exp_key mods m1 m2 cmp metric)%string.

(** MultimodalExperiment._get_all_internals (experiment.py:177-180); [call] is the
    number of the first factorisation. *)
Definition all_internals (rnd : nat -> nat -> list nat -> R) (call : nat) (l : learner) (x : experiment) (data_set : list matrix) : result (list nd) :=
  mapM (fun p => m <- py_nth (x_mods x) (Z.of_nat (fst p)) ;;
                 reconstruct_internal (rnd (call + fst p)) 0 l m (snd p) (x_iter_test x)) (enumerate data_set).

(** _get_all_transformations (experiment.py:261-279): for each original modality the
    list of its transformations, the internal coefficients being the last one. *)
Definition all_transformations (rnd : nat -> nat -> list nat -> R) (call : nat) (l : learner) (x : experiment) (data_set : list matrix)
  : result (list (list matrix)) :=
  internals <- all_internals rnd call l x data_set ;;
  let n := length (x_mods x) in
  mapM (fun i =>
          own <- py_nth data_set (Z.of_nat i) ;;
          int <- py_nth internals (Z.of_nat i) ;;
          row <- mapM (fun o => if o =? i then Ok own
                                else r <- reconstruct_modality l (mod_name (x_mods x) o) int ;; Ok (Dense r)) (seq 0 n) ;;
          Ok (row ++ [Dense int])) (seq 0 n).

(** Combinations tested by TwoModalitiesExperiment (experiment.py:240-243). *)
Definition two_combinations (n : nat) : list (nat * nat * option nat) :=
  flat_map (fun m1 => flat_map (fun m2 => map (fun c => (m1, m2, c)) (None :: map Some (seq 0 n))) (seq 0 n)) (seq 0 n).
(** result[mod][cmp], -1 being the last one. *)
Definition transformed (t : list (list matrix)) (m : nat) (c : option nat) : result matrix :=
  row <- py_nth t (Z.of_nat m) ;;
  py_nth row (match c with None => (-1)%Z | Some c => Z.of_nat c end).

(** One iteration of the loops (experiment.py:248-259). *)
Definition two_step (x : experiment) (t_test t_ex : list (list matrix)) (labels_ex test_labels : list nat)
  (w : world) (c : nat * nat * option nat) (ms : (nd -> nd -> Z -> result nd) * string) : world * result unit :=
  let '(m1, m2, cmp) := c in
  log w, found <- lift w (a <- transformed t_test m1 cmp ;; b <- transformed t_ex m2 cmp ;; classify_matrix a b labels_ex (fst ms)) ;;
  log w, _ <- store_result w 0 (found_key (x_mods x) m1 m2 cmp (snd ms)) (VNats found) ;;
  store_result w 0 (score_key (x_mods x) m1 m2 cmp (snd ms)) (VScore (found_labels_to_score Nat.eqb test_labels found)).

Fixpoint wfold {A} (f : world -> A -> world * result unit) (l : list A) (w : world) : world * result unit :=
  match l with
  | [] => (w, Ok tt)
  | a :: l' => log w', _ <- f w a ;; wfold f l' w'
  end.

Definition two_evaluate (rnd : nat -> nat -> list nat -> R) (x : experiment) (p : prepared) (l : learner)
  (data_test : list matrix) (test_labels : list nat) (w : world) : world * result unit :=
  let n := length (x_mods x) in
  log w, t_test <- lift w (all_transformations rnd 1 l x data_test) ;;
  log w, t_ex <- lift w (all_transformations rnd (S n) l x (p_data_ex p)) ;;
  wfold (fun w c => two_step x t_test t_ex (p_labels_ex p) test_labels w (fst c) (snd c))
        (list_prod (two_combinations n) measures) w.

(** ** ThreeModalitiesExperiment. *)

(** _tested_combinations (experiment.py:345-355). *)
Definition others_than (n m : nat) : list nat := filter (fun i => negb (i =? m)) (seq 0 n).
Definition tested_combinations (n : nat) : list (list nat * list nat) :=
  let two_to_one := map (fun m => (others_than n m, [m])) (seq 0 n) in
  flat_map (fun m1 => map (fun m2 => ([m1], [m2])) (others_than n m1)) (seq 0 n) ++
  two_to_one ++ map (fun p => (snd p, fst p)) two_to_one.

Definition nats_eqb (a b : list nat) : bool :=
  (length a =? length b) && forallb (fun p => fst p =? snd p) (combine a b).

(** _get_all_internals (experiment.py:357-365): a dictionary. *)
Definition three_internals (rnd : nat -> nat -> list nat -> R) (call : nat) (l : learner) (x : experiment) (data_set : list matrix)
  : result (list (list nat * nd)) :=
  foldM (fun d q =>
    let '(i, (mods, _)) := q in
    match dict_get nats_eqb d mods with
    | Some _ => Ok d
    | None =>
        names <- mapM (fun m => py_nth (x_mods x) (Z.of_nat m)) mods ;;
        datas <- mapM (fun m => py_nth data_set (Z.of_nat m)) mods ;;
        r <- reconstruct_internal_multi (rnd (call + i)) 0 l names datas (x_iter_test x) ;;
        Ok (dict_set nats_eqb d mods r)
    end) (enumerate (tested_combinations (length (x_mods x)))) [].

(** '_'.join of the names, and _get_score_key (experiment.py:367-371). *)
Fixpoint join (l : list string) : string :=
  match l with
  | [] => ""
  | [a] => a
  | a :: l' => (a ++ "_" ++ join l')%string
  end.
Definition three_key (mods : list string) (m1 m2 : list nat) (metric : string) : string :=
  ("score_" ++ join (map (mod_name mods) m1) ++ "2" ++ join (map (mod_name mods) m2) ++ metric)%string.

Definition lookup_internal (d : list (list nat * nd)) (m : list nat) : result nd :=
  match dict_get nats_eqb d m with Some r => Ok r | None => Err KeyError end.

(** The loops (experiment.py:330-343). *)
Definition three_step (x : experiment) (t_test t_ex : list (list nat * nd)) (labels_ex test_labels : list nat)
  (w : world) (c : list nat * list nat) (ms : (nd -> nd -> Z -> result nd) * string) : world * result unit :=
  log w, found <- lift w (a <- lookup_internal t_test (fst c) ;; b <- lookup_internal t_ex (snd c) ;;
                      classify_matrix (Dense a) (Dense b) labels_ex (fst ms)) ;;
  store_result w 0 (three_key (x_mods x) (fst c) (snd c) (snd ms)) (VScore (found_labels_to_score Nat.eqb test_labels found)).

Definition three_evaluate (rnd : nat -> nat -> list nat -> R) (x : experiment) (p : prepared) (l : learner)
  (data_test : list matrix) (test_labels : list nat) (w : world) : world * result unit :=
  let combs := tested_combinations (length (x_mods x)) in
  log w, t_test <- lift w (three_internals rnd 1 l x data_test) ;;
  log w, t_ex <- lift w (three_internals rnd (S (length combs)) l x (p_data_ex p)) ;;
  wfold (fun w c => three_step x t_test t_ex (p_labels_ex p) test_labels w (fst c) (snd c)) (list_prod combs measures) w.

(** _evaluate; the one of MultimodalExperiment (experiment.py:174-175) raises
    NotImplemented, which is not an exception: TypeError. *)
Definition evaluate (rnd : nat -> nat -> list nat -> R) (x : experiment) (p : prepared) (l : learner)
  (data_test : list matrix) (test_labels : list nat) (w : world) : world * result unit :=
  match x_kind x with
  | Two => two_evaluate rnd x p l data_test test_labels w
  | Three => three_evaluate rnd x p l data_test test_labels w
  | Base => (w, Err TypeError)
  end.

(** _get_new_learner and _perform_one_run (experiment.py:154-172), [split] being what
    next gave. *)
Definition new_learner (x : experiment) (p : prepared) : learner :=
  learner_new (x_mods x) (map cols_of (p_data p)) (p_coefs p) (x_k x) false.
Definition perform_one_run (rnd : nat -> nat -> list nat -> R) (x : experiment) (p : prepared) (w : world) (split : list nat * list nat)
  : world * result unit :=
  let '(train_idx, test_idx) := split in
  log w, _ <- new_run w 0 ;;
  log w, _ <- store w 0 "train"%string (VNats train_idx) ;;
  log w, _ <- store w 0 "test"%string (VNats test_idx) ;;
  log w, data_train <- lift w (mapM (fun y => take_rows y train_idx) (p_data p)) ;;
  log w, data_test <- lift w (mapM (fun y => take_rows y test_idx) (p_data p)) ;;
  log w, test_labels <- lift w (mapM (fun t => py_nth (p_labels p) (Z.of_nat t)) test_idx) ;;
  let '(l, r) := train (rnd 0) 0 (new_learner x p) data_train (x_iter_train x) in
  log w, _ <- lift w r ;;
  log w, d <- lift w (match dico l with Some d => Ok d | None => Err AttributeError end) ;;
  log w, _ <- store w 0 "dictionary"%string (VArr d) ;;
  evaluate rnd x p l data_test test_labels w.

(** ** The whole experiment. *)

Definition mode_val (m : mode) : val :=
  match m with
  | LeaveOneOut => VStr "leave-one-out"
  | Single => VStr "single"
  | Ratio q => VFloat q
  end.
(** _parameters_to_dict and params_to_store (experiment.py:61-65, 193-196). *)
Definition parameters (x : experiment) : list (string * val) :=
  [("modalities", VList (map (VStr) (x_mods x)));
   ("k", VInt (Z.of_nat (x_k x)));
   ("coefs", match x_coefs x with None => VNone | Some cs => VList (map (VFloat) cs) end);
   ("iter_train", VInt (x_iter_train x)); ("iter_test", VInt (x_iter_test x));
   ("shuffle_labels", VBool (x_shuffle_labels x)); ("run_mode", mode_val (x_mode x)); ("debug", VBool (x_debug x))]%string.

(** The values given to store_global by prepare and run (experiment.py:77-78, 96,
    106-108, 142, 148). *)
Definition globals (p : prepared) : list (string * val) :=
  [("label_pairing", VTuple (map (fun l => VList (map (VStr) l)) (p_names p)));
   ("sample_pairing", VList (map (fun t => VTuple (map (fun i => VInt (Z.of_nat i)) t)) (p_pairing p)));
   ("examples", VNats (p_examples p))]%string.
Definition store_globals (w : world) (kvs : list (string * val)) : world * result unit :=
  wfold (fun w kv => store_global w 0 (fst kv) (snd kv)) kvs w.

(** The loop of run (experiment.py:143-147): run number [i] uses its own numbers. *)
Fixpoint run_loop (rd : random) (x : experiment) (p : prepared) (i : nat) (splits : list (list nat * list nat)) (w : world) : world * result unit :=
  match splits with
  | [] => (w, Ok tt)
  | s :: splits' => log w, _ <- perform_one_run (r_draws rd i) x p w s ;; run_loop rd x p (S i) splits' w
  end.

(** run (experiment.py:140-152) with a new logger (experiment.py:35-36) as object 0.
    The values of globals that are known before an exception of prepare are not
    stored in that case. *)
Definition run_world (rd : random) (x : experiment) (filename : option string) : world * result unit :=
  let w := mkWorld [] [mkLogger [] [] [] [] filename None] in
  log w, _ <- store_globals w (parameters x) ;;
  log w, p <- lift w (prepare rd x) ;;
  log w, _ <- store_globals w (globals p) ;;
  log w, _ <- store_global w 0 "start_time" (VStr (r_start rd)) ;;
  log w, splits <- lift w (p_generator p) ;;
  log w, _ <- run_loop rd x p 0 splits w ;;
  store_global w 0 "end_time" (VStr (r_end rd)).

(** The file is written at the end; NoFileError is caught (experiment.py:149-152). *)
Definition run (ord : list string -> list string) (rd : random) (x : experiment) (filename : option string) (f : fs nd)
  : world * fs nd * result unit :=
  match run_world rd x filename with
  | (w, Ok _) =>
      let '(f', r) := save ord w 0 f in
      (w, f', match r with Err NoFileError => Ok tt | r => r end)
  | (w, Err e) => (w, f, Err e)
  end.
