(** * Specification for experiment.py. *)

From Coq Require Import List ZArith Reals Bool Arith String Permutation Sorted.
Import ListNotations.
From Verif Require Import Py pairing_model pairing_spec nd_model sparse_model logger_model learner_model experiment_model.
Local Open Scope nat_scope.

(** Sizes that are kept in debug mode. *)
Definition kept_rows (x : experiment) (n : nat) : nat := if x_debug x then Nat.min 200 n else n.
Definition kept_cols (x : experiment) (n : nat) : nat := if x_debug x then Nat.min 11 n else n.

(** Possible outcomes of the random functions and of the enumeration of sets. *)
Definition legal (x : experiment) (rd : random) : Prop :=
  Forall2 distinct_labels (r_names rd) (map ld_labels (x_loaders x)) /\
  is_shuffle (r_buckets rd) /\ (forall l, Permutation (r_split rd l) l) /\
  forall names labels tuples,
    associate_samples String.eqb (r_names rd) (r_buckets rd) (map ld_labels (x_loaders x)) = Ok (names, labels, tuples) ->
    distinct_labels (r_label_set rd) (if x_debug x then firstn 200 labels else labels).

(** The sample of modality [m] in the tuple number [t] of the pairing. *)
Definition source (p : prepared) (m t : nat) : nat := nth m (nth t (p_pairing p) []) 0.

(** The rows of [y] are the [idx] samples: row [i] has the first [cols] elements of
    the row of [raw] that belongs to sample [idx[i]]. *)
Definition rows_from (y : matrix) (idx : list nat) (cols : nat) (raw : matrix) (src : nat -> nat) : Prop :=
  mshape y = [List.length idx; cols] /\
  forall i t, nth_error idx i = Some t -> forall j, j < cols -> el (mvalue y) [i; j] = el (mvalue raw) [src t; j].

From Verif Require Import utils_model utils_spec nd_spec nmf_spec learner_spec metrics_spec evaluation_spec.
From Coq Require Import QArith Qreals Ascii.
Notation Q := QArith_base.Q.
Local Open Scope nat_scope.

(** A well-formed experiment: distinct names; one row of non-negative numbers for each
    label; all modalities have the same number of distinct labels, at most ten;
    coefficients given for all modalities and not negative, or else data that are not
    all zero; at least one component and one iteration. *)
Definition sound (x : experiment) : Prop :=
  NoDup (x_mods x) /\ x_mods x <> [] /\ List.length (x_loaders x) = List.length (x_mods x) /\
  (forall ld, In ld (x_loaders x) -> (exists d, fits (List.length (ld_labels ld)) d (ld_data ld)) /\ nonneg (mvalue (ld_data ld))) /\
  (exists n, n <= 10 /\ forall ld, In ld (x_loaders x) -> exists names, distinct_labels names (ld_labels ld) /\ List.length names = n) /\
  match x_coefs x with
  | Some cs => List.length cs = List.length (x_mods x) /\ Forall (fun c => 0 <= c)%Q cs
  | None => forall ld, In ld (x_loaders x) -> exists idx, valid (shape (mvalue (ld_data ld))) idx /\ el (mvalue (ld_data ld)) idx <> 0%R
  end /\
  1 <= x_k x /\ (1 <= x_iter_train x)%Z /\ (1 <= x_iter_test x)%Z.

(** The run mode can split [n] samples into two sets that are not empty. *)
Definition can_split (m : mode) (n : nat) : Prop :=
  (Z.of_nat n <= 2 ^ 51)%Z /\
  match m with
  | LeaveOneOut => 2 <= n
  | Single => (1 <= nb_test_of round64 n (round64 (/ 10)) < Z.of_nat n)%Z
  | Ratio q => (0 < q <= 1)%Q /\ (1 <= nb_test_of round64 n (Q2R q) < Z.of_nat n)%Z
  end.
(** The samples that are left by the examples can be split. *)
Definition enough (x : experiment) (rd : random) : Prop :=
  forall names labels tuples,
    associate_samples String.eqb (r_names rd) (r_buckets rd) (map ld_labels (x_loaders x)) = Ok (names, labels, tuples) ->
    can_split (x_mode x) (kept_rows x (List.length tuples) - List.length (r_label_set rd)).
(** Number of runs: n, 1, or int(1 / ratio). *)
Definition number_of_runs (m : mode) (n : nat) : Z :=
  match m with
  | LeaveOneOut => Z.of_nat n
  | Single => 1
  | Ratio q => Flocq.Core.Raux.Ztrunc (round64 (1 / Q2R q)%R)
  end.

(** The splits of all runs: as many as the mode says, each one splits the [n] samples, and
    no sample is in two test sets. *)
Definition good_splits (m : mode) (n : nat) (l : list (list nat * list nat)) : Prop :=
  Z.of_nat (List.length l) = number_of_runs m n /\ (forall s, In s l -> is_split n s) /\
  forall i j si sj, i <> j -> nth_error l i = Some si -> nth_error l j = Some sj -> disjoint (snd si) (snd sj).

(** The average of the sums of the rows. *)
Definition mean_row_sum (x : matrix) : R :=
  (lsum (map (fun i => lsum (row (mvalue x) i)) (seq 0 (rows_of x))) / INR (rows_of x))%R.

From Verif Require Import metrics_model.

(** How rows are compared, by the suffix of the key: divergence, divergence the other
    way round, Euclidean distance, and the opposite of the cosine. *)
Definition comparison (suffix : string) (a b : list R) : R :=
  if String.eqb suffix "" then KL EPSILON a b
  else if String.eqb suffix "_bis" then KL EPSILON b a
  else if String.eqb suffix "_frob" then distance a b
  else (- cosine a b)%R.
Definition suffixes : list string := [""; "_bis"; "_frob"; "_cosine"]%string.

(** [found] gives for each row of [test] the label of the first nearest row of [ex]. *)
Definition nearest (dist : list R -> list R -> R) (test ex : nd) (labels found : list nat) : Prop :=
  List.length found = nth 0 (shape test) 0 /\
  forall i l, nth_error found i = Some l -> exists j,
    first_min Rlt (map (fun e => dist (row test i) (row ex e)) (seq 0 (nth 0 (shape ex) 0))) j /\ nth_error labels j = Some l.

(** The part of correct answers. *)
Definition is_score (truth found : list nat) (v : logger_model.val nd) : Prop :=
  exists q, v = VFloat q /\ (q == inject_Z (Z.of_nat (agreements Nat.eqb found truth)) / inject_Z (Z.of_nat (List.length truth)))%Q /\ (0 <= q <= 1)%Q.

(** A name that makes the keys unique: without '_' and '2', and different from
    'bis', 'frob' and 'cosine'. *)
Definition lacks (c : Ascii.ascii) (s : string) : Prop := ~ In c (list_ascii_of_string s).
Definition clean (s : string) : Prop :=
  lacks "_"%char s /\ lacks "2"%char s /\ s <> "bis"%string /\ s <> "frob"%string /\ s <> "cosine"%string.

(** The keys written by one evaluation, in the order of the loops. *)
Definition two_keys (mods : list string) : list string :=
  flat_map (fun c => let '(m1, m2, cmp) := fst c in [found_key mods m1 m2 cmp (snd c); score_key mods m1 m2 cmp (snd c)])
    (list_prod (two_combinations (List.length mods)) suffixes).
Definition three_keys (mods : list string) : list string :=
  map (fun c => three_key mods (fst (fst c)) (snd (fst c)) (snd c)) (list_prod (tested_combinations (List.length mods)) suffixes).

(** The samples with numbers [te] among those that are not examples. *)
Definition samples_of (p : prepared) (te : list nat) : list nat := map (fun t => nth t (p_others p) 0) te.

(** The data of some samples in modality [m]. *)
Definition data_of (x : experiment) (p : prepared) (samples : list nat) (m : nat) (y : matrix) : Prop :=
  exists ld, nth_error (x_loaders x) m = Some ld /\ rows_from y samples (kept_cols x (cols_of (ld_data ld))) (ld_data ld) (source p m).

(** The internal coefficients that a trained learner finds for some samples, given
    their data in the modalities [ms]. *)
Definition internal_of (x : experiment) (p : prepared) (l : learner) (samples ms : list nat) (i : nd) : Prop :=
  exists rnd ys, Forall2 (data_of x p samples) ms ys /\
    reconstruct_internal_multi rnd 0 l (map (mod_name (x_mods x)) ms) ys (x_iter_test x) = Ok i /\
    shape i = [List.length samples; x_k x] /\ nonneg i.

(** Samples of modality [m] seen in modality [c]: the data themselves, or data that are
    computed from the internal coefficients; or these coefficients. *)
Definition represents (x : experiment) (p : prepared) (l : learner) (samples : list nat) (m : nat) (cmp : option nat) (a : nd) : Prop :=
  match cmp with
  | None => internal_of x p l samples [m] a
  | Some c =>
      if c =? m then exists y, data_of x p samples m y /\ a = mvalue y
      else exists i, internal_of x p l samples [m] i /\ reconstruct_modality l (mod_name (x_mods x) c) i = Ok a
  end.

(** A learner of this experiment trained with some samples. *)
Definition trained_with (x : experiment) (p : prepared) (samples : list nat) (l : learner) (d : nd) : Prop :=
  exists rnd ys, Forall2 (data_of x p samples) (seq 0 (List.length (x_mods x))) ys /\
    train rnd 0 (new_learner x p) ys (x_iter_train x) = (l, Ok tt) /\
    dico l = Some d /\ shape d = [x_k x; list_sum (map (fun ld => kept_cols x (cols_of (ld_data ld))) (x_loaders x))] /\ nonneg d.

(** The labels of the test samples. *)
Definition labels_of (p : prepared) (te truth : list nat) : Prop :=
  Forall2 (fun t lab => nth_error (p_labels p) t = Some lab) te truth.

(** What the dictionary of a run has for TwoModalitiesExperiment and for
    ThreeModalitiesExperiment. *)
Definition two_results (x : experiment) (p : prepared) (l : learner) (te truth : list nat) (get : string -> option (logger_model.val nd)) : Prop :=
  let n := List.length (x_mods x) in
  forall m1 m2 cmp s, m1 < n -> m2 < n -> match cmp with None => True | Some c => c < n end -> In s suffixes ->
    exists a b found v,
      represents x p l (samples_of p te) m1 cmp a /\ represents x p l (p_examples p) m2 cmp b /\
      nearest (comparison s) a b (p_labels_ex p) found /\ is_score truth found v /\
      get (found_key (x_mods x) m1 m2 cmp s) = Some (VNats found) /\ get (score_key (x_mods x) m1 m2 cmp s) = Some v.
Definition three_results (x : experiment) (p : prepared) (l : learner) (te truth : list nat) (get : string -> option (logger_model.val nd)) : Prop :=
  forall ms1 ms2 s, In (ms1, ms2) (tested_combinations (List.length (x_mods x))) -> In s suffixes ->
    exists a b found v,
      internal_of x p l (samples_of p te) ms1 a /\ internal_of x p l (p_examples p) ms2 b /\
      nearest (comparison s) a b (p_labels_ex p) found /\ is_score truth found v /\
      get (three_key (x_mods x) ms1 ms2 s) = Some v.

(** The dictionary of a run with the split ([tr], [te]), [get] giving its values. *)
Definition run_results (x : experiment) (p : prepared) (tr te : list nat) (get : string -> option (logger_model.val nd)) : Prop :=
  exists l d truth,
    get "train"%string = Some (VNats tr) /\ get "test"%string = Some (VNats te) /\
    trained_with x p (samples_of p tr) l d /\ get "dictionary"%string = Some (VArr d) /\ labels_of p te truth /\
    match x_kind x with
    | Two => two_results x p l te truth get
    | Three => three_results x p l te truth get
    | Base => False
    end.
(** All the keys of a run. *)
Definition run_keys (x : experiment) : list string :=
  ["train"; "test"; "dictionary"]%string ++ match x_kind x with Two => two_keys (x_mods x) | Three => three_keys (x_mods x) | Base => [] end.
