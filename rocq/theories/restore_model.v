(** * Model of the restoration of an experiment from its log
    (samples/plot_info_matrix.py, lines 113-121; experiment.py, lines 74-103).

    [names], [pairing] and [examples] are the values 'label_pairing', 'sample_pairing' and
    'examples' of the log (lines 114 and 115 ask for 'label-pairing' and 'sample-pairing':
    see C96_hyphens_refuted). *)

From Coq Require Import List ZArith Reals Bool Arith String.
Import ListNotations.
From Verif Require Import Py utils_model nd_model sparse_model learner_model experiment_model.
Open Scope py_scope.
Local Open Scope nat_scope.

(** Line 118. *)
Definition relabel (names : list (list string)) (raw_labels : list (list string)) (pairing : list (list nat)) : result (list nat) :=
  mapM (fun a => label_names <- py_nth names 0 ;; raw <- py_nth raw_labels 0 ;;
                 i <- py_nth a 0 ;; name <- py_nth raw (Z.of_nat i) ;;
                 list_index String.eqb label_names name 0) pairing.

(** _set_labels_and_prepare_data (experiment.py:74-91): coefficients, data, all labels. *)
Definition set_labels_and_prepare_data (x : experiment) (labels : list nat) (pairing : list (list nat))
  : result (list R * list matrix * list nat) :=
  coefs <- set_coefs x ;;
  data <- mapM (fun p => idx <- mapM (fun t => py_nth t (Z.of_nat (fst p))) pairing ;; take_rows (snd p) idx)
               (enumerate (map ld_data (x_loaders x))) ;;
  Ok (coefs, if x_debug x then map crop data else data, if x_debug x then slice_to labels 200 else labels).

(** _set_data_and_labels_for_examples (experiment.py:93-103): the attributes others, data_ex,
    data, labels_ex, labels. *)
Definition set_data_and_labels_for_examples (data : list matrix) (labels_all examples : list nat)
  : result (list nat * list matrix * list matrix * list nat * list nat) :=
  let others := filter (fun i => negb (nat_mem i examples)) (seq 0 (length labels_all)) in
  data_ex <- mapM (fun y => take_rows y examples) data ;;
  data <- mapM (fun y => take_rows y others) data ;;
  labels_ex <- mapM (fun i => py_nth labels_all (Z.of_nat i)) examples ;;
  labels <- mapM (fun i => py_nth labels_all (Z.of_nat i)) others ;;
  Ok (others, data_ex, data, labels_ex, labels).

(** Lines 113-121: the attributes of the experiment after it. *)
Definition restore (x : experiment) (names : list (list string)) (pairing : list (list nat)) (examples : list nat)
  : result (list R * list nat * (list nat * list matrix * list matrix * list nat * list nat)) :=
  labels <- relabel names (map ld_labels (x_loaders x)) pairing ;;
  '(coefs, data, labels_all) <- set_labels_and_prepare_data x labels pairing ;;
  r <- set_data_and_labels_for_examples data labels_all examples ;;
  Ok (coefs, labels_all, r).
