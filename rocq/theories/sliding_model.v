(** * Model of samples/plot_image_sound_eval_sliding.py: test records and confusion matrix
    (lines 27-37, 138-141, 169-174).

    The script is made of statements, not of functions; each definition is the
    value of one variable.  Records are known by their number in
    sound_loader.records (Record has no __eq__: equality is identity). *)

From Coq Require Import List ZArith Bool Arith String.
Import ListNotations.
From Verif Require Import Py pairing_model.
Open Scope py_scope.
Local Open Scope nat_scope.

(** test_idx (lines 29-30): [pairing] is logger.get_value('sample_pairing'), [sound] is
    sound_modality, [test] is logger.get_last_value('test'). *)
Definition test_idx (pairing : list (list nat)) (sound : nat) (test : list nat) : result (list nat) :=
  mapM (fun i => t <- py_nth pairing (Z.of_nat i) ;; py_nth t (Z.of_nat sound)) test.

(** r in test_records (line 31), for the record number [r]. *)
Definition in_test_records (idx : list nat) (r : nat) : bool := existsb (Nat.eqb r) idx.

(** The records written in train_trans.txt (lines 138-141), by their numbers. *)
Definition train_records (n_records : nat) (idx : list nat) : list nat :=
  filter (fun r => negb (in_test_records idx r)) (seq 0 n_records).

(** test_labels (lines 34-37): [names] is sound_labels, [labels] is all_sound_labels. *)
Definition test_labels (names labels : list string) (idx : list nat) : result (list nat) :=
  mapM (fun i => l <- py_nth labels (Z.of_nat i) ;; index_from String.eqb l names 0 0) idx.

(** confusion[l, lfound] += 1. (lines 171-174), rows of a list of lists; a label that is too
    large raises IndexError. *)
Definition add_one (m : list (list nat)) (l lfound : nat) : result (list (list nat)) :=
  row <- py_nth m (Z.of_nat l) ;;
  v <- py_nth row (Z.of_nat lfound) ;;
  row <- py_set row (Z.of_nat lfound) (v + 1) ;;
  py_set m (Z.of_nat l) row.
Definition confusion (n_labels : nat) (labels found : list nat) : result (list (list nat)) :=
  py_assert (List.length labels =? List.length found) ;;;
  foldM (fun m p => add_one m (fst p) (snd p)) (combine labels found) (repeat (repeat 0 n_labels) n_labels).
