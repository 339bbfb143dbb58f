(** * Theorems about the test records and the confusion matrix of
    samples/plot_image_sound_eval_sliding.py. *)

From Coq Require Import List ZArith Bool Arith String.
Import ListNotations.
From Verif Require Import Py pairing_model evaluation_model experiment_model experiment_spec experiment_proof experiment_props sliding_model sliding_spec sliding_proof.
Local Open Scope nat_scope.
Notation length := List.length.

(** ** C93.  [te] is what the logger stores under 'test': numbers among the samples that are
    not examples.  The script uses them as numbers among all tuples of the pairing. *)

(** The record taken for a tested sample is never the record of that sample. *)
Theorem C93_records_refuted : forall (rd : random) (x : experiment) (p : prepared), legal x rd -> prepare rd x = Ok p ->
  forall m te, m < length (x_loaders x) -> Forall (fun i => i < length (p_others p)) te ->
  exists idx, test_idx (p_pairing p) m te = Ok idx /\
    Forall2 (fun i r => exists t lab, tested p i t lab /\ r <> source p m t) te idx.
Proof. exact never_tested. Qed.
Print Assumptions C93_records_refuted.

(** One record that was tested at least is not marked as tested, and its transcription is
    written among those of the train set. *)
Theorem C93_train_refuted : forall (rd : random) (x : experiment) (p : prepared), legal x rd -> prepare rd x = Ok p ->
  forall m te ld, nth_error (x_loaders x) m = Some ld -> te <> [] -> Forall (fun i => i < length (p_others p)) te ->
  exists idx i t lab, test_idx (p_pairing p) m te = Ok idx /\ In i te /\ tested p i t lab /\
    in_test_records idx (source p m t) = false /\ In (source p m t) (train_records (length (ld_labels ld)) idx).
Proof. exact unmarked. Qed.
Print Assumptions C93_train_refuted.

(** The shift: one tuple for the example of each label up to that of the sample. *)
Theorem C93_position : forall (rd : random) (x : experiment) (p : prepared), legal x rd -> prepare rd x = Ok p ->
  forall i t lab, tested p i t lab -> t = i + lab + 1.
Proof. exact position. Qed.
Print Assumptions C93_position.

(** The label read for a tested sample is its label or a smaller one; it is right if and only
    if more samples of this label come before it than there are smaller labels. *)
Theorem C93_labels : forall (rd : random) (x : experiment) (p : prepared), legal x rd -> prepare rd x = Ok p ->
  forall m te ld names idx, nth_error (x_loaders x) m = Some ld -> nth_error (p_names p) m = Some names ->
  Forall (fun i => i < length (p_others p)) te -> test_idx (p_pairing p) m te = Ok idx ->
  exists ls, test_labels names (ld_labels ld) idx = Ok ls /\
    Forall2 (fun i l => exists t lab, tested p i t lab /\ l <= lab /\ (l = lab <-> lab < earlier (p_labels_all p) t)) te ls.
Proof. exact labels_read. Qed.
Print Assumptions C93_labels.

(** The confusion matrix itself counts the pairs (label, found label). *)
Theorem C93_confusion : forall (n : nat) (labels found : list nat),
  (length labels <> length found -> confusion n labels found = Err AssertionError) /\
  (length labels = length found -> Forall (fun l => l < n) labels -> Forall (fun l => l < n) found ->
   exists m, confusion n labels found = Ok m /\ length m = n /\ (forall row, In row m -> length row = n) /\
     forall a b, entry m a b = together a b labels found).
Proof. exact (fun n l f => conj (confusion_lengths n l f) (confusion_counts n l f)). Qed.
Print Assumptions C93_confusion.

(** So a recognition without mistake has a diagonal matrix only if each tested sample comes
    late enough among those of its label. *)
Theorem C93_perfect : forall (rd : random) (x : experiment) (p : prepared) m te ld names idx ls n truth M,
  legal x rd -> prepare rd x = Ok p ->
  nth_error (x_loaders x) m = Some ld -> nth_error (p_names p) m = Some names -> Forall (fun i => i < length (p_others p)) te ->
  test_idx (p_pairing p) m te = Ok idx -> test_labels names (ld_labels ld) idx = Ok ls ->
  Forall2 (fun i lab => exists t, tested p i t lab) te truth -> n = length names -> confusion n ls truth = Ok M ->
  ((forall a b, a <> b -> entry M a b = 0) <-> Forall (fun i => forall t lab, tested p i t lab -> lab < earlier (p_labels_all p) t) te).
Proof. exact perfect. Qed.
Print Assumptions C93_perfect.

(** ** Example: two labels, two samples of each (the experiment of experiment_props).  The
    second sample that is not an example is tested and recognised, label 1: it is tuple 3,
    record 3, but record 2 is taken for it, and label 0; the matrix shows a mistake. *)
Example C93_ex : exists p, let x := ex_x Two ["sound"; "image"]%string None in
  legal x ex_rd /\ prepare ex_rd x = Ok p /\ tested p 1 3 1 /\ source p 0 3 = 3 /\ test_idx (p_pairing p) 0 [1] = Ok [2] /\
  train_records 4 [2] = [0; 1; 3] /\ test_labels ["a"; "b"]%string ["a"; "b"; "a"; "b"]%string [2] = Ok [0] /\ confusion 2 [0] [1] = Ok [[0; 1]; [0; 0]] /\
  earlier (p_labels_all p) 3 = 1.
Proof.
  set (x := ex_x Two ["sound"; "image"]%string None). destruct (C33_succeeds ex_rd x) as (p & Ep); [apply ex_sound_x; [discriminate|now left]|apply ex_legal|apply ex_enough|].
  exists p. split; [apply ex_legal|]. split; [exact Ep|]. destruct (prepare_inv _ _ _ Ep) as [B]. pose proof (pb_pair _ _ _ B) as Pa. pose proof (ex_paired Two ["sound"; "image"]%string None) as Q.
  change (associate_samples String.eqb (r_names ex_rd) (r_buckets ex_rd) (map ld_labels (x_loaders x)) =
    Ok ([["a"; "b"]; ["c"; "d"]]%string, [0; 0; 1; 1], [[0; 2]; [2; 3]; [1; 0]; [3; 1]])) in Q.
  assert (Xp : p_pairing p = [[0; 2]; [2; 3]; [1; 0]; [3; 1]]) by congruence. assert (Xl : pb_labels _ _ _ B = [0; 0; 1; 1]) by congruence.
  pose proof (pb_all _ _ _ B) as Al. rewrite Xl in Al. change (p_labels_all p = [0; 0; 1; 1]) in Al.
  pose proof (pb_ex _ _ _ B) as Ex. rewrite Al in Ex. assert (Xe : p_examples p = [0; 2]) by (cbn in Ex; congruence).
  pose proof (pb_others _ _ _ B) as Ot. rewrite Al, Xe in Ot. cbn in Ot. unfold tested, source. rewrite Ot, Al, Xp. repeat split.
Qed.
