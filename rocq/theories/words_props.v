(** * Theorems about the statistics of words and labels of
    samples/plot_image_sound_eval_sliding.py. *)

From Coq Require Import List ZArith Bool Arith Reals String Sorted.
Import ListNotations.
From Verif Require Import Py pairing_spec nd_model metrics_model words_model words_spec words_text words_proof.
Local Open Scope nat_scope.
Notation length := List.length.

(** ** C94.  [order] is the order in which the hash table gives the distinct labels; [trans]
    and [labels] are the sentences and the labels of the records. *)

(** One record at least is needed, and as many labels as records. *)
Theorem C94_cases : forall order trans labels, distinct_labels (order (map lower labels)) (map lower labels) ->
  (length trans <> length labels -> word_histo_by_label order trans labels = Err AssertionError) /\
  (trans = [] -> labels = [] -> word_histo_by_label order trans labels = Err ValueError) /\
  (length trans = length labels -> trans <> [] -> exists h, word_histo_by_label order trans labels = Ok h).
Proof. exact histo_cases. Qed.
Print Assumptions C94_cases.

(** The words: first the labels, then the other words said, each once, in the order of the
    dictionary. *)
Theorem C94_words : forall order trans labels h, distinct_labels (order (map lower labels)) (map lower labels) ->
  word_histo_by_label order trans labels = Ok h ->
  distinct_labels (h_all_labels h) (map lower labels) /\ NoDup (h_all_words h) /\
  (exists rest, h_all_words h = (h_all_labels h ++ rest)%list /\ StronglySorted before rest) /\
  (forall w, In w (h_all_words h) <-> In w (h_all_labels h) \/ exists s, In s trans /\ says s w).
Proof. exact histo_words. Qed.
Print Assumptions C94_words.
Theorem C94_lower : forall l ls, In l (map lower ls) <-> exists l0, In l0 ls /\ lowered l0 l.
Proof. exact lowered_in. Qed.
Print Assumptions C94_lower.

(** The four cells of the table of a word and a label are the shares of the records that
    have both, the word only, the label only, neither. *)
Theorem C94_table : forall trans labels order h, distinct_labels (order (map lower labels)) (map lower labels) ->
  word_histo_by_label order trans labels = Ok h ->
  forall i j w l, nth_error (h_all_words h) i = Some w -> nth_error (h_all_labels h) j = Some l ->
  exists n11 n12 n21 n22, let recs := combine trans labels in let n := INR (length recs) in
    counts (both w l) recs n11 /\ counts (word_only w l) recs n12 /\ counts (label_only w l) recs n21 /\ counts (neither w l) recs n22 /\
    n11 + n12 + n21 + n22 = length recs /\ length recs <> 0 /\
    table h i j = [[INR n11 / n; INR n12 / n]; [INR n21 / n; INR n22 / n]]%R.
Proof. exact word_table. Qed.
Print Assumptions C94_table.

(** Every information is computed; it is never negative, and null exactly when the word and
    the label are independent. *)
Theorem C94_information : forall trans labels order h, distinct_labels (order (map lower labels)) (map lower labels) ->
  word_histo_by_label order trans labels = Ok h -> let recs := combine trans labels in
  exists m, word_label_info h = Ok m /\ length m = length (h_all_words h) /\
  forall i j w l, nth_error (h_all_words h) i = Some w -> nth_error (h_all_labels h) j = Some l ->
    exists row v n11 nw nl, nth_error m i = Some row /\ length row = length (h_all_labels h) /\ nth_error row j = Some v /\ (0 <= v)%R /\
      counts (both w l) recs n11 /\ counts (fun r => says (fst r) w) recs nw /\ counts (fun r => lowered (snd r) l) recs nl /\
      (v = 0%R <-> n11 * length recs = nw * nl).
Proof. exact info_ok. Qed.
Print Assumptions C94_information.

(** A number of records is what it is. *)
Theorem C94_counts_unique : forall (A : Type) (P : A -> Prop) l n, counts P l n -> forall m, counts P l m -> n = m.
Proof. exact @counts_unique. Qed.
Print Assumptions C94_counts_unique.

(** ** Example *)
Definition ex_trans := ["Where is the book?"; "The Book."; "Look at Daddy!"]%string.
Definition ex_labels := ["book"; "Book"; "Daddy"]%string.
Example C94_ex_order : distinct_labels (nodup string_dec (map lower ex_labels)) (map lower ex_labels).
Proof. split; [apply NoDup_nodup|]. intro x. apply nodup_In. Qed.
Example C94_ex : exists h, word_histo_by_label (nodup string_dec) ex_trans ex_labels = Ok h /\
  h_all_labels h = ["book"; "daddy"]%string /\ h_all_words h = ["book"; "daddy"; "at"; "is"; "look"; "the"; "where"]%string /\ says "The Book." "book".
Proof.
  destruct (proj2 (proj2 (C94_cases _ ex_trans ex_labels C94_ex_order)) eq_refl ltac:(discriminate)) as [h E]. exists h. split; [exact E|]. split; [|split; [|apply says_spec; vm_compute; auto]].
  - assert (H : match word_histo_by_label (nodup string_dec) ex_trans ex_labels with Ok h => h_all_labels h | Err _ => [] end = ["book"; "daddy"]%string) by reflexivity. now rewrite E in H.
  - assert (H : match word_histo_by_label (nodup string_dec) ex_trans ex_labels with Ok h => h_all_words h | Err _ => [] end = ["book"; "daddy"; "at"; "is"; "look"; "the"; "where"]%string) by reflexivity. now rewrite E in H.
Qed.
