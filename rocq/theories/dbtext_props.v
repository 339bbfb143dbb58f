(** * Properties of the text printed about a sound database (C133). *)

From Coq Require Import List ZArith Bool String Lia.
Import ListNotations.
From Verif Require Import Py logger_model serial_model sound_model motioninfo_spec dbtext_model dbtext_spec dbtext_proof.
Local Open Scope string_scope.

(** The text of a database gives its numbers of records, of speakers and of keywords, *)
Theorem C133_sentence : forall (Arr : Type) (d : database Arr) a b c, numbers d a b c -> db_str d = sentence a b c.
Proof. exact @str_sentence. Qed.
Print Assumptions C133_sentence.

(** which can be read back. *)
Theorem C133_read_back : forall (Arr : Type) (d d' : database Arr) a b c a' b' c', numbers d a b c -> numbers d' a' b' c' ->
  db_str d = db_str d' -> a = a' /\ b = b' /\ c = c'.
Proof.
  intros Arr d d' a b c a' b' c' N N' E. rewrite (str_sentence _ _ _ _ N), (str_sentence _ _ _ _ N') in E.
  exact (sentence_inj _ _ _ _ _ _ E).
Qed.
Print Assumptions C133_read_back.

(** A new keyword, speaker or record changes the number it should, by one; *)
Theorem C133_keyword : forall (Arr : Type) (d d' : database Arr) t i a b c, numbers d a b c ->
  add_tag d t = (d', Ok i) -> db_str d' = sentence a b (S c).
Proof. intros Arr d d' t i a b c N E. exact (str_sentence _ _ _ _ (add_tag_numbers _ _ _ _ _ _ _ N E)). Qed.
Print Assumptions C133_keyword.
Theorem C133_speaker : forall (Arr : Type) (d d' : database Arr) name info i a b c, numbers d a b c ->
  add_speaker d name info = (d', Ok i) -> db_str d' = sentence a (S b) c.
Proof. intros Arr d d' name info i a b c N E. exact (str_sentence _ _ _ _ (add_speaker_numbers _ _ _ _ _ _ _ _ N E)). Qed.
Print Assumptions C133_speaker.
Theorem C133_record : forall (Arr : Type) (d d' : database Arr) r a b c, numbers d a b c ->
  add_record d r = (d', Ok tt) -> db_str d' = sentence (S a) b c.
Proof. intros Arr d d' r a b c N E. exact (str_sentence _ _ _ _ (add_record_numbers _ _ _ _ _ _ N E)). Qed.
Print Assumptions C133_record.
(** one that is refused changes nothing. *)
Theorem C133_refused : forall (Arr : Type) (d d' : database Arr) t name info r e,
  add_tag d t = (d', Err e) \/ add_speaker d name info = (d', Err e) \/ add_record d r = (d', Err e) -> db_str d' = db_str d.
Proof. intros Arr d d' t name info r e H. rewrite (refused d d' t name info r e H). reflexivity. Qed.
Print Assumptions C133_refused.

(** The statistics always start with this text; then they fail, unless there is neither
    speaker nor keyword. *)
Theorem C133_statistics : forall (Arr : Type) (d : database Arr) a b c, numbers d a b c ->
  snd (print_statistics d) = statistics d /\
  (0 < b -> print_statistics d = (lines (head_lines a b c), Err TypeError))%nat /\
  (b = 0 -> 0 < c -> print_statistics d = (lines (head_lines a b c ++ ["Records by speaker: "]), Err TypeError))%nat /\
  (b = 0 -> c = 0 -> print_statistics d = (lines (head_lines a b c ++ ["Records by speaker: "; "Records by keywords: "]), Ok tt))%nat.
Proof. intros Arr d a b c N. split; [exact (statistics_result d)|exact (statistics_text d a b c N)]. Qed.
Print Assumptions C133_statistics.

(** ** Examples *)
Definition ex_empty : database unit := mkDb 0 [] [] [] VNone [] [].
Definition ex_tagged : database unit := fst (add_tag ex_empty "dog").
Definition ex_speaker : database unit := fst (add_speaker ex_tagged "ann" VNone).
Definition ex_full : database unit := fst (add_record ex_speaker (mkRecord 0 0 (VStr "a.wav") [0%Z] (VStr "a dog") VNone)).
Example ex_numbers : numbers ex_full 1 1 1 /\ numbers ex_tagged 0 0 1 /\ numbers ex_empty 0 0 0.
Proof. repeat split. Qed.
Example ex_text : db_str ex_full = "1 records for 1 speakers and 1 keywords" /\ snd (add_tag ex_full "dog") = Err ValueError.
Proof. split; reflexivity. Qed.
Example ex_statistics : snd (print_statistics ex_full) = Err TypeError /\ snd (print_statistics ex_tagged) = Err TypeError /\
  snd (print_statistics ex_empty) = Ok tt.
Proof.
  destruct ex_numbers as (A & B & C).
  rewrite (proj1 (proj2 (C133_statistics _ _ _ _ _ A)) ltac:(lia)).
  rewrite (proj1 (proj2 (proj2 (C133_statistics _ _ _ _ _ B))) eq_refl ltac:(lia)).
  rewrite (proj2 (proj2 (proj2 (C133_statistics _ _ _ _ _ C))) eq_refl eq_refl). repeat split.
Qed.
