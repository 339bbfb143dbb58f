(** * Properties of the text of a record (C135). *)

From Coq Require Import List ZArith Bool String Ascii Lia.
Import ListNotations.
From Verif Require Import Py logger_model serial_model sound_model rectext_model rectext_spec rectext_proof.
Local Open Scope string_scope.

Section Props.
Context {Arr : Type}.
Variable show : val Arr -> string.
Variable show_list : list string -> string.

(** The text gives the transcription, the file, the names of the tags and the speaker, *)
Theorem C135_text : forall (d : database Arr) r, Forall (place (d_tags d)) (r_tags r) -> place (d_spkrs d) (r_spkr_id r) ->
  exists names name, Forall2 (at_place (d_tags d)) (r_tags r) names /\ at_place (d_spkrs d) (r_spkr_id r) name /\
    get_tag_names d r = Ok names /\
    record_str show show_list d r =
      Ok ("<""" ++ show (r_trans r) ++ """, " ++ show (r_audio r) ++ ", tags: " ++ show_list names ++ " (" ++ name ++ ")>").
Proof. exact (str_ok show show_list). Qed.
(** and there is none for a record with an unknown tag or speaker. *)
Theorem C135_error : forall (d : database Arr) r, ~ (Forall (place (d_tags d)) (r_tags r) /\ place (d_spkrs d) (r_spkr_id r)) ->
  record_str show show_list d r = Err IndexError.
Proof. exact (str_err show show_list). Qed.

(** They can be read back when no transcription has a double quote, no file name a comma
    and no speaker a parenthesis: even for records of two databases. *)
Theorem C135_read_back : forall (d d' : database Arr) r r' t a t' a' x, plain show -> faithful show_list ->
  r_trans r = VStr t -> r_audio r = VStr a -> r_trans r' = VStr t' -> r_audio r' = VStr a' ->
  lacks """" t -> lacks """" t' -> lacks "," a -> lacks "," a' ->
  Forall (lacks "(") (d_spkrs d) -> Forall (lacks "(") (d_spkrs d') ->
  record_str show show_list d r = Ok x -> record_str show show_list d' r' = Ok x ->
  t = t' /\ a = a' /\ get_tag_names d r = get_tag_names d' r' /\
  exists name, at_place (d_spkrs d) (r_spkr_id r) name /\ at_place (d_spkrs d') (r_spkr_id r') name.
Proof. exact (str_inj show show_list). Qed.

(** Not in general: a transcription with a quote may look like the start of a file name, *)
Theorem C135_quote_refuted : plain show -> forall (d : database Arr) n i tags s,
  let r := mkRecord n i (VStr "c") tags (VStr "a"", b") s in
  let r' := mkRecord n i (VStr "b"", c") tags (VStr "a") s in
  r_trans r <> r_trans r' /\ r_audio r <> r_audio r' /\ record_str show show_list d r = record_str show show_list d r'.
Proof.
  intros PL d n i tags s r r'. split; [discriminate|]. split; [discriminate|]. unfold record_str, r, r'. cbn [r_tags r_spkr_id r_trans r_audio].
  destruct (mapM _ tags); cbn [bind]; [|reflexivity]. destruct (py_nth _ i); cbn [bind]; [|reflexivity]. rewrite !PL. reflexivity.
Qed.
(** and the style is not written. *)
Theorem C135_style_refuted : forall (d : database Arr) n i a tags t s s',
  record_str show show_list d (mkRecord n i a tags t s) = record_str show show_list d (mkRecord n i a tags t s').
Proof. reflexivity. Qed.
End Props.
Print Assumptions C135_text.
Print Assumptions C135_error.
Print Assumptions C135_read_back.
Print Assumptions C135_quote_refuted.
Print Assumptions C135_style_refuted.

(** ** Examples *)
Definition ex_show (v : val unit) : string := match v with VStr s => s | _ => "None" end.
(** Each name with its length in unary, so that lists are told apart. *)
Fixpoint ex_list (l : list string) : string :=
  match l with
  | [] => ""
  | s :: l' => string_of_list_ascii (List.repeat "1"%char (String.length s)) ++ "," ++ s ++ ex_list l'
  end.
Definition ex_db : database unit := mkDb 0 [] ["dog"; "cat"] [("dog", 0); ("cat", 1)] VNone ["ann"] [VNone].
Definition ex_record : record unit := mkRecord 0 0 (VStr "a.wav") [1; -2]%Z (VStr "a cat and a dog") VNone.
Example ex_plain : plain ex_show.
Proof. intros s. reflexivity. Qed.
Lemma prefix_inj s : forall s' x x',
  string_of_list_ascii (List.repeat "1"%char (String.length s)) ++ "," ++ s ++ x = string_of_list_ascii (List.repeat "1"%char (String.length s')) ++ "," ++ s' ++ x' ->
  s = s' /\ x = x'.
Proof.
  assert (G : forall n n' y y', string_of_list_ascii (List.repeat "1"%char n) ++ "," ++ y = string_of_list_ascii (List.repeat "1"%char n') ++ "," ++ y' -> n = n' /\ y = y').
  { induction n as [|n IH]; intros [|n'] y y' E; cbn in E; try discriminate; injection E as E; [auto|]. destruct (IH n' y y' E). auto. }
  intros s' x x' E. apply G in E. destruct E as (L & E). revert s' L E. induction s as [|c s IH]; intros [|c' s'] L E; cbn in *; try discriminate; [auto|].
  injection E as -> E. destruct (IH s' ltac:(lia) E). subst. auto.
Qed.
Example ex_faithful : faithful ex_list.
Proof.
  intros l. induction l as [|s l IH]; intros [|s' l'] E; cbn [ex_list] in E; [reflexivity|destruct s'; discriminate|destruct s; discriminate|].
  apply prefix_inj in E. destruct E as (-> & E). f_equal. exact (IH _ E).
Qed.
Example ex_places : Forall (place (d_tags ex_db)) (r_tags ex_record) /\ place (d_spkrs ex_db) (r_spkr_id ex_record).
Proof. split; [repeat constructor|split]; cbn; lia. Qed.
Example ex_text : exists names, get_tag_names ex_db ex_record = Ok names /\ names = ["cat"; "dog"] /\
  record_str ex_show ex_list ex_db ex_record = Ok ("<""a cat and a dog"", a.wav, tags: " ++ ex_list names ++ " (ann)>").
Proof. eexists. repeat split. Qed.
Example ex_lacks : lacks """" "a cat and a dog" /\ lacks "," "a.wav" /\ Forall (lacks "(") (d_spkrs ex_db).
Proof.
  assert (N : lacks "(" "ann") by (unfold lacks; cbn; intuition discriminate).
  split; [|split; [|exact (Forall_cons _ N (Forall_nil _))]]; unfold lacks; cbn; intuition discriminate.
Qed.
Example ex_unknown : record_str ex_show ex_list ex_db (mkRecord 0 1 VNone [] VNone VNone) = Err IndexError.
Proof. apply C135_error. intros (_ & P). unfold place in P. cbn in P. lia. Qed.
