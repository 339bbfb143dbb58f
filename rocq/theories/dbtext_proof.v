(** * Lemmas about the text printed about a sound database. *)

From Coq Require Import List ZArith Arith Bool String Ascii Lia.
Import ListNotations.
From Verif Require Import Py Py_proof logger_model logger_file serial_model sound_model sound_count table_proof
  motioninfo_model motioninfo_spec motioninfo_proof dbtext_model dbtext_spec.
Local Open Scope nat_scope.
Local Open Scope string_scope.

Lemma str_sentence {Arr} (d : database Arr) a b c : numbers d a b c -> db_str d = sentence a b c.
Proof. intros (<- & <- & <-). unfold db_str. rewrite size_ok. reflexivity. Qed.

Definition dig (c : ascii) : Prop := 48 <= nat_of_ascii c <= 57.
Lemma cut_nat n n' x y : string_of_nat n ++ String " " x = string_of_nat n' ++ String " " y -> n = n' /\ x = y.
Proof.
  intros E. assert (N : ~ dig " ") by (unfold dig; cbn; lia).
  destruct (cut dig _ _ _ _ _ _ (nat_chars n) (nat_chars n') N N E) as (En & Ex).
  split; [exact (string_of_nat_inj _ _ En)|]. injection Ex as ->. reflexivity.
Qed.
Lemma sentence_inj a b c a' b' c' : sentence a b c = sentence a' b' c' -> a = a' /\ b = b' /\ c = c'.
Proof.
  unfold sentence. intros E.
  change (string_of_nat a ++ String " " ("records for " ++ string_of_nat b ++ " speakers and " ++ string_of_nat c ++ " keywords") =
          string_of_nat a' ++ String " " ("records for " ++ string_of_nat b' ++ " speakers and " ++ string_of_nat c' ++ " keywords")) in E.
  apply cut_nat in E. destruct E as (Ea & E). apply (str_app_inj_l "records for ") in E.
  change (string_of_nat b ++ String " " ("speakers and " ++ string_of_nat c ++ " keywords") =
          string_of_nat b' ++ String " " ("speakers and " ++ string_of_nat c' ++ " keywords")) in E.
  apply cut_nat in E. destruct E as (Eb & E). apply (str_app_inj_l "speakers and ") in E.
  change (string_of_nat c ++ String " " "keywords" = string_of_nat c' ++ String " " "keywords") in E.
  apply cut_nat in E. tauto.
Qed.

(** ** Changes *)
Lemma list_set_sum {A} (l : list (list A)) : forall k x y, nth_error l k = Some x ->
  List.length (List.concat (list_set l k (x ++ [y])%list)) = S (List.length (List.concat l)) /\
  List.length (list_set l k (x ++ [y])%list) = List.length l.
Proof.
  induction l as [|z l IH]; intros [|k] x y E; cbn in E; try discriminate; cbn [list_set List.concat List.length].
  - injection E as ->. rewrite !app_length. cbn. lia.
  - destruct (IH k x y E) as (A1 & A2). rewrite !app_length, A1, A2. lia.
Qed.
Lemma add_tag_numbers {Arr} (d d' : database Arr) t i a b c : numbers d a b c -> add_tag d t = (d', Ok i) -> numbers d' a b (S c).
Proof.
  intros (A & B & C) E. unfold add_tag in E. destruct (has_tag d t); [discriminate|]. injection E as <- <-.
  unfold numbers. cbn. rewrite app_length. cbn. lia.
Qed.
Lemma add_speaker_numbers {Arr} (d d' : database Arr) name info i a b c :
  numbers d a b c -> add_speaker d name info = (d', Ok i) -> numbers d' a (S b) c.
Proof.
  intros (A & B & C) E. unfold add_speaker in E. destruct (existsb _ _); [discriminate|]. injection E as <- <-.
  unfold numbers. cbn. rewrite concat_app, !app_length. cbn. lia.
Qed.
Lemma add_record_numbers {Arr} (d d' : database Arr) r a b c :
  numbers d a b c -> add_record d r = (d', Ok tt) -> numbers d' (S a) b c.
Proof.
  intros (A & B & C) E. unfold add_record in E. destruct (negb _); [discriminate|]. destruct (existsb _ _); [discriminate|].
  unfold append_record, py_nth, py_set in E. destruct (norm_index (List.length (d_records d)) (r_spkr_id r)) as [k|]; cbn in E; [|discriminate].
  destruct (nth_error (d_records d) k) as [rs|] eqn:N; cbn in E; [|discriminate]. injection E as <-.
  destruct (list_set_sum _ k rs r N) as (L1 & L2). unfold numbers. cbn. rewrite L1, L2. lia.
Qed.
Lemma refused {Arr} (d d' : database Arr) t name info r e :
  add_tag d t = (d', Err e) \/ add_speaker d name info = (d', Err e) \/ add_record d r = (d', Err e) -> d' = d.
Proof.
  intros [E | [E | E]].
  - unfold add_tag in E. destruct (has_tag d t); congruence.
  - unfold add_speaker in E. destruct (existsb _ _); congruence.
  - unfold add_record, append_record in E. destruct (negb _); [congruence|]. destruct (existsb _ _); [congruence|].
    destruct (bind _ _); congruence.
Qed.

(** ** Statistics *)
Lemma statistics_result {Arr} (d : database Arr) : snd (print_statistics d) = statistics d.
Proof.
  unfold print_statistics, statistics. destruct (join_objects (d_records d)); cbn [bind]; [|reflexivity].
  destruct (foldM _ _ _); cbn [bind]; [|reflexivity]. destruct (join_objects (d_tags d)); reflexivity.
Qed.
Lemma lines_cons a l : lines (a :: l) = print_line a ++ lines l.
Proof. unfold print_line. rewrite app_assoc_s. reflexivity. Qed.
Lemma head_text a b c (x : string) :
  (print_line "=======================" ++ print_line "* Database statistics *" ++ print_line "=======================" ++ print_line (sentence a b c)) ++ x =
  lines (head_lines a b c) ++ x.
Proof. unfold head_lines. rewrite !lines_cons, !app_assoc_s. reflexivity. Qed.
Lemma lines_app l m : lines (l ++ m)%list = lines l ++ lines m.
Proof. induction l as [|s l IH]; cbn; [reflexivity|]. rewrite IH, app_assoc_s. reflexivity. Qed.
Lemma statistics_text {Arr} (d : database Arr) a b c : numbers d a b c ->
  (0 < b -> print_statistics d = (lines (head_lines a b c), Err TypeError)) /\
  (b = 0 -> 0 < c -> print_statistics d = (lines (head_lines a b c ++ ["Records by speaker: "]), Err TypeError)) /\
  (b = 0 -> c = 0 -> print_statistics d = (lines (head_lines a b c ++ ["Records by speaker: "; "Records by keywords: "]), Ok tt)).
Proof.
  intros N. pose proof (str_sentence d a b c N) as ES. destruct N as (_ & B & C).
  unfold print_statistics. rewrite ES. split; [|split].
  - intros P. destruct (d_records d); [cbn in B; lia|]. reflexivity.
  - intros -> P. unfold all_records. destruct (d_records d); [|discriminate]. cbn [join_objects List.concat foldM].
    destruct (d_tags d); [cbn in C; lia|]. cbn [join_objects]. rewrite head_text, lines_app. reflexivity.
  - intros -> ->. unfold all_records. destruct (d_records d); [|discriminate]. cbn [join_objects List.concat foldM].
    destruct (d_tags d); [|discriminate]. cbn [join_objects]. rewrite app_assoc_s, head_text, lines_app. reflexivity.
Qed.
