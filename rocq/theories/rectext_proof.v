(** * Lemmas about the text of a record. *)

From Coq Require Import List ZArith Arith Bool String Ascii Lia.
Import ListNotations.
From Verif Require Import Py Py_proof logger_model logger_file serial_model sound_model motioninfo_proof rectext_model rectext_spec.
Local Open Scope string_scope.

Lemma py_nth_place {A} (l : list A) i : place l i -> exists x, py_nth l i = Ok x /\ at_place l i x.
Proof.
  intros (L & H). unfold py_nth, norm_index, at_place. destruct (Z.leb_spec 0 i) as [P|P].
  - destruct (Z.ltb_spec i (Z.of_nat (List.length l))); [|lia]. cbn [andb bind].
    destruct (nth_error l (Z.to_nat i)) as [x|] eqn:E; [|apply nth_error_None in E; lia]. exists x. auto.
  - cbn [andb]. destruct (Z.leb_spec (- Z.of_nat (List.length l)) i); [|lia]. destruct (Z.ltb_spec i 0); [|lia]. cbn [andb bind].
    rewrite (Z.add_comm i). destruct (nth_error l (Z.to_nat (Z.of_nat (List.length l) + i))) as [x|] eqn:E; [|apply nth_error_None in E; lia].
    exists x. split; [reflexivity|]. right. auto.
Qed.
Lemma py_nth_no_place {A} (l : list A) i : ~ place l i -> py_nth l i = Err IndexError.
Proof.
  intros N. unfold py_nth, norm_index, place in *. destruct (Z.leb_spec 0 i), (Z.ltb_spec i (Z.of_nat (List.length l))),
    (Z.leb_spec (- Z.of_nat (List.length l)) i), (Z.ltb_spec i 0); cbn [andb bind]; try reflexivity; lia.
Qed.
Lemma at_place_unique {A} (l : list A) i x y : at_place l i x -> at_place l i y -> x = y.
Proof. intros [(P & E)|(P & Q & E)] [(P' & E')|(P' & Q' & E')]; try lia; congruence. Qed.

Section Text.
Context {Arr : Type}.
Variable show : val Arr -> string.
Variable show_list : list string -> string.
Notation record_str := (record_str show show_list).

Lemma names_place (d : database Arr) tags : Forall (place (d_tags d)) tags ->
  exists names, mapM (py_nth (d_tags d)) tags = Ok names /\ Forall2 (at_place (d_tags d)) tags names.
Proof.
  induction 1 as [|i tags P F (names & E & F2)]; [exists []; split; [reflexivity|constructor]|].
  destruct (py_nth_place _ _ P) as (x & Ex & X). exists (x :: names). cbn [mapM]. rewrite Ex. cbn [bind]. rewrite E. split; [reflexivity|constructor; auto].
Qed.
Lemma names_no_place (d : database Arr) tags : ~ Forall (place (d_tags d)) tags -> mapM (py_nth (d_tags d)) tags = Err IndexError.
Proof.
  induction tags as [|i tags IH]; intros N; [elim N; constructor|]. cbn [mapM].
  assert (D : place (d_tags d) i \/ ~ place (d_tags d) i) by (unfold place; lia). destruct D as [P|P].
  - destruct (py_nth_place _ _ P) as (x & Ex & _). rewrite Ex. cbn [bind]. rewrite IH; [reflexivity|]. intros F. apply N. constructor; auto.
  - rewrite (py_nth_no_place _ _ P). reflexivity.
Qed.

Lemma str_ok (d : database Arr) r : Forall (place (d_tags d)) (r_tags r) -> place (d_spkrs d) (r_spkr_id r) ->
  exists names name, Forall2 (at_place (d_tags d)) (r_tags r) names /\ at_place (d_spkrs d) (r_spkr_id r) name /\
    get_tag_names d r = Ok names /\
    record_str d r = Ok ("<""" ++ show (r_trans r) ++ """, " ++ show (r_audio r) ++ ", tags: " ++ show_list names ++ " (" ++ name ++ ")>").
Proof.
  intros F P. destruct (names_place d _ F) as (names & E & F2). destruct (py_nth_place _ _ P) as (name & En & N).
  exists names, name. split; [exact F2|]. split; [exact N|]. split; [exact E|]. unfold rectext_model.record_str. rewrite E. cbn [bind]. rewrite En. reflexivity.
Qed.
Lemma str_err (d : database Arr) r : ~ (Forall (place (d_tags d)) (r_tags r) /\ place (d_spkrs d) (r_spkr_id r)) ->
  record_str d r = Err IndexError.
Proof.
  intros N. unfold rectext_model.record_str. destruct (Forall_dec (place (d_tags d))) with (l := r_tags r) as [F|F].
  - intros i. unfold place. destruct (Z_le_dec (- Z.of_nat (List.length (d_tags d))) i), (Z_lt_dec i (Z.of_nat (List.length (d_tags d)))); [left; lia|right; lia..].
  - destruct (names_place d _ F) as (names & E & _). rewrite E. cbn [bind]. rewrite (py_nth_no_place _ _ (fun P => N (conj F P))). reflexivity.
  - rewrite (names_no_place d _ F). reflexivity.
Qed.

(** ** Reading back *)
Lemma cut_char k a b x y : lacks k a -> lacks k b -> a ++ String k x = b ++ String k y -> a = b /\ x = y.
Proof.
  intros A B E. assert (N : ~ (k <> k)) by tauto.
  destruct (cut (fun c => c <> k) a b x y k k) as (Ea & Ex); auto.
  - intros c I ->. exact (A I).
  - intros c I ->. exact (B I).
  - injection Ex as ->. auto.
Qed.
Lemma chars_inj a b : list_ascii_of_string a = list_ascii_of_string b -> a = b.
Proof. intros E. rewrite <- (string_of_list_ascii_of_string a), E. apply string_of_list_ascii_of_string. Qed.
Lemma cut_list (k : ascii) a : forall b x y, ~ In k a -> ~ In k b -> (a ++ k :: x = b ++ k :: y)%list -> a = b /\ x = y.
Proof.
  induction a as [|u a IH]; intros [|v b] x y A B E; cbn in E.
  - injection E as ->. auto.
  - injection E as -> E. elim B. now left.
  - injection E as -> E. elim A. now left.
  - injection E as -> E. destruct (IH b x y) as (-> & ->); auto; intros I; [apply A|apply B]; now right.
Qed.
Lemma cut_last k a b x y : lacks k x -> lacks k y -> a ++ String k x = b ++ String k y -> a = b /\ x = y.
Proof.
  intros X Y E. apply (f_equal (fun s => rev (list_ascii_of_string s))) in E. rewrite !chars_app in E. cbn [list_ascii_of_string] in E.
  rewrite !rev_app_distr in E. cbn [rev] in E. rewrite <- !app_assoc in E. cbn [app] in E.
  apply cut_list in E; [|intros I; apply in_rev in I; auto..]. destruct E as (E1 & E2).
  split; apply chars_inj; [rewrite <- (rev_involutive (list_ascii_of_string a)), E2, rev_involutive|
    rewrite <- (rev_involutive (list_ascii_of_string x)), E1, rev_involutive]; reflexivity.
Qed.
Lemma lacks_end name : lacks "(" name -> lacks "(" (name ++ ")>").
Proof. intros L I. rewrite chars_app in I. apply in_app_or in I. destruct I as [I|I]; [exact (L I)|]. cbn in I. destruct I as [I|[I|[]]]; discriminate. Qed.

Lemma str_inj (d d' : database Arr) r r' t a t' a' x : plain show -> faithful show_list ->
  r_trans r = VStr t -> r_audio r = VStr a -> r_trans r' = VStr t' -> r_audio r' = VStr a' ->
  lacks """" t -> lacks """" t' -> lacks "," a -> lacks "," a' ->
  Forall (lacks "(") (d_spkrs d) -> Forall (lacks "(") (d_spkrs d') ->
  record_str d r = Ok x -> record_str d' r' = Ok x ->
  t = t' /\ a = a' /\ get_tag_names d r = get_tag_names d' r' /\
  exists name, at_place (d_spkrs d) (r_spkr_id r) name /\ at_place (d_spkrs d') (r_spkr_id r') name.
Proof.
  intros PL FA T A T' A' LT LT' LA LA' SP SP' E E'.
  assert (D : forall (d : database Arr) r x, record_str d r = Ok x -> Forall (place (d_tags d)) (r_tags r) /\ place (d_spkrs d) (r_spkr_id r)).
  { clear. intros d r x E. assert (Q : {Forall (place (d_tags d)) (r_tags r)} + {~ Forall (place (d_tags d)) (r_tags r)}).
    { apply Forall_dec. intros i. unfold place. destruct (Z_le_dec (- Z.of_nat (List.length (d_tags d))) i), (Z_lt_dec i (Z.of_nat (List.length (d_tags d)))); [left; lia|right; lia..]. }
    assert (S : place (d_spkrs d) (r_spkr_id r) \/ ~ place (d_spkrs d) (r_spkr_id r)) by (unfold place; lia).
    destruct Q as [Q|Q], S as [S|S]; [auto|rewrite str_err in E by tauto; discriminate..]. }
  destruct (D _ _ _ E) as (F & P), (D _ _ _ E') as (F' & P').
  destruct (str_ok d r F P) as (names & name & _ & N & G & X), (str_ok d' r' F' P') as (names' & name' & _ & N' & G' & X').
  rewrite E in X. rewrite E' in X'. injection X as X. injection X' as X'. rewrite X in X'. clear X E E'.
  rewrite T, A, T', A', !PL in X'. injection X' as X'.
  apply (cut_char """" t t' _ _ LT LT') in X'. destruct X' as (-> & X'). apply (str_app_inj_l ", ") in X'.
  apply (cut_char "," a a' _ _ LA LA') in X'. destruct X' as (-> & X'). apply (str_app_inj_l " tags: ") in X'.
  assert (NL : lacks "(" name /\ lacks "(" name').
  { rewrite Forall_forall in SP, SP'. split.
    - destruct N as [(_ & I)|(_ & _ & I)]; exact (SP _ (nth_error_In _ _ I)).
    - destruct N' as [(_ & I)|(_ & _ & I)]; exact (SP' _ (nth_error_In _ _ I)). }
  change (show_list names ++ " " ++ String "(" (name ++ ")>") = show_list names' ++ " " ++ String "(" (name' ++ ")>")) in X'.
  rewrite <- !app_assoc_s in X'. apply (cut_last "(" _ _ _ _ (lacks_end _ (proj1 NL)) (lacks_end _ (proj2 NL))) in X'. destruct X' as (X1 & X2).
  change (show_list names ++ String " " "" = show_list names' ++ String " " "") in X1.
  assert (LE : lacks " " "") by (intros []).
  apply (cut_last " " _ _ _ _ LE LE) in X1. destruct X1 as (X1 & _). apply FA in X1. subst names'.
  change (name ++ String ")" ">" = name' ++ String ")" ">") in X2.
  assert (LE' : lacks ")" ">") by (intros [I|[]]; discriminate).
  apply (cut_last ")" _ _ _ _ LE' LE') in X2. destruct X2 as (-> & _).
  split; [reflexivity|]. split; [reflexivity|]. split; [congruence|]. exists name'. auto.
Qed.
End Text.
