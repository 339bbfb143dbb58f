(** * C123: the printed table of results. *)

From Coq Require Import List ZArith Reals Bool Arith String QArith Qreals Lia Lra.
Import ListNotations.
From Verif Require Import Py nd_model nd_spec logger_model pairing_model pairing_spec sparse_model learner_spec experiment_model experiment_spec
  figures_model figures_spec figures_draw figures_exp figures_tables table_model table_spec table_proof table_rows.
From Verif Require experiment_props figures_props.
Local Open Scope nat_scope.

(** The table of two modalities: a head, a line for each comparison, and a last rule. Each
    line has six columns of 13 characters: the names, then the average of the scores of
    the runs and the deviation, rounded to thousandths, the ones at most 1.000 and the
    others at most 0.500. *)
Theorem C123_two : forall (rd : random) (x : experiment) (f : option string), sound x -> legal x rd -> enough x rd -> x_kind x = Two ->
  (forall m, In m (x_mods x) -> clean m) -> 2 <= List.length (x_mods x) -> (forall m, In m (x_mods x) -> String.length m <= 13) ->
  exists p splits w h1 h2 h3 h4 h5 rows, prepare rd x = Ok p /\ p_generator p = Ok splits /\ splits <> [] /\ run_world rd x f = (w, Ok tt) /\
    table_two w x = ([h1; h2; h3; h4; h5] ++ rows ++ [h1], Ok tt)%list /\
    (forall h, In h [h1; h3; h5] -> separator h /\ String.length h = 83) /\
    in_middle 41 "Modalities" (substring 0 41 h2) /\ in_middle 41 "Score: avg (std)" (substring 41 41 h2) /\
    columns 13 ["Test"; "Reference"; "Comparison"; "KL"; "Euclidean"; "Cosine"]%string h4 /\
    Forall2 (fun c row => exists names cells, line_for x p splits c names cells /\ columns 13 (names ++ cells) row) (shown_lines x) rows.
Proof. exact two_lines. Qed.
Print Assumptions C123_two.

(** The lines are aligned, with 83 characters, exactly if no name has more than 13. *)
Theorem C123_aligned : forall (rd : random) (x : experiment) (f : option string), sound x -> legal x rd -> enough x rd -> x_kind x = Two ->
  (forall m, In m (x_mods x) -> clean m) -> 2 <= List.length (x_mods x) ->
  exists w lines rows, run_world rd x f = (w, Ok tt) /\ table_two w x = (lines, Ok tt) /\ lines = (firstn 5 lines ++ rows ++ skipn (5 + List.length rows) lines)%list /\
    List.length rows = 2 * S (List.length (x_mods x)) /\ List.length lines = 6 + List.length rows /\
    ((forall r, In r rows -> String.length r = 83) <-> (forall m, In m (x_mods x) -> String.length m <= 13)) /\
    (forall r, In r rows -> 83 <= String.length r).
Proof. exact long_names. Qed.
Print Assumptions C123_aligned.

(** A number that is not negative is shown with three decimals, rounded to the nearest. *)
Theorem C123_number : forall (v : R), (0 <= v)%R -> shows (fixed3 v) v.
Proof. exact fixed_shows. Qed.
Print Assumptions C123_number.
(** What is shown is in the order of the numbers, and it is one number only. *)
Theorem C123_order : forall (u v : R) (n k : nat), (0 <= u <= v)%R -> thousandths (fixed3 u) n -> thousandths (fixed3 v) k -> n <= k.
Proof. exact fixed_order. Qed.
Print Assumptions C123_order.

(** Three modalities: five lines, none with results, and then an exception. *)
Theorem C123_three_refuted : forall (rd : random) (x : experiment) (f : option string) (py2 : bool), sound x -> legal x rd -> enough x rd -> x_kind x = Three ->
  (forall m, In m (x_mods x) -> clean m) -> List.length (x_mods x) = 3 ->
  exists w h1 h2 h3 h4 h5, run_world rd x f = (w, Ok tt) /\ table_three py2 w x = ([h1; h2; h3; h4; h5], Err (if py2 then ValueError else TypeError)) /\
    (forall h, In h [h1; h3; h5] -> separator h) /\ String.length h1 = 80 /\ String.length h3 = 79 /\ String.length h5 = 79 /\
    in_middle 32 "Modalities" (substring 0 32 h2) /\ in_middle 47 "Score: avg (std)" (substring 32 47 h2) /\ String.length h2 = 79 /\
    columns 15 ["Test"; "Reference"; "KL"; "Euclidean"; "Cosine"]%string h4.
Proof. exact three_lines. Qed.
Print Assumptions C123_three_refuted.
(** The same for one modality. *)
Theorem C123_one_refuted : forall (w : world) (x : experiment), List.length (x_mods x) = 1 ->
  exists h1 h2 h3 h4 h5, table_two w x = ([h1; h2; h3; h4; h5], Err IndexError).
Proof. exact one_lines. Qed.
Print Assumptions C123_one_refuted.

(** ** Examples *)
Import experiment_props figures_props.
Lemma ex2_short m : In m (x_mods ex2) -> String.length m <= 13.
Proof. intros [<-|[<-|[]]]; cbn; lia. Qed.
Example C123_ex_two : exists w lines, run_world ex_rd ex2 None = (w, Ok tt) /\ table_two w ex2 = (lines, Ok tt) /\ List.length lines = 12.
Proof.
  destruct (C123_two ex_rd ex2 None) as (p & splits & w & h1 & h2 & h3 & h4 & h5 & rows & _ & _ & _ & Er & Et & _ & _ & _ & _ & F).
  - apply ex_sound_x; [discriminate|now left].
  - apply ex_legal.
  - apply ex_enough.
  - reflexivity.
  - exact (all_clean _ ex2_known).
  - cbn. lia.
  - exact ex2_short.
  - exists w. eexists. split; [exact Er|]. split; [exact Et|]. cbn [app List.length]. rewrite app_length. rewrite <- (f2_len _ _ _ F). reflexivity.
Qed.
Example C123_ex_aligned : exists w lines, run_world ex_rd ex2 None = (w, Ok tt) /\ table_two w ex2 = (lines, Ok tt) /\ List.length lines = 12.
Proof.
  destruct (C123_aligned ex_rd ex2 None) as (w & lines & rows & Er & Et & _ & Lr & Ll & _).
  - apply ex_sound_x; [discriminate|now left].
  - apply ex_legal.
  - apply ex_enough.
  - reflexivity.
  - exact (all_clean _ ex2_known).
  - cbn. lia.
  - exists w, lines. split; [exact Er|]. split; [exact Et|]. rewrite Ll, Lr. reflexivity.
Qed.
(** 0.0625 is half way: the even number of thousandths is shown. *)
Example C123_ex_number : shows (fixed3 (1 / 16)) (1 / 16) /\ forall n, nearest3 (1 / 16) n -> n = 62.
Proof.
  split; [apply C123_number; lra|]. intros n (A & B). assert (C : (Rabs (1 / 16 * 1000 - INR n) < 1 / 2)%R \/ (Rabs (1 / 16 * 1000 - INR n) = 1 / 2)%R) by lra.
  rewrite INR_IZR_INZ in *. assert (n = 62 \/ n = 63) as [->| ->]; [|reflexivity|].
  - assert (L : (61 < Z.of_nat n)%Z). { apply lt_IZR. unfold Rabs in A. destruct (Rcase_abs _) in A; lra. }
    assert (U : (Z.of_nat n < 64)%Z). { apply lt_IZR. unfold Rabs in A. destruct (Rcase_abs _) in A; lra. } lia.
  - exfalso. change (Z.of_nat 63) with 63%Z in *. assert (Nat.Even 63) as (k & Ek); [|lia]. apply B. rewrite Rabs_left by lra. lra.
Qed.
Example C123_ex_order : exists n k, thousandths (fixed3 (1 / 16)) n /\ thousandths (fixed3 (1 / 2)) k /\ n <= k.
Proof.
  destruct (C123_number (1 / 16)) as (n & Tn & _); [lra|]. destruct (C123_number (1 / 2)) as (k & Tk & _); [lra|].
  exists n, k. split; [exact Tn|]. split; [exact Tk|]. apply (C123_order (1 / 16) (1 / 2)); auto. lra.
Qed.
Example C123_ex_three : exists w lines, run_world ex_rd3 ex3 None = (w, Ok tt) /\ table_three false w ex3 = (lines, Err TypeError) /\ List.length lines = 5.
Proof.
  destruct (C123_three_refuted ex_rd3 ex3 None false ex3_sound ex3_legal ex3_enough eq_refl (all_clean _ ex3_known) eq_refl) as (w & h1 & h2 & h3 & h4 & h5 & Er & Et & _).
  exists w. eexists. split; [exact Er|]. split; [exact Et|]. reflexivity.
Qed.
Example C123_ex_row : two_text (["sound"; "image"; "internal"]%string, []) = "    sound         image        internal  "%string.
Proof. reflexivity. Qed.
