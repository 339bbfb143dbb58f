(** * The files written by the script of sliding windows: theorems. *)
From Coq Require Import List ZArith Bool Arith String Ascii QArith Lia.
Import ListNotations.
From Verif Require Import Py logger_model sliding_model slidefiles_model slidefiles_spec slidefiles_proof.
From Verif Require launch_spec launch_proof.
Local Open Scope nat_scope.

(** With 90 windows of test records or more: transcriptions, twelve figures and lines. A
    figure stays unless a later sentence has the same name up to the first point. *)
Theorem C127_written : forall (F : Type) (plot : nat -> list (string * (Q * Q)) -> result F) (audio : nat -> string) (trans : list string) (workdir : string)
    (sounds idx wins : list nat) (k : disk F),
  new_place workdir k \/ old_place workdir k -> windows_of sounds idx wins -> (forall w, In w wins -> no_slash (audio w)) ->
  (forall i ann, sentence i ann -> exists w f, nth_error wins i = Some w /\ plot w ann = Ok f) ->
  exists k' out, write_files plot audio trans workdir sounds idx k = (k', out, Ok tt) /\ train_file workdir trans idx k' /\
  Forall2 (printed workdir audio wins) (list_prod [36; 89; 16; 67] formats) out /\
  (forall i ann w f e p, sentence i ann -> nth_error wins i = Some w -> plot w ann = Ok f -> In e formats -> figure_path workdir (audio w) e p ->
     (forall j w', later i j -> nth_error wins j = Some w' -> ~ same_stem (audio w) (audio w')) -> figure_at k' p f) /\
  other_files_same k k' (fun p => train_path workdir p \/ exists i ann w e, sentence i ann /\ nth_error wins i = Some w /\ In e formats /\ figure_path workdir (audio w) e p).
Proof. exact @written. Qed.
Print Assumptions C127_written.
(** A sentence with the name of a later one is not on the disk: the later one is. *)
Theorem C127_same_name_refuted : forall (F : Type) (plot : nat -> list (string * (Q * Q)) -> result F) (audio : nat -> string) (trans : list string) (workdir : string)
    (sounds idx wins : list nat) (k : disk F),
  new_place workdir k \/ old_place workdir k -> windows_of sounds idx wins -> (forall w, In w wins -> no_slash (audio w)) ->
  (forall i ann, sentence i ann -> exists w f, nth_error wins i = Some w /\ plot w ann = Ok f) ->
  forall i j ann w w' f e p, later i j -> sentence j ann -> nth_error wins i = Some w -> nth_error wins j = Some w' -> same_stem (audio w) (audio w') ->
  plot w' ann = Ok f -> In e formats -> figure_path workdir (audio w) e p ->
  (forall n v, later j n -> nth_error wins n = Some v -> ~ same_stem (audio w') (audio v)) ->
  exists k' out, write_files plot audio trans workdir sounds idx k = (k', out, Ok tt) /\ figure_at k' p f.
Proof. exact @overwritten. Qed.
Print Assumptions C127_same_name_refuted.
(** With fewer windows the script stops: after the first sentence, or before. *)
Theorem C127_stops : forall (F : Type) (plot : nat -> list (string * (Q * Q)) -> result F) (audio : nat -> string) (trans : list string) (workdir : string)
    (sounds idx wins : list nat) (k : disk F),
  new_place workdir k \/ old_place workdir k -> windows_of sounds idx wins -> (forall w, In w wins -> no_slash (audio w)) ->
  forall w f, nth_error wins 36 = Some w -> nth_error wins 89 = None -> plot w [("book"%string, (8 # 10, 1%Q))] = Ok f ->
  exists k' out, write_files plot audio trans workdir sounds idx k = (k', out, Err IndexError) /\ train_file workdir trans idx k' /\
  Forall2 (printed workdir audio wins) (list_prod [36] formats) out /\
  (forall e p, In e formats -> figure_path workdir (audio w) e p -> figure_at k' p f) /\
  other_files_same k k' (fun p => train_path workdir p \/ exists e, In e formats /\ figure_path workdir (audio w) e p).
Proof. exact @one_written. Qed.
Print Assumptions C127_stops.
Theorem C127_few : forall (F : Type) (plot : nat -> list (string * (Q * Q)) -> result F) (audio : nat -> string) (trans : list string) (workdir : string)
    (sounds idx wins : list nat) (k : disk F),
  new_place workdir k \/ old_place workdir k -> windows_of sounds idx wins -> (forall w, In w wins -> no_slash (audio w)) ->
  nth_error wins 36 = None ->
  exists k', write_files plot audio trans workdir sounds idx k = (k', [], Err IndexError) /\ train_file workdir trans idx k' /\ other_files_same k k' (train_path workdir).
Proof. exact @none_written. Qed.
Print Assumptions C127_few.
(** The directory of the plots is there, that of the annotated ones is not: it is not made. *)
Theorem C127_no_directory : forall (F : Type) (plot : nat -> list (string * (Q * Q)) -> result F) (audio : nat -> string) (trans : list string) (workdir : string)
    (sounds idx wins : list nat) (k : disk F) w f, windows_of sounds idx wins ->
  (forall d, plots_dir workdir d -> is_directory k d /\ (forall d2, launch_spec.inside d "annotated" d2 -> ~ is_directory k d2) /\ forall p, launch_spec.inside d "train_trans.txt" p -> ~ is_directory k p) ->
  nth_error wins 36 = Some w -> plot w [("book"%string, (8 # 10, 1%Q))] = Ok f ->
  exists k', write_files plot audio trans workdir sounds idx k = (k', [], Err IOError) /\ train_file workdir trans idx k' /\ other_files_same k k' (train_path workdir).
Proof. exact @no_annotated. Qed.
Print Assumptions C127_no_directory.
(** The transcriptions can be read back, if they have no end of line and there is one. *)
Theorem C127_read_back : forall (l l' : list string) (t : string), in_lines l t -> in_lines l' t -> l <> [] -> l' <> [] -> Forall one_line l -> Forall one_line l' -> l = l'.
Proof. intros l l' t H H'. exact (lines_back l t H l' H'). Qed.
Print Assumptions C127_read_back.

(** ** Examples *)
Definition wav (w : nat) : string := (string_of_nat w ++ ".wav")%string.
Lemma no_slash_test s : existsb (Ascii.eqb "/"%char) (list_ascii_of_string s) = false -> no_slash s.
Proof.
  intros H a b ->. enough (X : existsb (Ascii.eqb "/"%char) (list_ascii_of_string (a ++ String "/" b)) = true) by (cbn in *; congruence).
  clear H. induction a as [|c a IH]; [reflexivity|]. cbn [append list_ascii_of_string existsb]. now rewrite IH, orb_true_r.
Qed.
Example ex_names : forall w, In w (seq 0 90) -> no_slash (wav w).
Proof.
  intros w H. apply no_slash_test. assert (A : forallb (fun w => negb (existsb (Ascii.eqb "/"%char) (list_ascii_of_string (wav w)))) (seq 0 90) = true) by (vm_compute; reflexivity).
  rewrite forallb_forall in A. specialize (A w H). now apply negb_true_iff.
Qed.
Example ex_windows : windows_of (seq 0 100) (seq 0 90) (seq 0 90).
Proof. exact (wins_part (seq 0 90) (seq 0 100)). Qed.
Example ex_sentences : forall i ann, sentence i ann -> exists w f, nth_error (seq 0 90) i = Some w /\ (fun w (_ : list (string * (Q * Q))) => Ok w) w ann = Ok f.
Proof. intros i ann []; do 2 eexists; split; reflexivity. Qed.
Definition start : disk nat := Disk ["/home/w"%string] [] [].
Example ex_place : new_place "/home/w" start.
Proof.
  split; [now left|]. intros d Hd. apply dest_inside in Hd. subst d. split.
  - intros [[X|[]]|[[]|[]]]. discriminate X.
  - split.
    + intros d2 I. apply launch_proof.join_inside in I; [|reflexivity]. subst d2. intros [[X|[]]|[[]|[]]]. discriminate X.
    + intros p [<-|[]] (s & X). discriminate X.
Qed.
Example ex_written : let '(k, out, r) := write_files (fun w _ => Ok w) wav (repeat "Where is the book?"%string 90 ++ ["Angus."; "A shoe."]%string) "/home/w" (seq 0 100) (seq 0 90) start in
  r = Ok tt /\ nth_error out 4 = Some "Written: /home/w/sliding_win_plots/annotated/89.pdf."%string /\
  k_texts k = [("/home/w/sliding_win_plots/train_trans.txt"%string, ("Angus." ++ String (ascii_of_nat 10) "A shoe.")%string)] /\
  figure_at k "/home/w/sliding_win_plots/annotated/67.eps" 67.
Proof. vm_compute. repeat split. Qed.
Example ex_stops : let '(k, out, r) := write_files (fun w _ => Ok w) wav ["Angus."]%string "/home/w" (seq 0 50) (seq 0 50) start in
  r = Err IndexError /\ List.length out = 3.
Proof. vm_compute. repeat split. Qed.
(** Audio files that have the same name up to the first point. *)
Example ex_same_name : let '(k, out, r) := write_files (fun w _ => Ok w) (fun w => "rec." ++ string_of_nat w ++ ".wav")%string [] "/home/w" (seq 0 90) (seq 0 90) start in
  r = Ok tt /\ List.length out = 12 /\ k_figures k = [("/home/w/sliding_win_plots/annotated/rec.svg", 67); ("/home/w/sliding_win_plots/annotated/rec.pdf", 67); ("/home/w/sliding_win_plots/annotated/rec.eps", 67)]%string.
Proof. vm_compute. repeat split. Qed.
(** Nothing, and one empty transcription, give the same file. *)
Example ex_empty : in_lines [] "" /\ in_lines [""%string] "".
Proof. split; constructor. Qed.
