(** * Specification of the files written by the script of sliding windows. *)

From Coq Require Import List ZArith Bool Arith String Ascii QArith.
Import ListNotations.
From Verif Require Import Py slidefiles_model.
From Verif Require launch_spec.
Local Open Scope nat_scope.

(** The part of [l] at the positions that satisfy [p], in the same order. *)
Inductive part {A} (p : nat -> Prop) : nat -> list A -> list A -> Prop :=
| part_nil n : part p n [] []
| part_take n a l m : p n -> part p (S n) l m -> part p n (a :: l) (a :: m)
| part_skip n a l m : ~ p n -> part p (S n) l m -> part p n (a :: l) m.

(** [text] is these texts, one after the other, with the end of a line between them. *)
Inductive in_lines : list string -> string -> Prop :=
| lines_none : in_lines [] ""%string
| lines_one a : in_lines [a] a
| lines_more a b l s : in_lines (b :: l) s -> in_lines (a :: b :: l) (a ++ String (ascii_of_nat 10) s)%string.
(** No end of line inside. *)
Definition one_line (s : string) : Prop := forall a b, s <> (a ++ String (ascii_of_nat 10) b)%string.

(** [s] is the part of a file name before the first point. *)
Definition stem (name s : string) : Prop :=
  (forall a b, s <> (a ++ "." ++ b)%string) /\ (name = s \/ exists b, name = (s ++ "." ++ b)%string).

(** The path [path] of a figure for the audio file [name] in the format [ext], in the
    directory annotated of the directory sliding_win_plots of [workdir]. *)
Definition plots_dir (workdir dir : string) : Prop := launch_spec.inside workdir "sliding_win_plots" dir.
Definition figure_path (workdir name ext path : string) : Prop :=
  exists d1 d2 s, plots_dir workdir d1 /\ launch_spec.inside d1 "annotated" d2 /\ stem name s /\ launch_spec.inside d2 (s ++ "." ++ ext) path.
Definition formats : list string := ["svg"; "pdf"; "eps"]%string.

(** The positions, among the windows of the test records, of the four sentences, with what
    is annotated in them. *)
Inductive sentence : nat -> list (string * (Q * Q)) -> Prop :=
| sentence_book : sentence 36 [("book"%string, (8 # 10, 1%Q))]
| sentence_daddy : sentence 89 [("Daddy"%string, (72 # 100, 96 # 100))]
| sentence_shoe : sentence 16 [("Angus"%string, (74 # 100, 101 # 100)); ("shoe"%string, (153 # 100, 193 # 100))]
| sentence_bottle : sentence 67 [("bottle"%string, (1%Q, 128 # 100))].

(** A disk on which the script can write: [workdir] is there, and nothing is where the
    directories go, or the two directories are there, with none below that has the name
    of a file. *)
Definition is_directory {F} (k : disk F) (p : string) : Prop := In p (k_dirs k).
Definition taken {F} (k : disk F) (p : string) : Prop := In p (k_dirs k) \/ In p (map fst (k_texts k)) \/ In p (map fst (k_figures k)).
Definition text_at {F} (k : disk F) (p t : string) : Prop := dict_get String.eqb (k_texts k) p = Some t.
Definition figure_at {F} (k : disk F) (p : string) (f : F) : Prop := dict_get String.eqb (k_figures k) p = Some f.
Definition new_place {F} (workdir : string) (k : disk F) : Prop :=
  is_directory k workdir /\ forall d, plots_dir workdir d -> ~ taken k d /\
    (forall d2, launch_spec.inside d "annotated" d2 -> ~ taken k d2) /\ forall p, is_directory k p -> ~ exists s, p = (d ++ "/" ++ s)%string.
Definition old_place {F} (workdir : string) (k : disk F) : Prop :=
  forall d, plots_dir workdir d -> is_directory k d /\ (forall d2, launch_spec.inside d "annotated" d2 -> is_directory k d2) /\
    forall p s, is_directory k p -> p = (d ++ "/" ++ s)%string -> s = "annotated"%string.
(** Nothing else is changed. *)
Definition other_files_same {F} (k k' : disk F) (mine : string -> Prop) : Prop :=
  forall p, ~ mine p -> dict_get String.eqb (k_texts k') p = dict_get String.eqb (k_texts k) p /\
                        dict_get String.eqb (k_figures k') p = dict_get String.eqb (k_figures k) p.

(** The windows of the pairs whose sound is a test record; [sounds] are the numbers of the
    records of all the pairs. *)
Definition windows_of (sounds idx wins : list nat) : Prop := part (fun n => exists r, nth_error sounds n = Some r /\ In r idx) 0 sounds wins.
(** The sentence at position [j] is saved after the one at position [i]. *)
Definition later (i j : nat) : Prop := exists a b c, [36; 89; 16; 67] = a ++ i :: b ++ j :: c.
Definition same_stem (x y : string) : Prop := exists s, stem x s /\ stem y s.
Definition no_slash (s : string) : Prop := forall a b, s <> (a ++ "/" ++ b)%string.
(** What is in train_trans.txt: the transcriptions of the records that are not in [idx]. *)
Definition train_file {F} (workdir : string) (trans : list string) (idx : list nat) (k : disk F) : Prop :=
  forall d p, plots_dir workdir d -> launch_spec.inside d "train_trans.txt" p ->
  exists ts t, part (fun r => ~ In r idx) 0 trans ts /\ in_lines ts t /\ text_at k p t.
Definition train_path (workdir p : string) : Prop := exists d, plots_dir workdir d /\ launch_spec.inside d "train_trans.txt" p.
(** The line printed for a figure of the window at position [fst x], in the format [snd x]. *)
Definition printed (workdir : string) (audio : nat -> string) (wins : list nat) (x : nat * string) (line : string) : Prop :=
  exists w p, nth_error wins (fst x) = Some w /\ figure_path workdir (audio w) (snd x) p /\ line = ("Written: " ++ p ++ ".")%string.
