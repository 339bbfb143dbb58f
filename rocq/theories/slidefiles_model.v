(** * Model of samples/plot_image_sound_eval_sliding.py: the files that are written
    (lines 19, 97-101, 122-123, 138-166).

    Records are known by their number in sound_loader.records, as in sliding_model; a
    record has an audio file and a transcription. plot_one_sentence (plots_model) is an
    argument. A disk is its directories, its text files and its figures. OSError of
    os.mkdir is written IOError, its other name under Python 3. Simplification: the
    directory of a figure is taken to be the one it is joined to, so audio files are
    assumed to have no '/' in the part of their name before the first point. *)

From Coq Require Import List ZArith Bool Arith String Ascii QArith.
Import ListNotations.
From Verif Require Import Py sound_model figures_model sliding_model.
Open Scope py_scope.
Local Open Scope nat_scope.

Record disk (F : Type) := Disk { k_dirs : list string; k_texts : list (string * string); k_figures : list (string * F) }.
Arguments Disk {F} _ _ _.
Arguments k_dirs {F} _.
Arguments k_texts {F} _.
Arguments k_figures {F} _.

Section Script.
Context {F : Type}.
Notation disk := (disk F).

(** os.path.exists *)
Definition has {A} (l : list (string * A)) (path : string) : bool := existsb (fun e => String.eqb (fst e) path) l.
Definition is_dir (k : disk) (path : string) : bool := existsb (String.eqb path) (k_dirs k).
Definition path_exists (k : disk) (path : string) : bool := is_dir k path || has (k_texts k) path || has (k_figures k) path.
(** os.mkdir of the directory [name] of [dir]. *)
Definition mkdir (k : disk) (dir name : string) : disk * result unit :=
  let path := path_join dir name in
  if is_dir k dir && negb (path_exists k path) then (Disk (path :: k_dirs k) (k_texts k) (k_figures k), Ok tt) else (k, Err IOError).
(** open(..., 'w') and write, of the file [name] of [dir]; a figure that was there is gone. *)
Definition write_text (k : disk) (dir name text : string) : disk * result unit :=
  let path := path_join dir name in
  if is_dir k dir && negb (is_dir k path) then
    (Disk (k_dirs k) (dict_set String.eqb (k_texts k) path text) (filter (fun e => negb (String.eqb (fst e) path)) (k_figures k)), Ok tt)
  else (k, Err IOError).
(** fig.savefig of the file [name] of [dir]; a text that was there is gone. *)
Definition save_figure (k : disk) (dir name : string) (fig : F) : disk * result unit :=
  let path := path_join dir name in
  if is_dir k dir && negb (is_dir k path) then
    (Disk (k_dirs k) (filter (fun e => negb (String.eqb (fst e) path)) (k_texts k)) (dict_set String.eqb (k_figures k) path fig), Ok tt)
  else (k, Err IOError).

(** audio.split('.')[0] *)
Fixpoint before_point (s : string) : string :=
  match s with
  | EmptyString => EmptyString
  | String c s' => if Ascii.eqb c "."%char then EmptyString else String c (before_point s')
  end.

(** Lines 143-149: positions among the windows of test records, and what is annotated. *)
Definition annotation := (string * (Q * Q))%type.
Definition ANNOTATIONS : list (nat * list annotation) :=
  [(36%nat, [("book"%string, (8 # 10, 1))]);
   (89%nat, [("Daddy"%string, (72 # 100, 96 # 100))]);
   (16%nat, [("Angus"%string, (74 # 100, 101 # 100)); ("shoe"%string, (153 # 100, 193 # 100))]);
   (67%nat, [("bottle"%string, (1, 128 # 100))])]%Q.

(** The lines that are printed, with the state of the disk. *)
Definition DESTDIR (workdir : string) : string := path_join workdir "sliding_win_plots".
(** Lines 98-101 *)
Definition make_dirs (workdir : string) (k : disk) : disk * result unit :=
  if path_exists k (DESTDIR workdir) then (k, Ok tt)
  else match mkdir k workdir "sliding_win_plots" with
       | (k, Err e) => (k, Err e)
       | (k, Ok _) => mkdir k (DESTDIR workdir) "annotated"
       end.
(** Lines 122-123 and 153-154: test_record_wins, by the numbers of their records;
    [sounds] are the numbers i[sound_modality] for i in assoc_idx. *)
Definition test_wins (sounds idx : list nat) : list nat := filter (in_test_records idx) sounds.
(** Lines 138-141 *)
Definition newline : string := String (ascii_of_nat 10) EmptyString.
Definition train_text (trans : list string) (idx : list nat) : string :=
  join_with newline (map snd (filter (fun r => negb (in_test_records idx (fst r))) (enumerate trans))).
(** Lines 161-166 *)
Fixpoint save_formats (dir stem : string) (fig : F) (exts : list string) (k : disk) : disk * list string * result unit :=
  match exts with
  | [] => (k, [], Ok tt)
  | ext :: exts =>
      let name := (stem ++ "." ++ ext)%string in
      match save_figure k dir name fig with
      | (k, Err e) => (k, [], Err e)
      | (k, Ok _) => let '(k, out, r) := save_formats dir stem fig exts k in (k, ("Written: " ++ path_join dir name ++ ".")%string :: out, r)
      end
  end.
(** Lines 155-166: [plot] is plot_one_sentence for the window of a record. *)
Fixpoint save_annotated (plot : nat -> list annotation -> result F) (audio : nat -> string) (dir : string) (wins : list nat)
    (anns : list (nat * list annotation)) (k : disk) : disk * list string * result unit :=
  match anns with
  | [] => (k, [], Ok tt)
  | (i, ann) :: anns =>
      match (win <- py_nth wins (Z.of_nat i) ;; fig <- plot win ann ;; Ok (win, fig)) with
      | Err e => (k, [], Err e)
      | Ok (win, fig) =>
          match save_formats dir (before_point (audio win)) fig ["svg"; "pdf"; "eps"]%string k with
          | (k, out, Err e) => (k, out, Err e)
          | (k, out, Ok _) => let '(k, out', r) := save_annotated plot audio dir wins anns k in (k, out ++ out', r)
          end
      end
  end.
(** Lines 97-166 *)
Definition write_files (plot : nat -> list annotation -> result F) (audio : nat -> string) (trans : list string) (workdir : string)
    (sounds idx : list nat) (k : disk) : disk * list string * result unit :=
  match make_dirs workdir k with
  | (k, Err e) => (k, [], Err e)
  | (k, Ok _) =>
      match write_text k (DESTDIR workdir) "train_trans.txt" (train_text trans idx) with
      | (k, Err e) => (k, [], Err e)
      | (k, Ok _) => save_annotated plot audio (path_join (DESTDIR workdir) "annotated") (test_wins sounds idx) ANNOTATIONS k
      end
  end.
End Script.
