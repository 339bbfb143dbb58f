(** * Model of samples/plot_image_sound_eval_sliding.py: words and labels (lines 58-92).

    Counts are natural numbers until they are divided; floats are real numbers.
    Strings are strings of bytes: lower() changes the letters of ASCII only. *)

From Coq Require Import List ZArith Bool Arith Reals String Ascii.
Import ListNotations.
From Verif Require Import Py hac_model nd_model metrics_model objects_model.
Open Scope py_scope.
Local Open Scope nat_scope.

(** ** Strings *)
(** s.lower() *)
Definition lower_char (c : ascii) : ascii :=
  let n := nat_of_ascii c in if (65 <=? n) && (n <=? 90) then ascii_of_nat (n + 32) else c.
Fixpoint lower (s : string) : string :=
  match s with EmptyString => EmptyString | String c s' => String (lower_char c) (lower s') end.
(** s.strip(chars) *)
Definition is_char (chars : string) (c : ascii) : bool := existsb (Ascii.eqb c) (list_ascii_of_string chars).
Fixpoint lstrip (chars s : string) : string :=
  match s with EmptyString => EmptyString | String c s' => if is_char chars c then lstrip chars s' else s end.
Fixpoint rstrip (chars s : string) : string :=
  match s with
  | EmptyString => EmptyString
  | String c s' => match rstrip chars s' with
                   | EmptyString => if is_char chars c then EmptyString else String c EmptyString
                   | t => String c t
                   end
  end.
Definition strip (chars s : string) : string := rstrip chars (lstrip chars s).
(** sorted() of strings. *)
Fixpoint insert_string (s : string) (l : list string) : list string :=
  match l with [] => [s] | t :: l' => if String.ltb t s then t :: insert_string s l' else s :: l end.
Definition sort_strings (l : list string) : list string := fold_right insert_string [] l.

(** words_by_record (line 62), for one record. *)
Definition words_of (trans : string) : list string := split (lower (strip ".?!" trans)).

(** all_words (lines 63-65). *)
Definition all_words_of (all_labels : list string) (words : list (list string)) : list string :=
  (all_labels ++ sort_strings (filter (fun w => negb (existsb (String.eqb w) all_labels)) (nodup string_dec (List.concat words))))%list.

(** word_counts (lines 66-67), for one record.  The order of set(t) has no influence on the
    counts: that of the last occurrences is taken. *)
Definition counts_of (all_words t : list string) : result (list nat) :=
  idx <- mapM (fun w => list_index String.eqb all_words w 0) (nodup string_dec t) ;;
  bincount (map Z.of_nat idx) (Z.of_nat (List.length all_words)).

(** The loop of lines 69-70. *)
Definition by_labels (all_labels labels : list string) (word_counts : list (list nat)) : result (list (list (list nat))) :=
  foldM (fun acc p => j <- list_index String.eqb all_labels (fst p) 0 ;;
                      l <- py_nth acc (Z.of_nat j) ;;
                      py_set acc (Z.of_nat j) (l ++ [snd p])%list)
        (combine labels word_counts) (map (fun _ => []) all_labels).

(** np.sum(1. * np.vstack(l), axis=0) (line 71): vstack wants one row at least, and rows of
    equal lengths. *)
Definition same_lengths {A} (l : list (list A)) : bool :=
  match l with [] => true | r :: l' => forallb (fun r' => List.length r' =? List.length r) l' end.
Definition sum_rows (l : list (list nat)) : result (list nat) :=
  match l with
  | [] => Err ValueError
  | r :: _ => if same_lengths l then Ok (map (fun i => list_sum (map (fun r' => nth i r' 0) l)) (seq 0 (List.length r))) else Err ValueError
  end.

(** word_histo_by_label (lines 58-75).  [order] is list(set(labels)): the order is that of
    the hash table.  The matrix h is given by its columns, one for each label: the rows of
    the array before .T. *)
Record histo := Histo { h_columns : list (list R); h_labels : list R; h_all_labels : list string; h_all_words : list string }.
Definition word_histo_by_label (order : list string -> list string) (trans labels : list string) : result histo :=
  py_assert (List.length trans =? List.length labels) ;;;
  let labels := map lower labels in
  let all_labels := order labels in
  let words := map words_of trans in
  let all_words := all_words_of all_labels words in
  word_counts <- mapM (counts_of all_words) words ;;
  counts <- by_labels all_labels labels word_counts ;;
  rows <- mapM sum_rows counts ;;
  match rows with
  | [] => Err ValueError
  | _ => if same_lengths rows then
           let n := INR (List.length trans) in
           Ok (Histo (map (map (fun c => (INR c / n)%R)) rows) (map (fun l => (INR (List.length l) / n)%R) counts) all_labels all_words)
         else Err ValueError
  end.

(** The tables of lines 83-87 and their information (lines 80-88).  sum() adds from the left,
    starting with 0. *)
Definition py_sum (l : list R) : R := fold_left Rplus l 0%R.
Definition h_row (h : histo) (i : nat) : list R := map (fun c => nth i c 0%R) (h_columns h).
Definition table (h : histo) (i j : nat) : list (list R) :=
  let row := h_row h i in
  let hij := nth j row 0%R in
  let pj := nth j (h_labels h) 0%R in
  [[hij; py_sum (firstn j row) + py_sum (skipn (j + 1) row)];
   [pj - hij; py_sum (map (fun q => fst q - snd q) (combine (h_labels h) row)) - pj + hij]]%R.
Definition word_label_info (h : histo) : result (list (list R)) :=
  mapM (fun i => mapM (fun j => mutual_information (nd_model.mat 2 (table h i j))) (seq 0 (List.length (h_all_labels h))))
       (seq 0 (List.length (h_all_words h))).
