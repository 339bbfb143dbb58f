(** * Model of the printed table of results (experiment.py, lines 295-319 and 381-404).

    [figures_model.print_two] and [print_three] give the names and numbers of each line;
    here is the text. The text of what was printed is a list of lines. Numbers are real
    numbers: the rounding of the average and of the deviation to doubles is not modelled,
    and neither is nan (the average of no run, see [np_mean]). *)

From Coq Require Import List ZArith Reals Bool Arith String Ascii.
From Flocq Require Import Core.
Import ListNotations.
From Verif Require Import Py nd_model logger_model experiment_model figures_model.
Open Scope py_scope.
Local Open Scope nat_scope.

(** 'c' * n *)
Fixpoint repeated (c : ascii) (n : nat) : string := match n with O => EmptyString | S n' => String c (repeated c n') end.

(** s.center(width): the character that is left over goes to the left when the width is
    odd, to the right when it is even. *)
Definition center (width : nat) (s : string) : string :=
  let marg := width - String.length s in
  let left := marg / 2 + (if Nat.odd marg && Nat.odd width then 1 else 0) in
  (repeated " " left ++ s ++ repeated " " (marg - left))%string.

(** '%.3f' of a finite number: the nearest multiple of 1/1000, the even one if two are. *)
Definition digit (d : nat) : string := String (ascii_of_nat (48 + d)) EmptyString.
Definition fixed3 (x : R) : string :=
  let n := Z.to_nat (ZnearestE (Rabs x * 1000)) in
  ((if Raux.Rlt_bool x 0 then "-" else "") ++ string_of_nat (n / 1000) ++ "." ++
   digit (n / 100 mod 10) ++ digit (n / 10 mod 10) ++ digit (n mod 10))%string.
(** "%.3f (%.3f)" (experiment.py:313) *)
Definition stats_text (ms : R * R) : string := (fixed3 (fst ms) ++ " (" ++ fixed3 (snd ms) ++ ")")%string.

(** table.format of centered strings, [table] being "{} ... {}" (experiment.py:298, 384) *)
Definition row_of (width : nat) (cells : list string) : string := join_with " " (map (center width) cells).

(** ** Two modalities (experiment.py:295-319), width = 13 *)
Definition rule_two : string := repeated "-" (13 * 6 + 5).
Definition head_two : list string :=
  [rule_two;
   (center (13 * 3 + 2) "Modalities" ++ center (13 * 3 + 2) "Score: avg (std)")%string;
   (repeated "-" (13 * 3 + 2) ++ " " ++ repeated "-" (13 * 3 + 2))%string;
   row_of 13 ["Test"; "Reference"; "Comparison"; "KL"; "Euclidean"; "Cosine"]%string;
   join_with " " (repeat (repeated "-" 13) 6)].
(** The names are centered, and then all the strings (experiment.py:310-318). *)
Definition two_text (l : line) : string := row_of 13 (map (center 13) (fst l) ++ map stats_text (snd l)).
(** The printed lines, and the exception that ends the call, if any. *)
Definition table_two (w : world) (x : experiment) : list string * result unit :=
  let '(rows, e) := print_two w x in
  (head_two ++ map two_text rows ++ match e with Ok _ => [rule_two] | Err _ => [] end, e).

(** ** Three modalities (experiment.py:381-404), width = 15 *)
Definition rule_three : string := repeated "-" (15 * 5 + 5).
Definition head_three : list string :=
  [rule_three;
   (center (15 * 2 + 2) "Modalities" ++ center (15 * 3 + 2) "Score: avg (std)")%string;
   (repeated "-" (15 * 2 + 1) ++ " " ++ repeated "-" (15 * 3 + 2))%string;
   row_of 15 ["Test"; "Reference"; "KL"; "Euclidean"; "Cosine"]%string;
   join_with " " (repeat (repeated "-" 15) 5)].
Definition three_text (l : line) : string := row_of 15 (map (center 15) (fst l) ++ map stats_text (snd l)).
Definition table_three (py2 : bool) (w : world) (x : experiment) : list string * result unit :=
  let '(rows, e) := print_three py2 w x in
  (head_three ++ map three_text rows ++ match e with Ok _ => [rule_three] | Err _ => [] end, e).
