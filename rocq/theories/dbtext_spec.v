(** * Specification of the text printed about a sound database. *)

From Coq Require Import List ZArith String Ascii.
Import ListNotations.
From Verif Require Import logger_model sound_model.
Local Open Scope string_scope.

(** The sentence that gives the three numbers. *)
Definition sentence (records speakers keywords : nat) : string :=
  string_of_nat records ++ " records for " ++ string_of_nat speakers ++ " speakers and " ++ string_of_nat keywords ++ " keywords".
(** The numbers of a database: records of all the speakers, speakers and keywords. *)
Definition numbers {Arr} (d : database Arr) (records speakers keywords : nat) : Prop :=
  List.length (List.concat (d_records d)) = records /\ List.length (d_records d) = speakers /\ List.length (d_tags d) = keywords.
(** The first lines of the statistics. *)
Definition head_lines (records speakers keywords : nat) : list string :=
  ["======================="; "* Database statistics *"; "======================="; sentence records speakers keywords].
