(** * What the removal of bad records has to do. *)

From Coq Require Import List ZArith Arith Bool String Sorted.
Import ListNotations.
From Verif Require Import Py logger_model sound_model sound_spec acorns_model.
Local Open Scope nat_scope.

(** [l'] is made of the elements of [l] at the positions [idx]. *)
Definition picks {A} (idx : list nat) (l l' : list A) : Prop :=
  Forall2 (fun i x => nth_error l i = Some x) idx l'.
Definition increasing (idx : list nat) : Prop := StronglySorted Nat.lt idx.

(** The only bad record: number 176 of the second speaker of the first year. *)
Definition bad (year speaker : Z) (i : nat) : Prop := year = 1%Z /\ speaker = 1%Z /\ i = 176.
Definition good_positions (year speaker : Z) (n : nat) (idx : list nat) : Prop :=
  increasing idx /\ forall i, In i idx <-> i < n /\ ~ bad year speaker i.
(** Enough records for the bad one to be there. *)
Definition enough (year speaker : Z) (n : nat) : Prop := year = 1%Z -> speaker = 1%Z -> 176 < n.

(** The label of a record is the name of its first tag. *)
Definition label_of {Arr} (d : database Arr) (r : record Arr) (lab : string) : Prop :=
  exists t rest, r_tags r = Z.of_nat t :: rest /\ nth_error (d_tags d) t = Some lab.

(** The record made of an XML file. *)
Definition made_of {Arr} (d : database Arr) (k : nat) (u : utterance) (r : record Arr) : Prop :=
  r_db r = d_id d /\ r_spkr_id r = Z.of_nat k /\ r_audio r = VStr (u_audio u ++ ".wav") /\
  r_trans r = VStr (u_trans u) /\ r_style r = VStr (u_style u) /\
  Forall2 (fun t name => exists i, t = Z.of_nat i /\ nth_error (d_tags d) i = Some name) (r_tags r) (u_tags u).
