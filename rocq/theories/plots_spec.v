(** * Specification for the plots of similarities along time. *)

From Coq Require Import List ZArith QArith Bool String Sorted.
Import ListNotations.
From Verif Require Import window_model window_spec.
Local Open Scope Q_scope.

(** The middle of a time window. *)
Definition middle (w : Q * Q) : Q := (fst w + snd w) / 2.

(** [idx] numbers, in order, the sliding windows whose middle is between [a] and [b]. *)
Definition visible (a b : Q) (sliding : list (Q * Q)) (idx : list nat) : Prop :=
  StronglySorted lt idx /\
  forall i, In i idx <-> exists w, nth_error sliding i = Some w /\ within a b (middle w).

(** The value of an option that has a default. *)
Definition chosen (rc : list (string * bool)) (key : string) (default : bool) : bool :=
  match find (fun kv => String.eqb (fst kv) key) rc with
  | Some kv => snd kv
  | None => default
  end.

(** Origin of the times on the axis. *)
Definition origin (relative : bool) (a : Q) : Q := if relative then a else 0.

(** [y] is the largest number of a row. *)
Definition largest (y : Q) (row : list Q) : Prop := In y row /\ Forall (fun v => v <= y) row.

(** The segment from [fst s] to [snd s] is the part of the window [w] between [a] and [b]. *)
Definition clipped (a b : Q) (w s : Q * Q) : Prop :=
  (fst w <= a -> fst s == a) /\ (a <= fst w -> fst s == fst w) /\
  (b <= snd w -> snd s == b) /\ (snd w <= b -> snd s == snd w).

(** The windows [bs] of the records follow each other from [lo] to [hi] and each one has
    its record. *)
Definition recordings {O} (bs : list (basic O)) (lo hi : Q) : Prop :=
  bs <> [] /\ tiles lo (map (fun b => (b_start b, b_end b)) bs) hi /\
  forall b, In b bs -> b_obj b <> None.

(** The pieces cut the interval from [a] to [b]; each one is inside the window of the
    same rank in [bs], of which none is missing, the first one being the first that does
    not end before [a]. *)
Definition cut {O} (bs : list (basic O)) (a b : Q) (i : nat) (pieces : list (Q * Q)) : Prop :=
  pieces <> [] /\ tiles a pieces b /\
  Forall2 (fun w piece => b_start w <= fst piece /\ snd piece <= b_end w) (segment bs i (i + List.length pieces)) pieces /\
  forall k w, (k < i)%nat -> nth_error bs k = Some w -> b_end w < a.

(** The sentences: for each piece its record, in the middle of the piece, and whether it
    is a test record. *)
Definition sentences_of {O} (test : O -> bool) (o : Q) (ws : list (basic O)) (pieces : list (Q * Q)) (l : list (Q * O * bool)) : Prop :=
  Forall2 (fun wp s => b_obj (fst wp) = Some (snd (fst s)) /\ fst (fst s) == middle (snd wp) - o /\ snd s = test (snd (fst s)))
    (combine ws pieces) l.
