(** * Specifications for time windows: intervals of the time line, independent
    of how window.py computes indices. *)

From Coq Require Import List ZArith QArith.
Import ListNotations.
Local Open Scope Q_scope.

(** Time at which sample number [k] of a recording begins. *)
Definition sample_time (start rate : Q) (k : nat) : Q :=
  start + inject_Z (Z.of_nat k) / rate.

(** Sample [k] occupies the interval between two successive sample times; it is
    inside [lo, hi] when both ends are. *)
Definition sample_inside (start rate lo hi : Q) (k : nat) : Prop :=
  lo <= sample_time start rate k /\ sample_time start rate (S k) <= hi.

(** Times closer than 1e-8 seconds are not distinguished. *)
Definition tolerance : Q := 1 # 100000000.

(** [t] lies in the closed interval [lo, hi]. *)
Definition within (lo hi t : Q) : Prop := lo <= t /\ t <= hi.

(** [|a - b| <= tol]. *)
Definition near (tol a b : Q) : Prop := - tol <= a - b /\ a - b <= tol.

(** Intervals (start, end) follow each other up to [tol]. *)
Fixpoint chained (tol : Q) (l : list (Q * Q)) : Prop :=
  match l with
  | [] => True
  | [_] => True
  | p :: ((q :: _) as l') => near tol (snd p) (fst q) /\ chained tol l'
  end.

(** [lo ... hi] is cut exactly into the given intervals, in order. *)
Fixpoint tiles (lo : Q) (l : list (Q * Q)) (hi : Q) : Prop :=
  match l with
  | [] => lo == hi
  | p :: l' => fst p == lo /\ fst p <= snd p /\ tiles (snd p) l' hi
  end.

(** The elements numbered [i], ..., [j - 1] of a list. *)
Definition segment {X} (l : list X) (i j : nat) : list X := firstn (j - i) (skipn i l).

(** Sum of the displacements of a history. *)
Definition sum_Q (l : list Q) : Q := fold_right Qplus 0 l.
