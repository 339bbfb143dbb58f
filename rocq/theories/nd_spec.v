(** * Words used to state properties of arrays: lists of numbers, their sums,
    and the list of elements along an axis. *)

From Coq Require Import List ZArith Reals Bool.
Import ListNotations.
From Verif Require Import nd_model.
Local Open Scope R_scope.

(** Sum of a list of numbers. *)
Fixpoint lsum (l : list R) : R :=
  match l with
  | [] => 0
  | x :: l' => x + lsum l'
  end.

(** All indices of an array of shape [s], last axis fastest. *)
Fixpoint indices (s : list nat) : list (list nat) :=
  match s with
  | [] => [[]]
  | d :: s' => flat_map (fun i => map (cons i) (indices s')) (seq 0 d)
  end.

(** All elements of an array. *)
Definition entries (a : nd) : list R := map (el a) (indices (shape a)).

(** The axis [z] of an array with [n] axes, if there is one. *)
Definition axis_number (n : nat) (z : Z) : option nat :=
  if (0 <=? z)%Z && (z <? Z.of_nat n)%Z then Some (Z.to_nat z)
  else if (- Z.of_nat n <=? z)%Z && (z <? 0)%Z then Some (Z.to_nat (z + Z.of_nat n))
  else None.

(** The elements of [a] along axis [k], the other indices being [idx]. *)
Definition lane (a : nd) (k : nat) (idx : list nat) : list R :=
  map (fun i => el a (firstn k idx ++ [i] ++ skipn k idx)) (seq 0 (nth k (shape a) 0%nat)).

(** [r] is obtained from [a] by replacing axis [z] by one number, [v] of the other
    indices. *)
Definition reduced (a : nd) (z : Z) (r : nd) (v : nat -> list nat -> R) : Prop :=
  exists k, axis_number (length (shape a)) z = Some k /\
    shape r = firstn k (shape a) ++ skipn (S k) (shape a) /\
    forall idx, valid (shape r) idx -> el r idx = v k idx.

Definition nonneg (a : nd) : Prop := forall idx, valid (shape a) idx -> 0 <= el a idx.
Definition total (a : nd) : R := lsum (entries a).

(** Row [i] of a matrix. *)
Definition row (a : nd) (i : nat) : list R := map (fun j => el a [i; j]) (seq 0 (nth 1 (shape a) 0%nat)).
Definition col (a : nd) (j : nat) : list R := map (fun i => el a [i; j]) (seq 0 (nth 0 (shape a) 0%nat)).
