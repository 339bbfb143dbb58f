(** * What it means for floating-point data to be usable. *)

From Coq Require Import List ZArith Reals Permutation Bool.
From Flocq Require Import Core BinarySingleNaN.
Import ListNotations.
From Verif Require Import finite_model.

Section Spec.
Context {prec emax : Z} {Hprec : Prec_gt_0 prec} {Hmax : Prec_lt_emax prec emax}.
Notation F := (binary_float prec emax).

(** A number that is neither NaN nor infinite. *)
Definition ordinary (x : F) : Prop := x <> B754_nan /\ forall sign, x <> B754_infinity sign.
(** An ordinary number that stands for a real number that is not negative (both zeros
    do). *)
Definition usable (x : F) : Prop := ordinary x /\ (0 <= B2R x)%R.
Definition all_usable (v : values) : Prop :=
  match v with
  | Floats l => forall x, In x l -> usable x
  | Integers l => forall x, In x l -> (0 <= x)%Z
  end.

(** The elements that a way of adding takes, from left to right. *)
Fixpoint taken (a : additions) : list nat :=
  match a with Zero => [] | Element k => [k] | Add a b => taken a ++ taken b end.
(** Each of n elements is added once, in some order. *)
Definition adds_each (order : nat -> additions) : Prop := forall n, Permutation (taken (order n)) (seq 0 n).

(** Values stored at a place, and the only one when there is one, else their sum from
    left to right. *)
Definition stored_at (l : list (@entry prec emax)) (i j : nat) : list F :=
  map snd (filter (fun e => Nat.eqb (fst (fst e)) i && Nat.eqb (snd (fst e)) j) l).
Inductive sum_is : list F -> F -> Prop :=
| sum_one x : sum_is [x] x
| sum_more l s x : sum_is l s -> sum_is (l ++ [x]) (Bplus mode_NE s x).
(** Row by row, and from left to right in a row. *)
Definition before (a b : @entry prec emax) : Prop :=
  let '(i, j, _) := a in let '(i', j', _) := b in (i < i' \/ i = i' /\ j < j')%nat.
(** No place is stored twice. *)
Definition places_once (l : list (@entry prec emax)) : Prop := NoDup (map fst l).
End Spec.
