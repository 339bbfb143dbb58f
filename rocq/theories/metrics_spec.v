(** * Textbook definitions for the metrics, on lists of numbers. *)

From Coq Require Import List ZArith Reals.
Import ListNotations.
From Verif Require Import nd_model nd_spec.
Local Open Scope R_scope.

(** Sum over pairs of corresponding numbers. *)
Definition sum2 (f : R -> R -> R) (l m : list R) : R :=
  lsum (map (fun p => f (fst p) (snd p)) (combine l m)).

(** The smoothed divergence of the documentation. *)
Definition KL (eps : R) (l m : list R) : R :=
  sum2 (fun x y => x * ln ((x + eps) / (y + eps)) - x + y) l m.

(** Shannon entropy, with 0 ln 0 = 0. *)
Definition shannon (l : list R) : R :=
  lsum (map (fun p => if Req_EM_T p 0 then 0 else - (p * ln p)) l).

Definition probability (l : list R) : Prop := Forall (fun p => 0 <= p) l /\ lsum l = 1.

(** The marginals of a matrix, and the marginals of an array: along axis [k], and
    over all other axes. *)
Definition row_sums (h : nd) : list R := map (fun i => lsum (row h i)) (seq 0 (nth 0 (shape h) 0%nat)).
Definition col_sums (h : nd) : list R := map (fun j => lsum (col h j)) (seq 0 (nth 1 (shape h) 0%nat)).
Definition marginal (h : nd) (k : nat) : list R :=
  map (fun i => lsum (map (fun idx => el h (firstn k idx ++ [i] ++ skipn k idx))
                          (indices (firstn k (shape h) ++ skipn (S k) (shape h)))))
      (seq 0 (nth k (shape h) 0%nat)).
Definition rest_marginal (h : nd) (k : nat) : list R :=
  map (fun idx => lsum (lane h k idx)) (indices (firstn k (shape h) ++ skipn (S k) (shape h))).

(** Euclidean geometry. *)
Definition inner (l m : list R) : R := sum2 Rmult l m.
Definition norm (l : list R) : R := sqrt (inner l l).
Definition distance (l m : list R) : R := norm (map (fun p => fst p - snd p) (combine l m)).
Definition cosine (l m : list R) : R :=
  if Req_EM_T (inner l m) 0 then 0 else inner l m / (norm l * norm m).

(** A vector with at most one number that is not 0. *)
Definition one_hot (l : list R) : Prop :=
  exists l1 x l2, l = l1 ++ x :: l2 /\ Forall (fun v => v = 0) (l1 ++ l2).
