(** * Integrals and divergences in two dimensions. *)

From Coq Require Import List ZArith Arith Reals.
Import ListNotations.
From Verif Require Import hac_model quant_spec kde_spec.
Local Open Scope R_scope.

(** Integral of a function known on a grid: rows at distance [dx], items of a row at
    distance [dy]. *)
Definition integral_2d (dx dy : R) (a : list (list R)) : R := integral dx (map (integral dy) a).
(** Integrand of the divergence of [p] from [q]. *)
Definition divergence_terms_2d (eps : R) (p q : list (list R)) : list (list R) :=
  map (fun pq => divergence_terms eps (fst pq) (snd pq)) (combine p q).
(** Samples, and the smallest rectangle that has all those of both lists. *)
Definition rows_are (m : mat R) (pts : list (R * R)) : Prop :=
  mcols m = 2%nat /\ mrows m = map (fun p => [fst p; snd p]) pts /\ pts <> [].
Definition common_bounds_2d (px py : list (R * R)) (x_lo y_lo x_hi y_hi : R) : Prop :=
  smallest x_lo (map fst (px ++ py)) /\ largest x_hi (map fst (px ++ py)) /\
  smallest y_lo (map snd (px ++ py)) /\ largest y_hi (map snd (px ++ py)) /\ x_lo < x_hi /\ y_lo < y_hi.
