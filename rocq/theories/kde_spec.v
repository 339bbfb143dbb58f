(** * Linear binning and density estimates. *)

From Coq Require Import List ZArith Reals Bool.
Import ListNotations.
From Verif Require Import Py hac_model quant_spec.
Local Open Scope R_scope.

(** The smallest and the largest numbers of a list. *)
Definition smallest (lo : R) (xs : list R) : Prop := In lo xs /\ Forall (fun x => lo <= x) xs.
Definition largest (hi : R) (xs : list R) : Prop := In hi xs /\ Forall (fun x => x <= hi) xs.
Definition within (lo hi : R) (xs : list R) : Prop := Forall (fun x => lo <= x <= hi) xs.
(** Samples that are not empty, in an interval that is that of their own smallest
    and largest when no bounds are given. *)
Definition in_bounds (xs : list R) (bounds : option (R * R)) (lo hi : R) : Prop :=
  xs <> [] /\ within lo hi xs /\ lo < hi /\
  match bounds with
  | Some b => b = (lo, hi)
  | None => smallest lo xs /\ largest hi xs
  end.

(** Distance between the points of the grid, and the points. *)
Definition spacing (lo hi : R) (nb : nat) : R := (hi - lo) / (INR nb - 1).
Definition point (lo delta : R) (j : nat) : R := lo + INR j * delta.
(** The part of sample [x] that goes to the point [g]: 1 when they coincide,
    decreasing linearly to 0 at distance [delta]. *)
Definition share (delta g x : R) : R := Rmax 0 (1 - Rabs (x - g) / delta).

(** Density at a point of the grid. *)
Definition density_1d (lo delta : R) (xs : list R) (j : nat) : R :=
  add_up (map (share delta (point lo delta j)) xs) / (INR (length xs) * delta).
Definition density_2d (x_lo y_lo dx dy : R) (pts : list (R * R)) (i j : nat) : R :=
  add_up (map (fun p => share dx (point x_lo dx i) (fst p) * share dy (point y_lo dy j) (snd p)) pts)
  / (INR (length pts) * dx * dy).

Definition mean (xs : list R) : R := add_up xs / INR (length xs).
Definition dot (a b : list R) : R := add_up (map (fun p => fst p * snd p) (combine a b)).
Definition nonnegative (l : list R) : Prop := Forall (fun x => 0 <= x) l.
Definition total (m : list (list R)) : R := add_up (map add_up m).

(** Samples in two dimensions, and their bounds. *)
Definition in_bounds_2d (samples : mat R) (pts : list (R * R)) (bounds : option ((R * R) * (R * R)))
    (x_lo y_lo x_hi y_hi : R) : Prop :=
  mcols samples = 2%nat /\ mrows samples = map (fun p => [fst p; snd p]) pts /\ pts <> [] /\
  within x_lo x_hi (map fst pts) /\ within y_lo y_hi (map snd pts) /\ x_lo < x_hi /\ y_lo < y_hi /\
  match bounds with
  | Some b => b = ((x_lo, y_lo), (x_hi, y_hi))
  | None => smallest x_lo (map fst pts) /\ largest x_hi (map fst pts) /\
            smallest y_lo (map snd pts) /\ largest y_hi (map snd pts)
  end.
(** An array with [n] rows and [m] columns, whose items are given. *)
Definition array_2d (n m : nat) (a : list (list R)) (f : nat -> nat -> R) : Prop :=
  length a = n /\ Forall (fun r => length r = m) a /\
  forall i j, (i < n)%nat -> (j < m)%nat -> nth j (nth i a []) 0 = f i j.

(** Integral of a function known at equally spaced points: the sum of the areas of
    the trapezoids. *)
Definition integral (dx : R) (y : list R) : R :=
  dx * (add_up y - (nth 0 y 0 + nth (length y - 1) y 0) / 2).
(** The integrand of the divergence of [p] from [q], with a small number added. *)
Definition divergence_terms (eps : R) (p q : list R) : list R :=
  map (fun pq => fst pq * ln ((fst pq + eps) / (snd pq + eps))) (combine p q).
Definition ends (p : list R) : R := (nth 0 p 0 + nth (length p - 1) p 0) / 2.
(** The common interval of two lists of samples. *)
Definition common_bounds (x y : list R) (lo hi : R) : Prop :=
  x <> [] /\ y <> [] /\ smallest lo (x ++ y) /\ largest hi (x ++ y) /\ lo < hi.
