(** * The values of the density estimates. *)

From Coq Require Import List ZArith Reals Bool.
Import ListNotations.
From Verif Require Import Py quant_spec.
Local Open Scope R_scope.

(** The Gaussian curve of width [h], not normalized. *)
Definition bell (h x : R) : R := exp (- (x / h) ^ 2 / 2).
(** The sum of [f 0], ..., [f (n - 1)]. *)
Definition series (n : nat) (f : nat -> R) : R := add_up (map f (seq 0 n)).
(** The curve is known at [m] points with distance [delta], the first one at
    [- m * delta / 2]; this is their total. *)
Definition curve_total (h delta : R) (m : nat) : R :=
  series m (fun q => bell h ((INR q - INR m / 2) * delta)).

(** Item [t] of the estimate made of the [n] weights [f]: each weight is spread by
    the curve, whose middle is [m / 2] items further. *)
Definition smooth_1d (h delta : R) (m n : nat) (f : nat -> R) (t : nat) : R :=
  series n (fun j =>
    if ((j <=? t) && (t <? j + m))%nat
    then f j * (bell h ((INR t - INR j - INR m / 2) * delta) / curve_total h delta m)
    else 0).

(** In two dimensions the estimate has the size of the grid; the middle of the curve
    is one step, or half a step, after the weight that is spread. *)
Definition late (m : nat) : R := if Nat.even m then 1 else 1 / 2.
Definition reached (m i a : nat) : bool := ((i <=? a + (m - 1) / 2) && (a + (m - 1) / 2 <? i + m))%nat.
Definition smooth_2d (h_x h_y dx dy : R) (m n : nat) (f : nat -> nat -> R) (a b : nat) : R :=
  series n (fun i => series n (fun j =>
    if reached m i a && reached m j b
    then f i j * (bell h_x ((INR a - INR i - late m) * dx) / curve_total h_x dx m
                  * (bell h_y ((INR b - INR j - late m) * dy) / curve_total h_y dy m))
    else 0)).
