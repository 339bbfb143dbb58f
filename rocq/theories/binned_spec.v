(** * Binned histograms of joint angles. *)

From Coq Require Import List ZArith Reals Bool.
Import ListNotations.
From Verif Require Import Py hac_model angle_spec kde_spec.
Local Open Scope R_scope.

(** The interval in use: the given one, else that of the smallest and the largest of
    all the values.  It has a positive length. *)
Definition interval (bounds : option (R * R)) (arrays : list (list (list R))) (lo hi : R) : Prop :=
  lo < hi /\
  match bounds with
  | Some b => b = (lo, hi)
  | None => smallest lo (List.concat (List.concat arrays)) /\ largest hi (List.concat (List.concat arrays))
  end.

(** The numbers of degree of freedom [d] in a row: an array with [s] rows and [s]
    columns written row by row, after those of the degrees of freedom before. *)
Definition cell_of (s d i j : nat) : nat := (d * (s * s) + i * s + j)%nat.
Definition holds_at (s d : nat) (row : list R) (a : list (list R)) : Prop :=
  forall i j, (i < s)%nat -> (j < s)%nat -> nth (cell_of s d i j) row 0 = nth j (nth i a []) 0.
