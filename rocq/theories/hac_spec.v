(** * Counting pairs of values of a series. *)

From Coq Require Import List ZArith Bool.
Import ListNotations.
Local Open Scope nat_scope.

(** Number of times t with q[t] = a and q[t + lag] = b. *)
Fixpoint pairs (q : list Z) (lag : nat) (a b : Z) : nat :=
  match q with
  | [] => 0
  | x :: q' =>
      (match nth_error q lag with
       | Some y => if (Z.eqb x a && Z.eqb y b)%bool then 1 else 0
       | None => 0
       end + pairs q' lag a b)
  end.

(** Codes of a codebook of [n] elements. *)
Definition codes (n : Z) (q : list Z) : Prop := Forall (fun v => (0 <= v < n)%Z) q.

Definition total (v : list nat) : nat := fold_right plus 0 v.

(** [v] is the vector of counts of pairs of [q] at the given lag. *)
Definition counts_pairs (q : list Z) (n : Z) (lag : nat) (v : list nat) : Prop :=
  length v = Z.to_nat (n * n) /\
  (forall a b, (0 <= a < n)%Z -> (0 <= b < n)%Z ->
     nth (Z.to_nat (b * n + a)) v 0 = pairs q lag a b) /\
  total v = length q - lag.
