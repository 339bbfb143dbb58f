(** * Specifications for the evaluation helpers. *)

From Coq Require Import List ZArith Arith Bool QArith Permutation Sorted.
Import ListNotations.
Local Open Scope nat_scope.

(** Positions at which [l] occurs, in increasing order. *)
Definition occurrences {L} (eqb : L -> L -> bool) (labels : list L) (l : L) : list nat :=
  map fst (filter (fun p => eqb (snd p) l) (combine (seq 0 (length labels)) labels)).

(** [j] is the first position of a smallest element of [l]. *)
Definition first_min {D} (lt : D -> D -> Prop) (l : list D) (j : nat) : Prop :=
  exists x, nth_error l j = Some x /\
    (forall k y, nth_error l k = Some y -> ~ lt y x) /\
    (forall k y, k < j -> nth_error l k = Some y -> lt x y).

(** [l] is the label of the first smallest element of [row]. *)
Definition nearest_label {D L} (lt : D -> D -> Prop) (labels : list L) (row : list D) (l : L) : Prop :=
  exists j, first_min lt row j /\ nth_error labels j = Some l.

(** Strict weak orders: what is left of "<" when equality is not assumed to be
    identity. *)
Definition strict_weak {D} (lt : D -> D -> Prop) : Prop :=
  (forall x, ~ lt x x) /\ (forall x y z, lt x y -> lt y z -> lt x z) /\
  (forall x y z, lt x z -> lt x y \/ lt y z).

(** Number of positions at which two lists agree. *)
Fixpoint agreements {L} (eqb : L -> L -> bool) (a b : list L) : nat :=
  match a, b with
  | x :: a', y :: b' => (if eqb x y then 1 else 0) + agreements eqb a' b'
  | _, _ => 0
  end.

(** [idx] is a possible outcome of argsort on [keys]: a permutation of the
    positions along which the keys never decrease. *)
Definition sorts (keys : list Q) (idx : list nat) : Prop :=
  Permutation idx (seq 0 (length keys)) /\
  StronglySorted (fun i j => (nth i keys 0 <= nth j keys 0)%Q) idx.

(** Rows of zeros and ones. *)
Definition binary_row (t : list Z) : Prop := forall x, In x t -> (x = 0 \/ x = 1)%Z.

Definition entry {X} (m : list (list X)) (i j : nat) : option X :=
  match nth_error m i with Some r => nth_error r j | None => None end.

Definition in_range (n : nat) (x : Z) : Prop := (0 <= x < Z.of_nat n)%Z.

(** An n x n matrix. *)
Definition square (n : nat) (m : list (list Z)) : Prop :=
  length m = n /\ forall i r, nth_error m i = Some r -> length r = n.

(** Some sample has true label i and was found as j. *)
Definition pair_at (true_ found : list Z) (i j : nat) : Prop :=
  exists t, nth_error true_ t = Some (Z.of_nat i) /\ nth_error found t = Some (Z.of_nat j).

(** Number of samples of true label i found as j. *)
Definition pair_count (true_ found : list Z) (i j : nat) : nat :=
  length (filter (fun p => (fst p =? Z.of_nat i)%Z && (snd p =? Z.of_nat j)%Z)%bool
                 (combine true_ found)).

(** Positions of the true labels. *)
Definition ones (t : list Z) : list nat :=
  filter (fun j => (nth j t 0 =? 1)%Z) (seq 0 (length t)).

(** The best k positions, k being the number of true labels, are exactly the
    true labels. *)
Definition top_matches (idx : list nat) (t : list Z) : Prop :=
  forall j, j < length t -> (In j (firstn (length (ones t)) idx) <-> nth j t 0%Z = 1%Z).
