(** * Specifications for pairing samples across modalities. *)

From Coq Require Import List ZArith Arith Permutation Sorted.
Import ListNotations.

(** [names] lists the distinct labels occurring in [labels], in some order:
    any iteration order of the set, shuffled or not. *)
Definition distinct_labels {L} (names labels : list L) : Prop :=
  NoDup names /\ (forall x, In x names <-> In x labels).

(** A legal outcome of the calls to random.shuffle. *)
Definition is_shuffle {I} (shuf : nat -> nat -> list I -> list I) : Prop :=
  forall m i l, Permutation (shuf m i l) l.

(** [c] is the least element of [l]. *)
Definition is_min (c : nat) (l : list nat) : Prop :=
  In c l /\ forall x, In x l -> c <= x.

(** How many elements of [l] satisfy a decidable predicate. *)
Definition count {X} (p : X -> bool) (l : list X) : nat := length (filter p l).

(** Indices whose value selects bucket [k] of [n] (Python negative values
    count from the end), in order. *)
Definition selected {I} (n k : nat) (pairs : list (I * Z)) : list I :=
  map fst (filter (fun p => (snd p =? Z.of_nat k)%Z ||
                            (snd p =? Z.of_nat k - Z.of_nat n)%Z)%bool pairs).

(** Each position of the result carries samples of the announced label. *)
Definition labels_faithful {L} (labels_by_modality : list (list L))
    (names : list (list L)) (labels : list nat) (tuples : list (list nat)) : Prop :=
  length labels = length tuples /\
  forall t i tup, nth_error labels t = Some i -> nth_error tuples t = Some tup ->
    length tup = length labels_by_modality /\
    forall m ls, nth_error labels_by_modality m = Some ls ->
      exists idx nm lab,
        nth_error tup m = Some idx /\ nth_error names m = Some nm /\
        nth_error nm i = Some lab /\ nth_error ls idx = Some lab.

(** Samples of modality [m] used, in order. *)
Definition used (m : nat) (tuples : list (list nat)) : list (option nat) :=
  map (fun tup => nth_error tup m) tuples.
