(** * Specifications for lib/utils.py. *)

From Coq Require Import List ZArith Arith Permutation Sorted QArith.
Import ListNotations.
From Verif Require Import utils_model.
Local Open Scope nat_scope.

(** Sub-list reached by following child numbers from the root. *)
Fixpoint at_path {A} (x : nested A) (p : list nat) : option (nested A) :=
  match p with
  | [] => Some x
  | i :: p' =>
      match x with
      | Leaf _ => None
      | Node l => match nth_error l i with Some y => at_path y p' | None => None end
      end
  end.

(** Lexicographic order on paths. *)
Inductive lex : list nat -> list nat -> Prop :=
| lex_lt : forall i j p q, i < j -> lex (i :: p) (j :: q)
| lex_eq : forall i p q, lex p q -> lex (i :: p) (i :: q).

(** [l] lists the level-k elements of [x] from left to right. *)
Definition lists_level {A} (x : nested A) (k : nat) (l : list (nested A)) : Prop :=
  exists paths, StronglySorted lex paths /\
    (forall p, In p paths <-> length p = k /\ at_path x p <> None) /\
    map (at_path x) paths = map Some l.

(** A split of [n] samples into train and test sets. *)
Definition is_split (n : nat) (s : list nat * list nat) : Prop :=
  Permutation (fst s ++ snd s) (seq 0 n).

Definition disjoint {X} (a b : list X) : Prop := forall x, In x a -> ~ In x b.
