(** * Model of multimodal/lib/utils.py. *)

From Coq Require Import List ZArith Arith Bool QArith Reals.
From Flocq Require Import Core.
Import ListNotations.
From Verif Require Import Py.
Open Scope py_scope.
Local Open Scope nat_scope.

(** ** Differences between rows.

    A two-dimensional array is a list of rows of type [V]; [sub] is the
    difference of two rows of the same width, [zero] the row of zeros.  The
    model needs no property of them. *)
Section Rows.
Context {V : Type} (sub : V -> V -> V) (zero : V).

(** Numpy difference of two arrays with the same number of columns: an axis of
    length one is broadcast, other mismatches raise ValueError. *)
Definition bsub (a b : list V) : result (list V) :=
  if length a =? length b then Ok (map (fun p => sub (fst p) (snd p)) (combine a b))
  else match a, b with
       | [x], _ => Ok (map (fun y => sub x y) b)
       | _, [y] => Ok (map (fun x => sub x y) a)
       | _, _ => Err ValueError
       end.

(** velocities (lib/utils.py:94-100); positions[0, :] raises IndexError on an
    array without rows. *)
Definition velocities (positions : list V) : result (list V) :=
  first <- py_nth positions 0 ;;
  let slided := slice_from positions 1 ++ [first] in
  bsub slided positions.

Inductive padding := Circular | Zeros | OtherPadding.

(** delayed_velocities (lib/utils.py:103-123); np.zeros with a negative
    dimension raises ValueError. *)
Definition delayed_velocities (delay : Z) (positions : list V) (pad : padding)
  : result (list V) :=
  let n := Z.of_nat (length positions) in
  let delay := if (n <? delay)%Z then n else delay in
  slided <- match pad with
            | Circular => Ok (slice_from positions (- delay) ++ slice_to positions (- delay))
            | Zeros => if (delay <? 0)%Z then Err ValueError
                       else Ok (repeat zero (Z.to_nat delay) ++ slice_to positions (- delay))
            | OtherPadding => Err ValueError
            end ;;
  bsub positions slided.

(** filter_cont (lib/utils.py:77-89); [avg3 a b c] is (a + b + c) / 3 on rows. *)
Definition filter_cont (avg3 : V -> V -> V -> V) (data : list V) : result (list V) :=
  first <- py_nth data 0 ;;
  last <- py_nth data (-1) ;;
  let l := [first] ++ data ++ [last] in
  let l2 := slice_to l (-2) in
  let l3 := slice_from l 2 in
  let l1 := slice l 1 (-1) in
  Ok (map (fun p => avg3 (fst p) (fst (snd p)) (snd (snd p)))
          (combine l1 (combine l2 l3))).
End Rows.

(** ** Bounds. *)

(** filter_bound (lib/utils.py:23-26) on one entry; the numpy version applies it
    to every entry. *)
Definition filter_bound (x inf sup : Z) : Z := Z.max (Z.min x sup) inf.

(** manualy_normalize (lib/utils.py:8-18) on one entry. *)
Definition manualy_normalize (low up x : Q) : Q :=
  let widths := (up - low)%Q in
  let widths := (widths + 1 * (if Qeq_bool widths 0 then 1 else 0))%Q in
  ((x - low) / widths)%Q.

(** ** Nested lists. *)

Inductive nested (A : Type) : Type :=
| Leaf : A -> nested A
| Node : list (nested A) -> nested A.
Arguments Leaf {A} _.
Arguments Node {A} _.

Section Nested.
Context {A : Type}.

(** Iterating over something that is not a list raises TypeError (strings and
    other iterables are not modelled). *)
Definition children (x : nested A) : result (list (nested A)) :=
  match x with Leaf _ => Err TypeError | Node l => Ok l end.

(** distribute (lib/utils.py:42-60).  A negative level is not modelled. *)
Fixpoint distribute (x : nested A) (values : list (nested A)) (level : nat)
  : result (nested A) :=
  match level with
  | 0 => l <- mapM (fun v => xs <- children x ;; Ok (Node (xs ++ [v]))) values ;;
         Ok (Node l)
  | S level' =>
      xs <- children x ;;
      l <- mapM (fun y => distribute y values level') xs ;; Ok (Node l)
  end.

(** flatten (lib/utils.py:63-72), the list of everything the generator yields
    when it is exhausted. *)
Fixpoint flatten (x : nested A) (level : nat) : result (list (nested A)) :=
  match level with
  | 0 => Ok [x]
  | S level' =>
      xs <- children x ;;
      l <- mapM (fun y => flatten y level') xs ;; Ok (concat l)
  end.

(** meta_map (lib/utils.py:31-39), with every map iterator fully consumed into a
    list (Python 3 returns lazy iterators instead of lists). *)
Fixpoint meta_map (n : nat) (f : nested A -> nested A) (x : nested A) : result (nested A) :=
  match n with
  | 0 => Ok (f x)
  | S n' => xs <- children x ;; l <- mapM (meta_map n' f) xs ;; Ok (Node l)
  end.
End Nested.

(** ** Train and test sets. *)

(** Body of random_split (lib/utils.py:127-135) after nb_test and int(1. / ratio)
    are known; [indices] is range(n_samples) after the shuffle. *)
Definition random_split_from (nb_test reps : Z) (indices : list nat)
  : result (list (list nat * list nat)) :=
  starts <- py_range 0 (nb_test * reps) nb_test ;;
  Ok (map (fun i => (slice_to indices i ++ slice_from indices (i + nb_test),
                     slice indices i (i + nb_test))) starts).

(** Floating-point part of random_split (lines 128 and 132): [rnd] rounds a real
    to a double; int() truncates.  Overflow to infinity is not modelled. *)
Definition nb_test_of (rnd : R -> R) (n_samples : nat) (ratio : R) : Z :=
  Ztrunc (rnd (ratio * rnd (IZR (Z.of_nat n_samples)))%R).
Definition reps_of (rnd : R -> R) (ratio : R) : Z := Ztrunc (rnd (1 / ratio)%R).

(** Rounding to nearest, ties to even, in binary64. *)
Definition round64 (x : R) : R :=
  round radix2 (FLT_exp (-1074) 53) ZnearestE x.

(** random_split; [shuffle] is the outcome of np.random.shuffle. *)
Definition random_split (rnd : R -> R) (shuffle : list nat -> list nat)
    (n_samples : nat) (ratio : R) : result (list (list nat * list nat)) :=
  random_split_from (nb_test_of rnd n_samples ratio) (reps_of rnd ratio)
    (shuffle (seq 0 n_samples)).

(** leave_one_out (lib/utils.py:138-142). *)
Definition leave_one_out (n_samples : nat) : list (list nat * list nat) :=
  map (fun i => (filter (fun j => negb (j =? i)) (seq 0 n_samples), [i]))
      (seq 0 n_samples).
