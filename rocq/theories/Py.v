(** * Python primitives shared by all component models.

    Exceptions are values: a Python function that can raise is modelled by a
    Gallina function into [result].  Nothing in this file is specific to one
    component of /repo; it describes the semantics of the Python built-ins the
    code uses. *)

From Coq Require Import List ZArith Bool.
Import ListNotations.

(** Exception classes that the modelled code can raise.  [Timeout] is not a
    Python exception: it is the outcome of a [while] loop that has not returned
    after the number of iterations given by the fuel argument of the model.
    [BadFile] stands for the errors of a reader given a damaged file, whose
    class depends on where the file was cut. *)
Inductive exn : Type :=
| ValueError | IndexError | KeyError | TypeError | AssertionError
| ZeroDivisionError | UnboundLocalError | AttributeError | StopIteration
| IOError | NoFileError | BadFile | NotImplementedError | TimeOutOfBound | WrongFile
| Timeout.

Inductive result (A : Type) : Type :=
| Ok : A -> result A
| Err : exn -> result A.
Arguments Ok {A} _.
Arguments Err {A} _.

Definition bind {A B} (r : result A) (f : A -> result B) : result B :=
  match r with Ok a => f a | Err e => Err e end.

Declare Scope py_scope.
Delimit Scope py_scope with py.
Notation "x <- e ;; k" := (bind e (fun x => k))
  (at level 61, e at next level, right associativity) : py_scope.
Notation "' p <- e ;; k" := (bind e (fun p => k))
  (at level 61, p pattern, e at next level, right associativity) : py_scope.
Notation "e ;;; k" := (bind e (fun _ => k))
  (at level 61, right associativity) : py_scope.
Open Scope py_scope.

Definition is_ok {A} (r : result A) : bool :=
  match r with Ok _ => true | Err _ => false end.

(** [assert(b)]. *)
Definition py_assert (b : bool) : result unit :=
  if b then Ok tt else Err AssertionError.

(** Sequential evaluation of a list comprehension whose body can raise. *)
Fixpoint mapM {A B} (f : A -> result B) (l : list A) : result (list B) :=
  match l with
  | [] => Ok []
  | x :: l' => y <- f x ;; ys <- mapM f l' ;; Ok (y :: ys)
  end.

(** A [for] loop over a list with a state and a body that can raise. *)
Fixpoint foldM {S A} (f : S -> A -> result S) (l : list A) (s : S) : result S :=
  match l with
  | [] => Ok s
  | x :: l' => s' <- f s x ;; foldM f l' s'
  end.

(** Index normalisation of Python sequences: [l[i]] for [-len <= i < len],
    negative indices counting from the end; anything else is IndexError. *)
Definition norm_index (n : nat) (i : Z) : result nat :=
  if (0 <=? i)%Z && (i <? Z.of_nat n)%Z then Ok (Z.to_nat i)
  else if (- Z.of_nat n <=? i)%Z && (i <? 0)%Z then Ok (Z.to_nat (i + Z.of_nat n))
  else Err IndexError.

Definition py_nth {A} (l : list A) (i : Z) : result A :=
  k <- norm_index (length l) i ;;
  match nth_error l k with Some x => Ok x | None => Err IndexError end.

(** Replacement of the element at position [k] (no effect out of range). *)
Fixpoint list_set {A} (l : list A) (k : nat) (x : A) : list A :=
  match l, k with
  | [], _ => []
  | _ :: l', 0 => x :: l'
  | y :: l', S k' => y :: list_set l' k' x
  end.

(** [l[i] = x]. *)
Definition py_set {A} (l : list A) (i : Z) (x : A) : result (list A) :=
  k <- norm_index (length l) i ;; Ok (list_set l k x).

(** Bound normalisation of a slice with step 1: negative bounds count from the
    end, and the result is clamped to [0, n]. *)
Definition clamp_slice (n : nat) (i : Z) : nat :=
  let j := if (i <? 0)%Z then (i + Z.of_nat n)%Z else i in
  Z.to_nat (Z.max 0 (Z.min j (Z.of_nat n))).

(** [l[a:b]] with both bounds given; [slice_from l a] is [l[a:]] and
    [slice_to l b] is [l[:b]]. *)
Definition slice {A} (l : list A) (a b : Z) : list A :=
  let i := clamp_slice (length l) a in
  let j := clamp_slice (length l) b in
  firstn (j - i) (skipn i l).
Definition slice_from {A} (l : list A) (a : Z) : list A :=
  skipn (clamp_slice (length l) a) l.
Definition slice_to {A} (l : list A) (b : Z) : list A :=
  firstn (clamp_slice (length l) b) l.

(** [enumerate(l)]. *)
Definition enumerate {A} (l : list A) : list (nat * A) :=
  combine (seq 0 (length l)) l.

(** [l.index(x, start)] for [start >= 0]: position of the first occurrence at
    or after [start], ValueError if there is none. *)
Fixpoint index_from {A} (eqb : A -> A -> bool) (x : A) (l : list A)
    (pos start : nat) : result nat :=
  match l with
  | [] => Err ValueError
  | y :: l' =>
      if (start <=? pos)%nat && eqb y x then Ok pos
      else index_from eqb x l' (S pos) start
  end.
Definition list_index {A} (eqb : A -> A -> bool) (l : list A) (x : A)
    (start : nat) : result nat :=
  index_from eqb x l 0 start.

(** Zip of a list of lists (zip applied to the unpacked list), truncating at the shortest; [zip()] of
    no list is empty. *)
Fixpoint zip_star_aux {A} (n : nat) (ls : list (list A)) : list (list A) :=
  match n with
  | 0 => []
  | S n' =>
      match mapM (fun l => match l with [] => Err IndexError | x :: _ => Ok x end) ls with
      | Ok heads => heads :: zip_star_aux n' (map (@tl A) ls)
      | Err _ => []
      end
  end.
Definition zip_star {A} (ls : list (list A)) : list (list A) :=
  match ls with
  | [] => []
  | l :: _ => zip_star_aux (length l) ls
  end.

(** Dictionaries with insertion order (Python >= 3.7), as association lists
    without duplicate keys. *)
Fixpoint dict_get {K V} (eqb : K -> K -> bool) (d : list (K * V)) (k : K)
  : option V :=
  match d with
  | [] => None
  | (k', v) :: d' => if eqb k' k then Some v else dict_get eqb d' k
  end.
Fixpoint dict_set {K V} (eqb : K -> K -> bool) (d : list (K * V)) (k : K) (v : V)
  : list (K * V) :=
  match d with
  | [] => [(k, v)]
  | (k', v') :: d' =>
      if eqb k' k then (k', v) :: d' else (k', v') :: dict_set eqb d' k v
  end.

(** Functional update of a total map, used for fixed-size mutable arrays. *)
Definition upd {A} (f : nat -> A) (i : nat) (x : A) : nat -> A :=
  fun j => if (j =? i)%nat then x else f j.

(** [range(a, b, s)]: ValueError when the step is 0. *)
Definition py_range (a b s : Z) : result (list Z) :=
  if (s =? 0)%Z then Err ValueError
  else
    let n := if (0 <? s)%Z then Z.to_nat ((b - a + s - 1) / s)
             else Z.to_nat ((a - b - s - 1) / (- s)) in
    Ok (map (fun k => (a + Z.of_nat k * s)%Z) (seq 0 n)).
