(** * Arrays of numbers (the part of numpy that is used by the code).

    An array has a shape and an element for each index; the elements are real
    numbers.  Rounding, NaN and infinities are not modelled.  The values of [el]
    outside of the shape have no meaning and are never compared (see [same]).
    The exception numpy.AxisError, a ValueError, is written ValueError. *)

From Coq Require Import List ZArith Reals Bool Lia.
Import ListNotations.
From Verif Require Import Py.
Open Scope py_scope.
Local Open Scope R_scope.

Record nd := Nd { shape : list nat; el : list nat -> R }.

Definition ndim (a : nd) : nat := length (shape a).

(** The indices of an array of shape [s]. *)
Fixpoint valid (s idx : list nat) : Prop :=
  match s, idx with
  | [], [] => True
  | d :: s', i :: idx' => (i < d)%nat /\ valid s' idx'
  | _, _ => False
  end.

(** Two arrays that cannot be distinguished. *)
Definition same (a b : nd) : Prop :=
  shape a = shape b /\ forall idx, valid (shape a) idx -> el a idx = el b idx.

(** Sum of n terms, and sum of all elements of an array of shape [s]. *)
Fixpoint rsum (n : nat) (f : nat -> R) : R :=
  match n with
  | 0%nat => 0
  | S n' => rsum n' f + f n'
  end.
Fixpoint sum_over (s : list nat) (f : list nat -> R) : R :=
  match s with
  | [] => f []
  | d :: s' => rsum d (fun i => sum_over s' (fun idx => f (i :: idx)))
  end.
Definition size (s : list nat) : nat := fold_right Nat.mul 1%nat s.

(** A comparison used as a number. *)
Definition ind (b : bool) : R := if b then 1 else 0.
Definition Req_bool (a b : R) : bool := if Req_EM_T a b then true else false.
Definition Rlt_bool (a b : R) : bool := if Rlt_dec a b then true else false.
Definition Rle_bool (a b : R) : bool := if Rle_dec a b then true else false.

(** Elementwise functions of one array. *)
Definition map1 (f : R -> R) (a : nd) : nd := Nd (shape a) (fun idx => f (el a idx)).

(** Broadcasting of shapes, aligned on the last axis. *)
Fixpoint bcast_rev (s t : list nat) : result (list nat) :=
  match s, t with
  | [], _ => Ok t
  | _, [] => Ok s
  | a :: s', b :: t' =>
      d <- (if (a =? b)%nat then Ok a else if (a =? 1)%nat then Ok b
            else if (b =? 1)%nat then Ok a else Err ValueError) ;;
      u <- bcast_rev s' t' ;;
      Ok (d :: u)
  end.
Definition bcast (s t : list nat) : result (list nat) :=
  u <- bcast_rev (rev s) (rev t) ;; Ok (rev u).

(** The index of an operand of shape [s] for the index [idx] of the result. *)
Definition bindex (s idx : list nat) : list nat :=
  map (fun p => if (fst p =? 1)%nat then 0%nat else snd p)
      (combine s (skipn (length idx - length s) idx)).

(** Elementwise functions of two arrays. *)
Definition map2 (f : R -> R -> R) (a b : nd) : result nd :=
  u <- bcast (shape a) (shape b) ;;
  Ok (Nd u (fun idx => f (el a (bindex (shape a) idx)) (el b (bindex (shape b) idx)))).

(** Axes: negative numbers count from the end. *)
Definition norm_axis (n : nat) (axis : Z) : result nat :=
  match norm_index n axis with Ok k => Ok k | Err _ => Err ValueError end.

Definition insert (k i : nat) (idx : list nat) : list nat := firstn k idx ++ i :: skipn k idx.
Definition remove (k : nat) (idx : list nat) : list nat := firstn k idx ++ skipn (S k) idx.

(** a.sum(axis=axis); with axis=None the result has no axis. *)
Definition sum_axis (a : nd) (axis : option Z) : result nd :=
  match axis with
  | None => Ok (Nd [] (fun _ => sum_over (shape a) (el a)))
  | Some z =>
      k <- norm_axis (ndim a) z ;;
      Ok (Nd (remove k (shape a))
             (fun idx => rsum (nth k (shape a) 0%nat) (fun i => el a (insert k i idx))))
  end.

(** np.average(a) over all elements. *)
Definition average (a : nd) : R := sum_over (shape a) (el a) / INR (size (shape a)).

(** np.expand_dims(a, axis). *)
Definition expand_dims (a : nd) (axis : Z) : result nd :=
  k <- norm_axis (S (ndim a)) axis ;;
  Ok (Nd (insert k 1%nat (shape a)) (fun idx => el a (remove k idx))).

(** Arrays given by their elements, and the transpose of a matrix. *)
Definition vec (l : list R) : nd :=
  Nd [length l] (fun idx => nth (nth 0 idx 0%nat) l 0).
Definition mat (nc : nat) (rows : list (list R)) : nd :=
  Nd [length rows; nc] (fun idx => nth (nth 1 idx 0%nat) (nth (nth 0 idx 0%nat) rows []) 0).
Definition transpose (a : nd) : nd := Nd (rev (shape a)) (fun idx => el a (rev idx)).

(** np.dot of two matrices. *)
Definition dot (a b : nd) : result nd :=
  match shape a, shape b with
  | [n; k], [k'; m] =>
      if (k =? k')%nat then
        Ok (Nd [n; m] (fun idx => rsum k (fun l => el a [nth 0 idx 0%nat; l] * el b [l; nth 1 idx 0%nat])))
      else Err ValueError
  | _, _ => Err ValueError
  end.
