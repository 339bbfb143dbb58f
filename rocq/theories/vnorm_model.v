(** * Model of vector_norm and unit_vector (multimodal/lib/transformations.py:1535-1615).

    Arrays of any number of axes, over the real numbers; what a division by zero gives is
    left open.  A float is an array without axis. *)

From Coq Require Import List ZArith Reals Bool.
Import ListNotations.
From Verif Require Import Py nd_model.
Open Scope py_scope.
Local Open Scope R_scope.

(** data * data *)
Definition squared (a : nd) : nd := map1 (fun x => x * x) a.
(** numpy.atleast_1d *)
Definition atleast_1d (a : nd) : nd := match shape a with [] => Nd [1%nat] (fun _ => el a []) | _ => a end.
Fixpoint same_shape (s t : list nat) : bool :=
  match s, t with
  | [], [] => true
  | a :: s', b :: t' => (a =? b)%nat && same_shape s' t'
  | _, _ => false
  end.
(** a /= b: the result has to have the shape of a. *)
Definition idiv (a b : nd) : result nd :=
  c <- map2 Rdiv a b ;; if same_shape (shape c) (shape a) then Ok c else Err ValueError.

(** vector_norm without out (lines 1561-1567); numpy.dot of a vector with itself is the sum
    of its squares. *)
Definition vector_norm (data : nd) (axis : option Z) : result nd :=
  if (ndim data =? 1)%nat then Ok (Nd [] (fun _ => sqrt (sum_over (shape data) (el (squared data)))))
  else
    s <- sum_axis (squared data) axis ;;
    Ok (map1 sqrt (atleast_1d s)).
(** vector_norm with an array out of this shape (lines 1560, 1568-1571): what out holds
    afterwards. *)
Definition vector_norm_out (data : nd) (axis : option Z) (out_shape : list nat) : result nd :=
  s <- sum_axis (squared data) axis ;;
  if same_shape (shape s) out_shape then Ok (map1 sqrt s) else Err ValueError.

(** Lines 1609-1613. *)
Definition divide_by_length (data : nd) (axis : option Z) : result nd :=
  s <- sum_axis (squared data) axis ;;
  let length := map1 sqrt (atleast_1d s) in
  length <- match axis with None => Ok length | Some z => expand_dims length z end ;;
  idiv data length.
(** unit_vector without out (lines 1600-1604, 1609-1615). *)
Definition unit_vector (data : nd) (axis : option Z) : result nd :=
  if (ndim data =? 1)%nat then Ok (map1 (fun x => x / sqrt (sum_over (shape data) (el (squared data)))) data)
  else divide_by_length data axis.
(** unit_vector with an array out of the shape of data, or data itself (lines 1605-1613):
    what out holds afterwards. *)
Definition unit_vector_out (data : nd) (axis : option Z) : result nd := divide_by_length data axis.
