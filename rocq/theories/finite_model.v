(** * Model of the checks of lib/sklearn_utils.py and lib/nmf.py on floating-point data.

    Numbers are binary floating-point numbers with [prec] bits and largest exponent
    [emax] (11, 16 for half, 24, 128 for single, 53, 1024 for double precision), with
    one NaN; additions round to the nearest.  Integers are kept apart since their
    type is not one of np.typecodes['AllFloat']; complex numbers, np.matrix and the
    arguments dtype, order and copy (never given by the callers) are left out. *)

From Coq Require Import List ZArith Bool Arith.
From Flocq Require Import Core BinarySingleNaN.
Import ListNotations.
From Verif Require Import Py.
Open Scope py_scope.
Local Open Scope nat_scope.

Section Floats.
Context {prec emax : Z} {Hprec : Prec_gt_0 prec} {Hmax : Prec_lt_emax prec emax}.
Notation F := (binary_float prec emax).

(** The additions made by X.sum() (sklearn_utils.py:67): numpy and scipy choose the
    order, by blocks, by rows or by pairs, and start from a zero or from an
    element.  [Element k] is the element number k, [order n] the additions for n
    elements.  The product by one that scipy
    makes before it adds is left out. *)
Inductive additions := Zero | Element (k : nat) | Add (a b : additions).
Fixpoint added (a : additions) (l : list F) : F :=
  match a with
  | Zero => B754_zero false
  | Element k => nth k l (B754_zero false)
  | Add a b => Bplus mode_NE (added a l) (added b l)
  end.

(** Elements of an array: floats or integers. *)
Inductive values := Floats (l : list F) | Integers (l : list Z).

(** assert_all_finite (sklearn_utils.py:59-69); np.isfinite(X).all() looks at all
    elements, at the stored ones if X is sparse. *)
Definition assert_all_finite (order : nat -> additions) (v : values) : result unit :=
  match v with
  | Integers _ => Ok tt
  | Floats l =>
      if negb (is_finite (added (order (length l)) l)) && negb (forallb is_finite l) then Err ValueError else Ok tt
  end.

(** What may be given: an array with its shape and its elements in C order, a
    coo_matrix or a csr_matrix with its number of rows and of columns and the
    list of (row, column, value) that it stores. *)
Definition entry : Type := nat * nat * F.
Inductive data :=
| Array (shape : list nat) (v : values)
| Coo (n m : nat) (l : list entry)
| Csr (n m : nat) (l : list entry).

(** np.atleast_2d of an array, and array2d (sklearn_utils.py:72-80). *)
Definition atleast_2d (shape : list nat) : list nat :=
  match shape with [] => [1; 1] | [n] => [1; n] | _ => shape end.
Definition array2d (x : data) : result data :=
  match x with
  | Array shape v => Ok (Array (atleast_2d shape) v)
  | _ => Err TypeError
  end.

(** tocsr of a coo_matrix: entries row by row, in the order of the columns; the
    values stored at one place are added in the order in which they are stored. *)
Fixpoint store (i j : nat) (v : F) (l : list entry) : list entry :=
  match l with
  | [] => [(i, j, v)]
  | (i', j', v') :: l' =>
      if (i =? i') && (j =? j') then (i, j, Bplus mode_NE v' v) :: l'
      else if (i <? i') || (i =? i') && (j <? j') then (i, j, v) :: l
      else (i', j', v') :: store i j v l'
  end.
Definition tocsr (l : list entry) : list entry :=
  fold_left (fun acc e => store (fst (fst e)) (snd (fst e)) (snd e) acc) l [].

(** X.data of a csr_matrix, or the elements of an array. *)
Definition numbers (x : data) : values :=
  match x with
  | Array _ v => v
  | Coo _ _ l | Csr _ _ l => Floats (map snd l)
  end.
Definition shape_of (x : data) : list nat :=
  match x with Array s _ => s | Coo n m _ | Csr n m _ => [n; m] end.

(** atleast2d_or_csr (sklearn_utils.py:83-97); tocsr gives back a csr_matrix as it
    is. *)
Definition atleast2d_or_csr (order : nat -> additions) (x : data) : result data :=
  x <- match x with
       | Coo n m l => Ok (Csr n m (tocsr l))
       | Csr n m l => Ok (Csr n m l)
       | Array _ _ => array2d x
       end ;;
  _ <- assert_all_finite order (numbers x) ;;
  Ok x.

(** check_non_negative (nmf.py:22-26). *)
Definition below_zero (v : values) : bool :=
  match v with
  | Floats l => existsb (fun x => Bltb x (B754_zero false)) l
  | Integers l => existsb (fun x => (x <? 0)%Z) l
  end.
Definition check_non_negative (x : data) : result unit :=
  if below_zero (numbers x) then Err ValueError else Ok tt.

(** First lines of fit_transform (nmf.py:193-196): the matrix, n_samples and
    n_features. *)
Definition checked (order : nat -> additions) (x : data) : result (data * nat * nat) :=
  x <- atleast2d_or_csr order x ;;
  _ <- check_non_negative x ;;
  match shape_of x with
  | [n; m] => Ok (x, n, m)
  | _ => Err ValueError
  end.
End Floats.
