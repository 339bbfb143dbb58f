(** * Specification for nmf.py, on matrices given by their elements. *)

From Coq Require Import List ZArith Reals Bool Sorted.
Import ListNotations.
From Verif Require Import Py nd_model nd_spec sparse_model nmf_model.
Local Open Scope R_scope.

(** Sums over the cells of a matrix. *)
Definition sum_to (n : nat) (f : nat -> R) : R := lsum (map f (seq 0 n)).
Definition cells (n m : nat) (f : nat -> nat -> R) : R := sum_to n (fun i => sum_to m (fun j => f i j)).

(** Element (i, j) of the product of two matrices with inner dimension [k]. *)
Definition prod (k : nat) (w h : nd) (i j : nat) : R := sum_to k (fun l => el w [i; l] * el h [l; j]).

(** The divergence reported by the code, the smoothed one, and the smoothed one
    in which only the elements of [x] that are not zero have a logarithm. *)
Definition divergence (eps : R) (n k m : nat) (x w h : nd) : R :=
  cells n m (fun i j => el x [i; j] * ln ((el x [i; j] + eps) / (prod k w h i j + eps)) - el x [i; j] + prod k w h i j).
Definition smoothed (eps : R) (n k m : nat) (x w h : nd) : R :=
  cells n m (fun i j => (el x [i; j] + eps) * ln ((el x [i; j] + eps) / (prod k w h i j + eps)) - el x [i; j] + prod k w h i j).
Definition smoothed_sparse (eps : R) (n k m : nat) (x w h : nd) : R :=
  cells n m (fun i j => (if Req_EM_T (el x [i; j]) 0 then 0
                         else (el x [i; j] + eps) * ln ((el x [i; j] + eps) / (prod k w h i j + eps))) - el x [i; j] + prod k w h i j).

(** The ratio of data and approximation, for dense and for sparse data. *)
Definition ratio (eps : R) (k : nat) (x w h : nd) (i j : nat) : R := (el x [i; j] + eps) / (prod k w h i j + eps).
Definition ratio_sparse (eps : R) (k : nat) (x w h : nd) (i j : nat) : R :=
  if Req_EM_T (el x [i; j]) 0 then 0 else ratio eps k x w h i j.

(** A csr_matrix whose columns are in range and strictly sorted in each row. *)
Definition canonical (x : csr) : Prop :=
  Forall (fun l : line => StronglySorted lt (map fst l) /\ Forall (fun c => (c < ncol x)%nat) (map fst l)) (lines x).
(** Columns in range only. *)
Definition in_range (x : csr) : Prop :=
  Forall (fun l : line => Forall (fun c => (c < ncol x)%nat) (map fst l)) (lines x).

(** The data of a call: dense of two axes, or sparse and canonical. *)
Definition proper (x : matrix) (n m : nat) : Prop :=
  match x with
  | Dense a => shape a = [n; m]
  | Sparse s => csr_shape s = [n; m] /\ canonical s
  end.
Definition ratio_of (x : matrix) : R -> nat -> nd -> nd -> nd -> nat -> nat -> R :=
  match x with Dense _ => ratio | Sparse _ => ratio_sparse end.
Definition objective (x : matrix) : R -> nat -> nat -> nat -> nd -> nd -> nd -> R :=
  match x with Dense _ => smoothed | Sparse _ => smoothed_sparse end.

(** One update of coefficients [w] and dictionary [h] ([fit] tells whether the
    dictionary is updated too). *)
Definition new_coefficient (r : nat -> nat -> R) (m : nat) (w h : nd) (i l : nat) : R :=
  el w [i; l] * sum_to m (fun j => r i j * el h [l; j]).
Definition raw_atom (r : nat -> nat -> R) (n : nat) (w h : nd) (l j : nat) : R :=
  el h [l; j] * sum_to n (fun i => el w [i; l] * r i j).
Definition step (eps : R) (x : matrix) (n k m : nat) (fit : bool) (w h w' h' : nd) : Prop :=
  let r := ratio_of x eps k (mvalue x) w h in
  shape w' = [n; k] /\ shape h' = [k; m] /\
  (forall i l, (i < n)%nat -> (l < k)%nat -> el w' [i; l] = new_coefficient r m w h i l) /\
  if fit then forall l j, (l < k)%nat -> (j < m)%nat ->
    el h' [l; j] = raw_atom r n w' h l j / (sum_to m (raw_atom r n w' h l) + / 10000000000000000)
  else h' = h.

(** Several updates, with the divergence before each of them. *)
Inductive runs (x : matrix) (n k m : nat) (fit : bool) : nd -> nd -> list R -> nd -> nd -> Prop :=
| runs_nil w h : runs x n k m fit w h [] w h
| runs_step w h w1 h1 errs w2 h2 :
    step (/ 100000000) x n k m fit w h w1 h1 ->
    runs x n k m fit w1 h1 errs w2 h2 ->
    runs x n k m fit w h (divergence (/ 100000000) n k m (mvalue x) w h :: errs) w2 h2.

(** Consecutive numbers of a list differ by [t] at least, downwards. *)
Definition spaced (t : R) (l : list R) : Prop :=
  forall i a b, nth_error l i = Some a -> nth_error l (S i) = Some b -> t <= a - b.

(** The last number of a list. *)
Definition ends_with (l : list R) (e : R) : Prop := exists l0, l = (l0 ++ [e])%list.

(** The first coefficients, and a random first dictionary. *)
Definition first_coefficients (n k m : nat) (x h w : nd) : Prop :=
  shape w = [n; k] /\ forall i l, (i < n)%nat -> (l < k)%nat -> el w [i; l] = sum_to m (fun j => el x [i; j] * el h [l; j]).
Definition random_dictionary (u : list nat -> R) (k m : nat) (h : nd) : Prop :=
  shape h = [k; m] /\ forall l j, (l < k)%nat -> (j < m)%nat ->
    el h [l; j] = (Rabs (u [l; j]) + / 100) / (sum_to m (fun j => Rabs (u [l; j]) + / 100) + / 10000000000000000).

(** The number of components used for data with [m] columns, and the dictionary a
    call starts with. *)
Definition number (o : nmf) (m : nat) : nat := match n_components o with None | Some 0%nat => m | Some k => k end.
Definition first_dictionary (rnd : nat -> list nat -> R) (o : nmf) (k m : nat) (h : nd) : Prop :=
  match init_dictionary o with
  | Some d => h = d
  | None => random_dictionary (rnd (draws o)) k m h
  end.

(** The same data, possibly stored without zeros. *)
Definition is_sparse (x : matrix) : bool := match x with Dense _ => false | Sparse _ => true end.
Definition alike (x x' : matrix) (n m : nat) : Prop :=
  is_sparse x' = is_sparse x /\ proper x' n m /\
  forall i j, (i < n)%nat -> (j < m)%nat -> el (mvalue x') [i; j] = el (mvalue x) [i; j].

(** An object over time: calls of fit and of transform, which may raise. *)
Inductive call := CFit (x : matrix) (scale_W : bool) | CTransform (x : matrix) (scale_W : bool).
Definition is_fit (c : call) : Prop := match c with CFit _ _ => True | CTransform _ _ => False end.
Definition perform (rnd : nat -> list nat -> R) (o : nmf) (c : call) : nmf :=
  match c with
  | CFit x s => fst (fit_transform rnd o x 1 s true)
  | CTransform x s => fst (transform rnd o x 1 s)
  end.
Definition history (rnd : nat -> list nat -> R) (o : nmf) (cs : list call) : nmf := fold_left (perform rnd) cs o.
