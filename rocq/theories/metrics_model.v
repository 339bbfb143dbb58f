(** * Model of multimodal/lib/metrics.py.

    Arrays are those of nd_model.v.  Where the Python code divides by zero or
    takes the logarithm of a number that is not positive, numpy gives NaN or an
    infinity and a warning: those values are not modelled, and the theorems
    assume that they do not occur. *)

From Coq Require Import List ZArith Reals Bool.
Import ListNotations.
From Verif Require Import Py nd_model.
Open Scope py_scope.
Local Open Scope R_scope.

(** metrics.py:15 *)
Definition EPSILON : R := / 100000000.

(** generalized_KL (metrics.py:18-20). *)
Definition generalized_KL (x y : nd) (eps : R) (axis : option Z) : result nd :=
  q <- map2 Rdiv (map1 (fun v => v + eps) x) (map1 (fun v => v + eps) y) ;;
  m <- map2 Rmult x (map1 ln q) ;;
  d <- map2 Rminus m x ;;
  s <- map2 Rplus d y ;;
  sum_axis s axis.

(** hoyer_sparseness (metrics.py:23-30).  X.shape[axis] is the indexing of a
    tuple. *)
Definition hoyer_sparseness (x : nd) (axis : Z) (eps : R) : result R :=
  n <- py_nth (shape x) axis ;;
  let sqrt_n := sqrt (INR n) in
  a <- sum_axis (map1 Rabs x) (Some axis) ;;
  let norm_1 := map1 (fun v => v + eps) a in
  b <- sum_axis (map1 Rsqr x) (Some axis) ;;
  let norm_2 := map1 (fun v => sqrt v + eps) b in
  q <- map2 Rdiv norm_1 norm_2 ;;
  Ok ((sqrt_n - average q) / (sqrt_n - 1)).

(** entropy (metrics.py:33-34). *)
Definition entropy (v : nd) : R :=
  - sum_over (shape v) (fun idx => el v idx * ln (el v idx + 1 * ind (Req_bool (el v idx) 0))).

(** np.allclose of two numbers with its default tolerances. *)
Definition allclose (a b : R) : bool := Rle_bool (Rabs (a - b)) (/ 100000000 + / 100000 * Rabs b).

(** mutual_information (metrics.py:37-43). *)
Definition mutual_information (h : nd) : result R :=
  if negb (ndim h =? 2)%nat then Err AssertionError
  else if negb (allclose (sum_over (shape h) (el h)) 1) then Err AssertionError
  else
    let zeros := map1 (fun v => ind (Req_bool v 0) * 1) h in
    s0 <- sum_axis h (Some 0%Z) ;;
    s0 <- expand_dims s0 0 ;;
    s1 <- sum_axis h (Some 1%Z) ;;
    s1 <- expand_dims s1 1 ;;
    p <- map2 Rmult s0 s1 ;;
    den <- map2 Rplus p zeros ;;
    num <- map2 Rplus h zeros ;;
    q <- map2 Rdiv num den ;;
    m <- map2 Rmult h (map1 ln q) ;;
    Ok (sum_over (shape m) (el m)).

(** conditional_entropy (metrics.py:46-55).  The sequence swapaxes(axis, -1),
    reshape to (product of the other dimensions, dimension of axis), sum(axis=0)
    is written as the sum over all other indices.  With one dimension
    numpy.prod(()) is the float 1.0, which is not accepted by reshape. *)
Definition conditional_entropy (h : nd) (axis : Z) : result R :=
  if negb (allclose (sum_over (shape h) (el h)) 1) then Err AssertionError
  else
    k <- norm_axis (ndim h) axis ;;
    if (ndim h =? 1)%nat then Err TypeError
    else
      let s := Nd [nth k (shape h) 0%nat]
                  (fun j => sum_over (remove k (shape h)) (fun idx => el h (insert k (nth 0 j 0%nat) idx))) in
      Ok (entropy h - entropy s).

(** The in-place division of kl_div (metrics.py:60-61). *)
Definition normalized (a : nd) (axis : Z) : result nd :=
  s <- sum_axis a (Some axis) ;;
  e <- expand_dims s axis ;;
  map2 Rdiv a e.

(** kl_div (metrics.py:58-62).  The result comes with the contents of the two
    arguments after the call; the argument eps is not used. *)
Definition kl_div (a b : nd) (axis : Z) (eps : R) (normalize : bool) : result (nd * nd * nd) :=
  '(a, b) <- (if normalize then a' <- normalized a axis ;; b' <- normalized b axis ;; Ok (a', b')
              else Ok (a, b)) ;;
  r <- generalized_KL a b EPSILON (Some axis) ;;
  Ok (r, a, b).

(** rev_kl_div (metrics.py:65-66). *)
Definition rev_kl_div (a b : nd) (axis : Z) (eps : R) (normalize : bool) : result (nd * nd * nd) :=
  '(r, b, a) <- kl_div b a axis eps normalize ;;
  Ok (r, a, b).

(** sym_kl_div (metrics.py:69-70): the second call sees the arguments as changed
    by the first one. *)
Definition sym_kl_div (a b : nd) (axis : Z) (eps : R) (normalize : bool) : result (nd * nd * nd) :=
  '(r1, a, b) <- kl_div a b axis eps normalize ;;
  '(r2, a, b) <- rev_kl_div a b axis eps normalize ;;
  s <- map2 Rplus r1 r2 ;;
  Ok (map1 (Rmult (/ 2)) s, a, b).

(** frobenius (metrics.py:73-74). *)
Definition frobenius (a b : nd) (axis : Z) : result nd :=
  d <- map2 Rminus a b ;;
  s <- sum_axis (map1 Rsqr d) (Some axis) ;;
  Ok (map1 sqrt s).

(** cosine_similarity (metrics.py:77-82). *)
Definition cosine_similarity (a b : nd) (axis : Z) : result nd :=
  p <- map2 Rmult a b ;;
  ab <- sum_axis p (Some axis) ;;
  aa <- sum_axis (map1 Rsqr a) (Some axis) ;;
  bb <- sum_axis (map1 Rsqr b) (Some axis) ;;
  n <- map2 Rmult aa bb ;;
  den <- map2 Rplus (map1 sqrt n) (map1 (fun v => ind (Req_bool v 0)) ab) ;;
  map2 Rdiv ab den.

(** cosine_diff (metrics.py:85-86). *)
Definition cosine_diff (a b : nd) (axis : Z) : result nd :=
  r <- cosine_similarity a b axis ;; Ok (map1 Ropp r).

(** real_sparsity of a dense array (metrics.py:89-97). *)
Definition real_sparsity (x : nd) : R :=
  1 - sum_over (shape x) (fun idx => ind (negb (Req_bool (el x idx) 0))) / INR (size (shape x)).

(** ** Use by multimodal/evaluation.py. *)

(** all_distances (evaluation.py:103-106) of two matrices; [measure] is one of the
    functions above with its axis. *)
Definition all_distances_nd (reco ex : nd) (measure : nd -> nd -> Z -> result nd) : result nd :=
  match shape reco, shape ex with
  | [_; _], [_; _] =>
      a <- expand_dims reco 1 ;;
      b <- expand_dims ex 0 ;;
      measure a b (-1)%Z
  | _, _ => Err IndexError
  end.
