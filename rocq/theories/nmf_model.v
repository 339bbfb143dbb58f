(** * Model of multimodal/lib/nmf.py (class KLdivNMF).

    Numbers are reals; the error of an iteration is a number, prev_error is
    None for np.Inf.  The state of an object is a record; a method returns the new
    state also when it raises.  Data is dense or a csr_matrix (for other sparse
    formats atleast2d_or_csr makes a new csr_matrix, coo_tocsr for a
    coo_matrix).  [rnd c] gives the numbers of the call number [c] of
    np.random.random.  Messages, subit and random_state (not used by the code) are
    left out; n_components is not negative. *)

From Coq Require Import List ZArith Reals Bool Arith.
Import ListNotations.
From Verif Require Import Py nd_model sparse_model array_utils_model metrics_model.
Open Scope py_scope.
Local Open Scope R_scope.

(** Default of eps in error, _Q and _update (nmf.py:232, 297, 326), and in
    normalize_sum (array_utils.py:19). *)
Definition EPS : R := / 100000000.
Definition EPS_SUM : R := / 10000000000000000.

(** atleast2d_or_csr (sklearn_utils.py:83-97).  All reals are finite. *)
Definition atleast2d (a : nd) : nd :=
  match shape a with
  | [] => Nd [1; 1]%nat (fun _ => el a [])
  | [m] => Nd [1; m]%nat (fun idx => el a [nth 1 idx 0%nat])
  | _ => a
  end.
Definition atleast2d_or_csr (x : matrix) : matrix :=
  match x with Dense a => Dense (atleast2d a) | Sparse s => Sparse s end.

(** (X < 0).any() of check_non_negative (nmf.py:23-26): for a sparse matrix only
    the stored values are looked at. *)
Definition any_negative_entry (a : nd) : bool :=
  negb (Req_bool (sum_over (shape a) (fun idx => ind (Rlt_bool (el a idx) 0))) 0).
Definition any_negative (x : matrix) : bool :=
  match x with
  | Dense a => any_negative_entry a
  | Sparse s => existsb (fun v => Rlt_bool v 0) (data s)
  end.

(** np.squeeze(a): axes of length 1 are dropped. *)
Fixpoint unsqueeze (s idx : list nat) : list nat :=
  match s with
  | [] => []
  | d :: s' => if (d =? 1)%nat then 0%nat :: unsqueeze s' idx else hd 0%nat idx :: unsqueeze s' (tl idx)
  end.
Definition squeeze (a : nd) : nd :=
  Nd (filter (fun d => negb (d =? 1)%nat) (shape a)) (fun idx => el a (unsqueeze (shape a) idx)).

(** _scale (nmf.py:29-49); factors[:, np.newaxis] needs an axis. *)
Definition scale_matrix (m factors : nd) (axis : Z) : result nd :=
  if negb (ndim m =? 2)%nat then Err ValueError
  else if negb ((axis =? 0)%Z || (axis =? 1)%Z) then Err ValueError
  else
    let factors := squeeze factors in
    f <- (if (axis =? 1)%Z then if (ndim factors =? 0)%nat then Err IndexError else expand_dims factors 1
          else Ok factors) ;;
    map2 Rmult m f.

(** _special_sparse_dot (nmf.py:52-70), after refmat.eliminate_zeros(): the
    elements of the product where refmat is not zero, in the order of refmat, and
    then the conversion from coo_matrix to csr_matrix.  The sizes of the product are
    those of refmat, as the docstring demands. *)
Definition special_sparse_dot (a b : nd) (ref : csr) : result csr :=
  match shape a, shape b with
  | [n; k], [k'; m] =>
      if (k =? k')%nat then
        Ok (coo_tocsr (ncol ref)
              (map (fun p => map (fun e => (fst e, rsum k (fun l => el a [fst p; l] * el b [l; fst e]))) (snd p))
                   (enumerate (lines ref))))
      else Err ValueError
  | _, _ => Err ValueError
  end.

(** error (nmf.py:297-310); weights is not used, nor is eps in the dense case.  The
    second component is X after eliminate_zeros. *)
Definition error (eps : R) (x : matrix) (w h : nd) : result (R * matrix) :=
  match x with
  | Sparse s =>
      let s := eliminate_zeros s in
      wh <- special_sparse_dot w h s ;;
      ws <- sum_axis w (Some 0%Z) ;;
      hs <- sum_axis h (Some 1%Z) ;;
      p <- map2 Rmult ws hs ;;
      let wh_sum := sum_over (shape p) (el p) in
      let xd := vec (data s) in
      q <- map2 Rdiv (map1 (fun v => v + eps) xd) (map1 (fun v => v + eps) (vec (data wh))) ;;
      t <- map2 Rmult xd (map1 ln q) ;;
      Ok (sum_over (shape t) (el t) - sum_over (shape xd) (el xd) + wh_sum, Sparse s)
  | Dense a =>
      wh <- dot w h ;;
      r <- generalized_KL a wh EPSILON None ;;
      Ok (el r [], x)
  end.

(** _Q (nmf.py:325-336). *)
Definition Q (eps : R) (x : matrix) (w h : nd) : result matrix :=
  match x with
  | Sparse s =>
      let s := eliminate_zeros s in
      wh <- special_sparse_dot w h s ;;
      q <- map2 Rdiv (map1 (fun v => v + eps) (vec (data s))) (map1 (fun v => v + eps) (vec (data wh))) ;;
      Ok (Sparse (set_data wh (map (fun i => el q [i]) (seq 0 (size (shape q))))))
  | Dense a =>
      wh <- dot w h ;;
      q <- map2 Rdiv (map1 (fun v => v + eps) a) (map1 (fun v => v + eps) wh) ;;
      Ok (Dense q)
  end.

(** safe_sparse_dot (sklearn_utils.py:102-110) with one sparse argument at most. *)
Definition mdot_l (x : matrix) (b : nd) : result nd :=
  match x with Dense a => dot a b | Sparse s => sparse_dense_dot s b end.
Definition mdot_r (a : nd) (x : matrix) : result nd :=
  match x with Dense b => dot a b | Sparse s => dense_sparse_dot a s end.

(** _updated_W and _updated_H with the given Q (nmf.py:338-351). *)
Definition updated_W (w h : nd) (q : matrix) : result nd :=
  t <- mdot_l q (transpose h) ;; map2 Rmult w t.
Definition updated_H (w h : nd) (q : matrix) : result nd :=
  t <- mdot_r (transpose w) q ;;
  h' <- map2 Rmult h t ;;
  normalize_sum h' 1 EPS_SUM.

(** _update (nmf.py:232-257), called without scale_W: the new coefficients and
    components. *)
Definition update (eps : R) (x : matrix) (w h : nd) (fit : bool) : result (nd * nd) :=
  q <- Q eps x w h ;;
  w' <- updated_W w h q ;;
  h' <- (if fit then updated_H w' h q else Ok h) ;;
  Ok (w', h').

(** The object: n_components, _init_dictionary, components_ (None before it is
    set), tol and max_iter; the number of calls of np.random.random so far.
    [self_eps] is the attribute eps, used by scale only. *)
Record nmf := Nmf {
  n_components : option nat;
  init_dictionary : option nd;
  components : option nd;
  tol : R;
  max_iter : Z;
  self_eps : R;
  draws : nat }.

(** KLdivNMF(...) (nmf.py:136-145) after [c] calls of np.random.random. *)
Definition nmf_new (n : option nat) (t : R) (m : Z) (c : nat) : nmf := Nmf n None None t m EPS c.

Definition set_components (h : nd) (o : nmf) : nmf :=
  Nmf (n_components o) (init_dictionary o) (Some h) (tol o) (max_iter o) (self_eps o) (draws o).
Definition set_init (d : option nd) (o : nmf) : nmf :=
  Nmf (n_components o) d (components o) (tol o) (max_iter o) (self_eps o) (draws o).
Definition set_n (n : nat) (o : nmf) : nmf :=
  Nmf (Some n) (init_dictionary o) (components o) (tol o) (max_iter o) (self_eps o) (draws o).
Definition count_draw (o : nmf) : nmf :=
  Nmf (n_components o) (init_dictionary o) (components o) (tol o) (max_iter o) (self_eps o) (S (draws o)).

Definition opt_list_eqb (a b : list nat) : bool := if list_eq_dec Nat.eq_dec a b then true else false.

(** The initial dictionary (nmf.py:147-157): random, or the one that was set. *)
Definition init_H (rnd : nat -> list nat -> R) (o : nmf) (k m : nat) : nmf * result nd :=
  match init_dictionary o with
  | None =>
      (count_draw o,
       normalize_sum (map1 (fun v => v + / 100) (map1 Rabs (Nd [k; m] (rnd (draws o))))) 1 EPS_SUM)
  | Some d => (o, if opt_list_eqb (shape d) [k; m] then Ok d else Err AssertionError)
  end.

(** The loop of fit_transform (nmf.py:212-222): [fuel] iterations are left.  The
    result has the components, the data, the coefficients, the list of errors
    and whether all iterations were started. *)
Fixpoint iterate (fuel : nat) (x : matrix) (w h : nd) (prev : option R) (t : R) (fit : bool) (errs : list R)
  : nd * result (matrix * nd * list R * bool) :=
  match fuel with
  | 0%nat => (h, Ok (x, w, errs, true))
  | S fuel' =>
      match error EPS x w h with
      | Err e => (h, Err e)
      | Ok (e, x') =>
          if match prev with None => false | Some p => Rlt_bool (p - e) t end
          then (h, Ok (x', w, errs, (fuel =? 1)%nat))
          else
            match update EPS x' w h fit with
            | Err e' => (h, Err e')
            | Ok (w', h') => iterate fuel' x' w' h' (Some e) t fit (errs ++ [e])
            end
      end
  end.

(** fit_transform (nmf.py:159-230): coefficients, errors, whether the warning is
    written, and the data after the call.  The arguments weights and scale_W have no
    influence: weights is handed to error, which ignores it, scale_W is not handed
    to _update. *)
Definition fit_transform (rnd : nat -> list nat -> R) (o : nmf) (x : matrix) (weights : R) (scale_W fit : bool)
  : nmf * result (nd * list R * bool * matrix) :=
  let x := atleast2d_or_csr x in
  if any_negative x then (o, Err ValueError)
  else
    match mshape x with
    | [n; m] =>
        let k := match n_components o with None | Some 0%nat => m | Some k => k end in
        let o := set_n k o in
        match init_H rnd o k m with
        | (o, Err e) => (o, Err e)
        | (o, Ok h) =>
            match mdot_l x (transpose h) with
            | Err e => (o, Err e)
            | Ok w =>
                let o := if fit then set_components h o else o in
                if (max_iter o <=? 0)%Z then (o, Err UnboundLocalError)
                else
                  match components o with
                  | None => (o, Err AttributeError)
                  | Some h0 =>
                      let t := tol o * INR n * INR m in
                      let '(h', r) := iterate (Z.to_nat (max_iter o)) x w h0 None t fit [] in
                      let o := if fit then set_components h' o else o in
                      match r with
                      | Err e => (o, Err e)
                      | Ok (x, w, errs, limit) => (o, Ok (w, errs, limit && Rlt_bool 0 t, x))
                      end
                  end
            end
        end
    | _ => (o, Err ValueError)
    end.

(** transform (nmf.py:275-291). *)
Definition transform (rnd : nat -> list nat -> R) (o : nmf) (x : matrix) (weights : R) (scale_W : bool)
  : nmf * result (nd * list R * bool * matrix) :=
  match components o with
  | None => (o, Err AttributeError)
  | Some h => fit_transform rnd (set_init (Some h) o) x weights scale_W false
  end.

(** scale (nmf.py:314-321). *)
Definition scale (o : nmf) (w h factors : nd) : result (nd * nd) :=
  let safe := map1 (fun v => v + self_eps o) factors in
  sw <- scale_matrix w safe 0 ;;
  sh <- scale_matrix h (map1 (fun v => 1 / v) safe) 1 ;;
  Ok (sw, sh).
