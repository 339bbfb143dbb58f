(** * Model of samples/plot_info_matrix.py: information of coefficients about labels
    (lines 66-107, 137-144).

    Floats are real numbers, or rational numbers for the assignment.  np.bool is bool
    (it was removed in numpy 1.24, where line 78 raises AttributeError). *)

From Coq Require Import List ZArith Bool Arith Reals QArith.
Import ListNotations.
From Verif Require Import Py pairing_model munkres_model nd_model metrics_model.
Open Scope py_scope.
Local Open Scope nat_scope.

(** np.histogram(values, bins=10, range=(lo, hi)): an empty range is extended by one half on
    both sides; values outside of the range are ignored; the last bin contains its end. *)
Definition real_range (lo hi : R) : R * R := if Req_bool lo hi then (lo - / 2, hi + / 2)%R else (lo, hi).
Definition bin_of (lo hi v : R) : nat :=
  let '(lo, hi) := real_range lo hi in
  let b := Z.to_nat (up (INR 10 * ((v - lo) / (hi - lo))) - 1) in
  if b =? 10 then 9 else b.
Definition in_range (lo hi v : R) : bool := let '(lo, hi) := real_range lo hi in Rle_bool lo v && Rle_bool v hi.
Definition histogram (values : list R) (lo hi : R) : list nat :=
  map (fun b => List.length (filter (fun v => in_range lo hi v && (bin_of lo hi v =? b)) values)) (seq 0 10).

(** a.min(), a.max(): ValueError for an empty array. *)
Definition np_min (l : list R) : result R := match l with [] => Err ValueError | x :: l' => Ok (fold_left Rmin l' x) end.
Definition np_max (l : list R) : result R := match l with [] => Err ValueError | x :: l' => Ok (fold_left Rmax l' x) end.

(** internal_histograms_by_label (lines 66-72). *)
Definition internal_histograms_by_label (values : list R) (by_labels_idx : list (list nat)) : result (list (list nat)) :=
  lo <- np_min values ;; hi <- np_max values ;;
  mapM (fun idx => v <- mapM (fun i => py_nth values (Z.of_nat i)) idx ;; Ok (histogram v lo hi)) by_labels_idx.

(** _sum_all_but_i (lines 75-79), for rows of ten numbers. *)
Definition sum_all_but_i (a : list (list nat)) (i : nat) : list nat :=
  map (fun b => list_sum (map (fun q => if fst q =? i then 0 else nth b (snd q) 0) (enumerate a))) (seq 0 10).

(** mutual_information_by_label (lines 82-90).  The parameter by_labels_idx is not used: the
    function reads the global variable by_label. *)
Definition joint (hists : list (list nat)) (i : nat) : list (list R) :=
  let rows := [nth i hists []; sum_all_but_i hists i] in
  let t := INR (list_sum (map list_sum rows)) in
  map (map (fun c => (INR c / t)%R)) rows.
Definition mutual_information_by_label (by_label : list (list nat)) (internal_values : list R) (by_labels_idx : list (list nat)) : result (list R) :=
  hists <- internal_histograms_by_label internal_values by_label ;;
  mapM (fun i => mutual_information (nd_model.mat 10 (joint hists i))) (seq 0 (List.length hists)).

(** Lines 137-144: one list for each coefficient (the rows of the array before .T).
    [internal] is given by its columns. *)
Definition info_matrix (labels : list nat) (n_labels : nat) (internal : list (list R)) : result (list (list R)) :=
  by_label <- organize_by_values (map Z.of_nat labels) (Some n_labels) ;;
  mapM (fun values => mutual_information_by_label by_label values by_label) internal.

(** plot_mutual_info (lines 93-101): the numbers written below the columns, and the matrix
    that is drawn.  [K] is a global variable.  A None in perm is not an index. *)
Definition negative (m : Qmatrix) : Qmatrix := @Matrix Qarith (map (map Qopp) (mrows m)) (mcols m).
Definition take_cols (m : Qmatrix) (idx : list nat) : result (list (list Q)) :=
  mapM (fun row => mapM (fun j => py_nth row (Z.of_nat j)) idx) (mrows m).
Definition is_in (i : nat) (perm : list (option nat)) : bool := existsb (fun o => match o with Some j => i =? j | None => false end) perm.
Definition plot_mutual_info (fuel K : nat) (m : Qmatrix) : result (list (option nat) * list (list Q)) :=
  perm <- min_weight_perm fuel (negative m) ;;
  let not_in_perm := filter (fun i => negb (is_in i perm)) (seq 0 K) in
  cols <- mapM (fun o => match o with Some j => Ok j | None => Err IndexError end) perm ;;
  a <- take_cols m cols ;;
  b <- take_cols m not_in_perm ;;
  Ok ((perm ++ map Some not_in_perm)%list, map (fun p => (fst p ++ snd p)%list) (combine a b)).
