(** * Model of the kernel density estimators of multimodal/lib/kde1d.py and kde2d.py.

    Numbers are exact reals: rounding, NaN and infinities are not modelled (so
    the bounds must not be equal).  The bins of the samples are computed by
    np.floor, as floats; numpy before 1.12 accepts them as indices and later
    versions raise IndexError: [float_index] tells which.  Convolutions by FFT
    and direct ones are the same.  In Python 2 the divisions of kde2d.py are
    supposed to be divisions of floats. *)

From Coq Require Import List ZArith Reals Bool.
Import ListNotations.
From Verif Require Import Py hac_model quant_model.
Open Scope py_scope.
Local Open Scope R_scope.

(** np.min and np.max of one dimensional arrays. *)
Definition np_min (x : list R) : result R :=
  match x with [] => Err ValueError | a :: l => Ok (fold_left Rmin l a) end.
Definition np_max (x : list R) : result R :=
  match x with [] => Err ValueError | a :: l => Ok (fold_left Rmax l a) end.
(** np.floor is [Int_part]; ceil is used by np.arange. *)
Definition ceil (x : R) : Z := (- Int_part (- x))%Z.
(** np.arange of floats. *)
Definition arange (start stop step : R) : list R :=
  map (fun i => start + INR i * step) (seq 0 (Z.to_nat (ceil ((stop - start) / step)))).
(** x_min + (np.arange(n) * delta) *)
Definition grid (x_min delta : R) (n : nat) : list R := map (fun i => x_min + INR i * delta) (seq 0 n).

Section Bins.
Variable float_index : bool.

Definition item {A} (l : list A) (b : Z) : result A := if float_index then py_nth l b else Err IndexError.
(** a[b] += w *)
Definition add_item (l : list R) (b : Z) (w : R) : result (list R) :=
  v <- item l b ;; py_set l b (v + w).

(** kde1d.py:40-47; also used for the bounds of two dimensional samples without
    the check. *)
Definition bounds_1d (x : list R) (bounds : option (R * R)) : result (R * R) :=
  match bounds with
  | None => lo <- np_min x ;; hi <- np_max x ;; Ok (lo, hi)
  | Some (x_min, x_max) =>
      lo <- np_min x ;; hi <- np_max x ;;
      if Rlt_dec lo x_min then Err ValueError
      else if Rlt_dec x_max hi then Err ValueError
      else Ok (x_min, x_max)
  end.

(** One sample (kde1d.py:62-66). *)
Definition bin_sample (x_grid : list R) (x_min delta weight : R) (bins : list R) (x : R) : result (list R) :=
  let b := Int_part ((x - x_min) / delta) in
  right <- item x_grid (b + 1) ;;
  left <- item x_grid b ;;
  bins <- add_item bins b (weight * (right - x) / delta) ;;
  add_item bins (b + 1) (weight * (x - left) / delta).

(** kde1d.py:17-68 *)
Definition get_bins_1d (x : list R) (nb_bins : Z) (bounds : option (R * R)) : result (list R * list R) :=
  if (nb_bins <? 2)%Z then Err ValueError
  else
    mm <- bounds_1d x bounds ;;
    let delta := (snd mm - fst mm) / IZR (nb_bins - 1) in
    let x_grid := grid (fst mm) delta (Z.to_nat nb_bins + 1) in
    let weight := 1 / (INR (length x) * delta) in
    bins <- foldM (bin_sample x_grid (fst mm) delta weight) x (repeat 0 (Z.to_nat nb_bins + 1)) ;;
    Ok (removelast x_grid, removelast bins).

(** ** Two dimensions *)
(** a[i, j] += w *)
Definition add_item2 (m : list (list R)) (i j : Z) (w : R) : result (list (list R)) :=
  row <- item m i ;; row <- add_item row j w ;; py_set m i row.

(** One sample (kde2d.py:69-77). *)
Definition bin_sample2 (x_grid y_grid : list R) (x_min y_min delta_x delta_y weight : R)
    (bins : list (list R)) (s : R * R) : result (list (list R)) :=
  let xb := Int_part ((fst s - x_min) / delta_x) in
  let yb := Int_part ((snd s - y_min) / delta_y) in
  gr <- item x_grid (xb + 1) ;;
  gu <- item y_grid (yb + 1) ;;
  gl <- item x_grid xb ;;
  gb <- item y_grid yb ;;
  let weight_left := (gr - fst s) / delta_x in
  let weight_bottom := (gu - snd s) / delta_y in
  let weight_right := (fst s - gl) / delta_x in
  let weight_up := (snd s - gb) / delta_y in
  bins <- add_item2 bins xb yb (weight * weight_left * weight_bottom) ;;
  bins <- add_item2 bins xb (yb + 1) (weight * weight_left * weight_up) ;;
  bins <- add_item2 bins (xb + 1) yb (weight * weight_right * weight_bottom) ;;
  add_item2 bins (xb + 1) (yb + 1) (weight * weight_right * weight_up).

(** The rows of an array with two columns. *)
Definition pair_of (row : list R) : R * R := (nth 0 row 0, nth 1 row 0).

(** kde2d.py:16-79.  [bounds] is None or ((x_min, y_min), (x_max, y_max)); its
    items are taken to be numpy numbers. *)
Definition get_bins_2d (samples : mat R) (nb_bins : Z) (bounds : option ((R * R) * (R * R)))
  : result (list R * list R * list (list R)) :=
  if (nb_bins <? 2)%Z then Err ValueError
  else if negb (mcols samples =? 2)%nat then Err ValueError
  else
    let pts := map pair_of (mrows samples) in
    b <- match bounds with
         | None => x_min <- np_min (map fst pts) ;; x_max <- np_max (map fst pts) ;;
                   y_min <- np_min (map snd pts) ;; y_max <- np_max (map snd pts) ;;
                   Ok ((x_min, y_min), (x_max, y_max))
         | Some b => Ok b
         end ;;
    let '((x_min, y_min), (x_max, y_max)) := b in
    let delta_x := (x_max - x_min) / IZR (nb_bins - 1) in
    let delta_y := (y_max - y_min) / IZR (nb_bins - 1) in
    let n := (Z.to_nat nb_bins + 1)%nat in
    let x_grid := grid x_min delta_x n in
    let y_grid := grid y_min delta_y n in
    let weight := 1 / (INR (length pts) * delta_x * delta_y) in
    bins <- foldM (bin_sample2 x_grid y_grid x_min y_min delta_x delta_y weight) pts
                  (repeat (repeat 0 n) n) ;;
    Ok (removelast x_grid, removelast y_grid, map (@removelast R) (removelast bins)).

(** ** Smoothing *)
(** scipy.convolve and fftconvolve of one dimensional arrays that are not empty. *)
Definition shifted (b : list R) (n k : nat) : R := if (n <? k)%nat then 0 else nth (n - k) b 0.
Definition convolve (a b : list R) : list R :=
  map (fun n => sum (map (fun k => nth k a 0 * shifted b n k) (seq 0 (length a))))
      (seq 0 (length a + length b - 1)).

(** The Gaussian kernel (kde1d.py:90-92). *)
Definition kernel (h x_range delta : R) : list R :=
  map (fun x => exp (- (1 / 2) / h ^ 2 * x ^ 2)) (arange (- x_range / 2) (x_range / 2) delta).

(** kde1d.py:71-103.  The printed warning is not modelled; h = 0 is taken to be a
    Python number. *)
Definition gaussian_kde_1d (x : list R) (h : R) (nb_bins : Z) (fft : bool) (bounds : option (R * R))
  : result (list R * list R) :=
  gb <- get_bins_1d x nb_bins bounds ;;
  let (x_grid, bins) := gb : list R * list R in
  last <- py_nth x_grid (-1) ;;
  first <- py_nth x_grid 0 ;;
  second <- py_nth x_grid 1 ;;
  let x_range := last - first in
  let delta := second - first in
  if Req_EM_T h 0 then Err ZeroDivisionError
  else
    let ker := kernel h x_range delta in
    let ker := map (fun k => k / sum ker) ker in
    Ok (x_grid, convolve bins ker).

(** scipy.integrate.trapz *)
Fixpoint trapz (y : list R) (dx : R) : R :=
  match y with
  | a :: ((b :: _) as y') => dx * (a + b) / 2 + trapz y' dx
  | _ => 0
  end.
(** kde1d.py:105 *)
Definition EPSILON : R := / IZR 100000000000000.

(** kde1d.py:107-121 *)
Definition kde_entropy_gaussian_1d (x : list R) (h : R) (nb_bins : Z) (fft : bool) : result R :=
  gk <- gaussian_kde_1d x h nb_bins fft None ;;
  let (g, kde) := gk : list R * list R in
  second <- py_nth g 1 ;;
  first <- py_nth g 0 ;;
  Ok (trapz (map (fun p => - p * ln (p + EPSILON)) kde) (second - first)).

(** kde1d.py:123-149 *)
Definition kde_KL_divergence_1d (x y : list R) (h : R) (nb_bins : Z) (fft : bool) : result R :=
  min_x <- np_min x ;; min_y <- np_min y ;;
  max_x <- np_max x ;; max_y <- np_max y ;;
  let b := Some (Rmin min_x min_y, Rmax max_x max_y) in
  gk <- gaussian_kde_1d x h nb_bins fft b ;;
  gk2 <- gaussian_kde_1d y h nb_bins fft b ;;
  second <- py_nth (fst gk) 1 ;;
  first <- py_nth (fst gk) 0 ;;
  Ok (trapz (map (fun pq => - fst pq * ln ((fst pq + EPSILON) / (snd pq + EPSILON)))
                 (combine (snd gk) (snd gk2))) (second - first)).

(** convolve2d and fftconvolve with mode='same': the central part, of the size of
    the first array, of the full convolution. *)
Definition width (m : list (list R)) : nat := length (hd [] m).
Definition full_2d (a b : list (list R)) (n m : nat) : R :=
  sum (map (fun k => sum (map (fun l =>
    nth l (nth k a []) 0 * (if (n <? k)%nat then 0 else shifted (nth (n - k) b []) m l))
    (seq 0 (width a)))) (seq 0 (length a))).
Definition convolve_same (a b : list (list R)) : list (list R) :=
  map (fun n => map (fun m => full_2d a b (n + (length b - 1) / 2) (m + (width b - 1) / 2))
                    (seq 0 (width a))) (seq 0 (length a)).

(** kde2d.py:81-127 *)
Definition gaussian_kde_2d (samples : mat R) (h_x h_y : R) (nb_bins : Z) (fft : bool)
    (bounds : option ((R * R) * (R * R))) : result (list R * list R * list (list R)) :=
  gb <- get_bins_2d samples nb_bins bounds ;;
  let '(x_grid, y_grid, bins) := gb in
  last_x <- py_nth x_grid (-1) ;; first_x <- py_nth x_grid 0 ;;
  last_y <- py_nth y_grid (-1) ;; first_y <- py_nth y_grid 0 ;;
  second_x <- py_nth x_grid 1 ;; second_y <- py_nth y_grid 1 ;;
  let x_range := last_x - first_x in
  let y_range := last_y - first_y in
  let x_ker_grid := arange (- x_range / 2) (x_range / 2) (second_x - first_x) in
  let y_ker_grid := arange (- y_range / 2) (y_range / 2) (second_y - first_y) in
  if Req_EM_T h_x 0 then Err ZeroDivisionError
  else if Req_EM_T h_y 0 then Err ZeroDivisionError
  else
    let ker := map (fun x => map (fun y => exp (- (1 / 2) / h_x ^ 2 * x ^ 2 + - (1 / 2) / h_y ^ 2 * y ^ 2))
                                 y_ker_grid) x_ker_grid in
    let s := sum (map sum ker) in
    let ker := map (map (fun k => k / s)) ker in
    Ok (x_grid, y_grid, convolve_same bins ker).
End Bins.
