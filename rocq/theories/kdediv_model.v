(** * Entropy and divergence of two dimensional samples (multimodal/lib/kde2d.py:131-176).

    Real numbers instead of floats, as in kde_model. *)

From Coq Require Import List ZArith Arith Reals Bool String.
Import ListNotations.
From Verif Require Import Py hac_model quant_model kde_model.
Open Scope py_scope.
Local Open Scope R_scope.

(** Call of a Python function: names of the parameters, whether they have a default value;
    number of positional arguments, names of the others. *)
Definition call_check (params : list (string * bool)) (positional : nat) (keywords : list string) : result unit :=
  if (List.length params <? positional)%nat then Err TypeError
  else if negb (forallb (fun k => existsb (fun p => String.eqb k (fst p)) (skipn positional params)) keywords) then Err TypeError
  else if negb (forallb (fun p => snd p || existsb (String.eqb (fst p)) keywords) (skipn positional params)) then Err TypeError
  else Ok tt.
(** kde2d.py:81 *)
Definition gaussian_kde_2d_params : list (string * bool) :=
  [("samples", false); ("h_x", false); ("h_y", false); ("nb_bins", false); ("fft", true); ("bounds", true)]%string.

Section Two.
Variable float_index : bool.

(** trapz(trapz(a, dx=inner, axis=1), dx=outer): along the rows, then along the column of
    results. *)
Definition trapz2 (a : list (list R)) (inner outer : R) : R := trapz (map (fun row => trapz row inner) a) outer.
(** Two arrays of the same shape, item by item. *)
Definition map2 (f : R -> R -> R) (a b : list (list R)) : list (list R) :=
  map (fun rs => map (fun xy => f (fst xy) (snd xy)) (combine (fst rs) (snd rs))) (combine a b).

(** kde2d.py:131-146: the call of line 140 gives two positional arguments.  The third one of
    the call below stands for a value that does not exist: it is not reached. *)
Definition kde_entropy_gaussian_2d (samples : mat R) (h : R) (nb_bins : Z) (fft : bool) : result R :=
  call_check gaussian_kde_2d_params 2 ["nb_bins"; "fft"]%string ;;;
  gk <- gaussian_kde_2d float_index samples h h nb_bins fft None ;;
  let '(x_grid, y_grid, kde) := gk in
  second_x <- py_nth x_grid 1 ;; first_x <- py_nth x_grid 0 ;;
  second_y <- py_nth y_grid 1 ;; first_y <- py_nth y_grid 0 ;;
  Ok (trapz2 (map (map (fun p => - p * ln (p + EPSILON))) kde) (second_y - first_y) (second_x - first_x)).

(** np.min and np.max with axis=0 of an array with two columns, as the pair of the two
    values; other numbers of columns are refused later with the same exception (vstack,
    kde2d.py:158, or get_bins_2d, kde2d.py:37-38), so that they are refused here. *)
Definition columns (f : list R -> result R) (m : mat R) : result (R * R) :=
  if negb (mcols m =? 2)%nat then Err ValueError
  else
    a <- f (map (fun r => fst (pair_of r)) (mrows m)) ;;
    b <- f (map (fun r => snd (pair_of r)) (mrows m)) ;;
    Ok (a, b).
(** kde2d.py:148-176; the steps of the two integrals are those of lines 171-175. *)
Definition kde_KL_divergence_2d (x y : mat R) (h_x h_y : R) (nb_bins : Z) (fft : bool) : result R :=
  min_x <- columns np_min x ;; min_y <- columns np_min y ;;
  max_x <- columns np_max x ;; max_y <- columns np_max y ;;
  let b := Some ((Rmin (fst min_x) (fst min_y), Rmin (snd min_x) (snd min_y)),
                 (Rmax (fst max_x) (fst max_y), Rmax (snd max_x) (snd max_y))) in
  gx <- gaussian_kde_2d float_index x h_x h_y nb_bins fft b ;;
  gy <- gaussian_kde_2d float_index y h_x h_y nb_bins fft b ;;
  let '(x_grid, y_grid, kde_x) := gx in
  let '(_, _, kde_y) := gy in
  second_x <- py_nth x_grid 1 ;; first_x <- py_nth x_grid 0 ;;
  second_y <- py_nth y_grid 1 ;; first_y <- py_nth y_grid 0 ;;
  Ok (trapz2 (map2 (fun p q => - p * ln ((p + EPSILON) / (q + EPSILON))) kde_x kde_y) (second_x - first_x) (second_y - first_y)).
End Two.
