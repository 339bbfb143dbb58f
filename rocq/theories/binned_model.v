(** * Binned histograms of joint angles (multimodal/features/angle_histograms.py).

    Lines 82-85 and 97-155; the rest of the file is in transf_model and angle_model.
    As in kde_model, [float_index] tells that numpy accepts indices that are floating
    point numbers, as it did before 1.12.  These versions of numpy also accept the
    iterators given to hstack and vstack under Python 3, which is why the two Pythons
    do the same here; recent ones refuse them (TypeError), which is not modelled: they
    fail anyway. *)

From Coq Require Import List ZArith Reals Bool String.
Import ListNotations.
From Verif Require Import Py utils_model hac_model transf_model angle_model kde_model.
Open Scope py_scope.
Local Open Scope R_scope.

(** angle_histograms.py:82-85 *)
Definition get_bounds (arrays : list (list (list R))) : result (R * R) :=
  if (List.length arrays =? 0)%nat then Err ValueError
  else
    let values := List.concat (List.concat arrays) in
    min_vel <- np_min values ;;
    max_vel <- np_max values ;;
    Ok (min_vel, max_vel).

(** int(np.sqrt(nb_bins)), line 140; the root of a negative number is nan, of which
    int raises ValueError. *)
Definition int_sqrt (n : Z) : result Z := if (n <? 0)%Z then Err ValueError else Ok (Z.sqrt n).

Section Binned.
Variable float_index : bool.

(** One estimate for each degree of freedom of an example (lines 141-149). *)
Definition to_gauss_kdes (h h_vel : R) (nb : Z) (bounds vel_bounds : R * R) (fft : bool)
    (x : list (list R) * list (list R)) : result (list (list (list R))) :=
  mapM (fun dim =>
    a <- column (fst x) dim ;;
    v <- column (snd x) dim ;;
    samples <- two_columns a v ;;
    kde <- gaussian_kde_2d float_index samples h h_vel nb fft
             (Some ((fst bounds, fst vel_bounds), (snd bounds, snd vel_bounds))) ;;
    Ok (snd kde))
    (seq 0 (List.length (hd [] (fst x)))).

(** np.vstack of arrays of one dimension (line 154). *)
Definition stack_rows (rows : list (list R)) : result (list (list R)) :=
  match rows with
  | [] => Err ValueError
  | r :: _ => if forallb (fun r' => (List.length r' =? List.length r)%nat) rows then Ok rows else Err ValueError
  end.

(** angle_histograms.py:97-155.  The parameters vel_delay and vel_padding are not
    used by the code, which always passes 1 and 'zeros'. *)
Definition db_to_binned_hist_matrix (v : python) (marker_names : list string)
    (records : list (list (list (list R)))) (vel_delay : Z) (vel_padding : padding)
    (nb_bins : Z) (bounds vel_bounds : option (R * R)) (rel_h : R) (fft : bool) : result (list (list R)) :=
  av <- db_to_angles_and_vels marker_names records 1 Zeros ;;
  b <- match bounds with None => get_bounds (fst av) | Some b => Ok b end ;;
  let angles := match bounds with None => AsList (fst av) | Some b => filter_values v (fst av) b end in
  vb <- match vel_bounds with None => get_bounds (snd av) | Some b => Ok b end ;;
  let vels := match vel_bounds with None => AsList (snd av) | Some b => filter_values v (snd av) b end in
  let h := rel_h * (snd b - fst b) in
  let h_vel := rel_h * (snd vb - fst vb) in
  nb_bins_sqrt <- int_sqrt nb_bins ;;
  kdes <- mapM (to_gauss_kdes h h_vel nb_bins_sqrt b vb fft) (combine (elements angles) (elements vels)) ;;
  let hist := map (map (@List.concat R)) kdes in
  rows <- mapM hstack1 hist ;;
  stack_rows rows.
End Binned.
