(** * Model of the figures and tables of recorded scores
    (plots.py, lines 13-190; lib/plot.py, lines 81-146; lib/logger.py, lines 65-67;
    experiment.py, lines 291-319 and 377-404).

    A figure is the list of what is drawn in it; axes, legends, fonts, titles and the
    rendering of matplotlib are not modelled, and a box is given by the values that it
    summarises. Numbers are real numbers, without rounding. *)

From Coq Require Import List ZArith Reals Bool Arith String QArith Qreals.
Import ListNotations.
From Verif Require Import Py nd_model logger_model experiment_model.
Open Scope py_scope.
Local Open Scope nat_scope.
Notation Q := QArith_base.Q.

(** What numpy sums: numbers and booleans. None, strings and dictionaries raise TypeError;
    lists and arrays, that would add a dimension, raise TypeError here. *)
Definition number (v : val) : result R :=
  match v with
  | VFloat q => Ok (Q2R q)
  | VInt z => Ok (IZR z)
  | VBool b => Ok (if b then 1%R else 0%R)
  | _ => Err TypeError
  end.

(** np.mean and np.std of a list of numbers; of an empty one they are nan in Python, and 0
    here. *)
Definition np_sum (l : list R) : R := fold_left Rplus l 0%R.
Definition np_mean (l : list R) : R := (np_sum l / INR (List.length l))%R.
Definition np_std (l : list R) : R := sqrt (np_mean (map (fun v => (v - np_mean l) * (v - np_mean l))%R l)).

(** ** Statistics of the logger (lib/logger.py:65-67) *)
Definition get_stats (w : world) (i : nat) (key : string) : result (R * R) :=
  vals <- get_values w i key ;;
  l <- mapM number vals ;;
  Ok (np_mean l, np_std l).

(** ** Colours (plots.py:13-24, 34-38)

    The first colours of TEN_COLORS (lib/plot.py:25-36). *)
Definition color := string.
Definition COLORS : list (string * color) :=
  [("motion", "#006EB8"); ("image", "orange"); ("sound", "#3C8031")]%string.
Definition PAIRS_COLORS : list ((string * string) * color) :=
  [(("image", "motion"), "#3989d4"); (("motion", "image"), "#ffad4c"); (("motion", "sound"), "#ff728d");
   (("sound", "motion"), "#a8efa0"); (("image", "sound"), "#a0c2fc"); (("sound", "image"), "#eba7f7")]%string.
Definition pair_eqb (a b : string * string) : bool := String.eqb (fst a) (fst b) && String.eqb (snd a) (snd b).
(** [pairs] is colors == 'pairs'. *)
Definition get_color_for_modalities (mods1 mods2 : list string) (pairs : bool) : result color :=
  if pairs then
    m1 <- py_nth mods1 0 ;; m2 <- py_nth mods2 0 ;;
    match dict_get pair_eqb PAIRS_COLORS (m1, m2) with Some c => Ok c | None => Err KeyError end
  else
    m2 <- py_nth mods2 0 ;;
    match dict_get String.eqb COLORS m2 with Some c => Ok c | None => Err KeyError end.

(** ** Pairs of modalities (plots.py:41-54) *)
Definition mod_to_mod_str (mod1 mod2 : string) : string := (mod1 ++ " $\rightarrow$ " ++ mod2)%string.
Definition all_pairs (l : list string) : list (list string * list string) :=
  flat_map (fun i => map (fun j => ([i], [j])) (filter (fun j => negb (String.eqb i j)) l)) l.
Definition combinations (l : list string) : list (list string * list string) :=
  all_pairs l ++ map (fun i => (filter (fun j => negb (String.eqb j i)) l, [i])) l.

(** ** Curves (lib/plot.py:81-111, plots.py:57-67) *)
Inductive style := Solid | Dashed.
(** The points of the curve, half the height of the variation at each point, whether it
    is drawn with bars (or as a filled area), colour and style. *)
Record curve := Curve { c_points : list (nat * R); c_var : list R; c_bars : bool; c_color : color; c_style : style }.

(** np.mean(y, axis=1) and np.std(y, axis=1): [y] needs two dimensions. *)
Definition rectangular {A} (y : list (list A)) : bool :=
  match y with
  | [] => false
  | r :: y' => forallb (fun r' => List.length r' =? List.length r) y'
  end.
(** plot_var with [x] given, var being True and var_style 'bar' or 'fill'; plot and
    errorbar compare the lengths of their arguments. *)
Definition plot_var (y : list (list val)) (x : list nat) (bars : bool) (c : color) (s : style) : result curve :=
  (if rectangular y then Ok tt else Err ValueError) ;;;
  rows <- mapM (mapM number) y ;;
  if List.length x =? List.length rows then Ok (Curve (combine x (map np_mean rows)) (map np_std rows) bars c s)
  else Err ValueError.

(** plot_one_curve: [metric] is not used. The logs are references to loggers of [w]. *)
Definition plot_one_curve (w : world) (loggers : list nat) (mods : list string * list string) (ks : list nat)
  (metric : string) (linestyle : style) (bars : bool) : result curve :=
  res <- mapM (fun ik => lg <- py_nth loggers (Z.of_nat (fst ik)) ;;
                         get_values w lg ("score_" ++ join (fst mods) ++ "2" ++ join (snd mods))%string) (enumerate ks) ;;
  c <- get_color_for_modalities (fst mods) (snd mods) true ;;
  plot_var res ks bars c linestyle.

(** plot_k_graphs (plots.py:70-80); [loggers] is a dictionary from pairs of modalities. *)
Definition plot_k_graphs (w : world) (loggers : list ((string * string) * list nat)) (ks : list nat) (metric : string) : result (list curve) :=
  cs <- mapM (fun l => let '((mod1, mod2), logs) := l in
    c1 <- plot_one_curve w logs ([mod1], [mod2]) ks metric Solid false ;;
    c2 <- plot_one_curve w logs ([mod2], [mod1]) ks metric Solid false ;;
    Ok [c1; c2]) loggers ;;
  Ok (List.concat cs).

(** plot_2k_graphs (plots.py:83-108): the curves, and the entries of the first legend. *)
Definition plot_2k_graphs (w : world) (loggers : list (list ((string * string) * list nat))) (ks : list nat) (metric : string)
  : result (list curve * list (string * curve)) :=
  lines <- mapM (fun ls => let '(logs, linestyle) := ls in
    mapM (fun l => let '((mod1, mod2), lg) := l in
      l1 <- plot_one_curve w lg ([mod1], [mod2]) ks metric linestyle true ;;
      l2 <- plot_one_curve w lg ([mod2], [mod1]) ks metric linestyle true ;;
      Ok [(mod_to_mod_str mod1 mod2, l1); (mod_to_mod_str mod2 mod1, l2)]) logs) (combine loggers [Solid; Dashed]) ;;
  first <- py_nth lines 0 ;;
  Ok (map snd (List.concat (List.concat lines)), fold_left (fun d e => dict_set String.eqb d (fst e) (snd e)) (List.concat first) []).

(** ** Boxes (plots.py:111-143) *)

(** ', '.join *)
Fixpoint join_with (sep : string) (l : list string) : string :=
  match l with
  | [] => ""
  | [a] => a
  | a :: l' => (a ++ sep ++ join_with sep l')%string
  end.
Record box := Box { b_values : list R; b_color : color; b_label : string }.

(** plot_boxes_one_exp: with Python 2 ([py2]) zip gives the list that plt.Polygon
    needs; with Python 3 the Polygon of a zip object raises TypeError. *)
Definition plot_boxes_one_exp (py2 : bool) (w : world) (i : nat) (mods_to_mods : list (list string * list string)) (pairs : bool)
  : result (list box) :=
  vals <- mapM (fun m => get_values w i ("score_" ++ join (fst m) ++ "2" ++ join (snd m) ++ "_cosine")%string) mods_to_mods ;;
  boxes <- mapM (mapM number) vals ;;
  mapM (fun bm => let '(b, m) := bm in
    c <- get_color_for_modalities (fst m) (snd m) pairs ;;
    (if py2 then Ok tt else Err TypeError) ;;;
    Ok (Box b c (join_with ", " (fst m) ++ " $\rightarrow$ " ++ join_with ", " (snd m))%string)) (combine boxes mods_to_mods).
Definition plot_boxes_one_exp_pairs (py2 : bool) (w : world) (i : nat) (mods : list string) (pairs : bool) : result (list box) :=
  plot_boxes_one_exp py2 w i (all_pairs mods) pairs.

(** Iteration of logger.get_value('modalities'), for a list or a tuple of names. *)
Definition names_of (v : val) : result (list string) :=
  match v with
  | VList l | VTuple l => mapM (fun s => match s with VStr s => Ok s | _ => Err TypeError end) l
  | _ => Err TypeError
  end.

(** plot_boxes (plots.py:146-169): the boxes of the pairs, each with its modalities, and
    those of the log of three modalities; ax1 is not bound without pairs. *)
Definition plot_boxes (py2 : bool) (w : world) (loggers2 : list ((string * string) * nat)) (logger3 : nat)
  : result (list (string * list box) * (string * list box)) :=
  panels <- mapM (fun l => let '((m1, m2), lg) := l in
    b <- plot_boxes_one_exp_pairs py2 w lg [m1; m2] true ;;
    Ok (join_with ", " [m1; m2], b)) loggers2 ;;
  (match loggers2 with [] => Err UnboundLocalError | _ => Ok tt end) ;;;
  v <- get_value w logger3 "modalities" ;;
  mods <- names_of v ;;
  b <- plot_boxes_one_exp_pairs py2 w logger3 mods true ;;
  Ok (panels, (join_with ", " mods, b)).

(** np.split(_, 3): three parts of the same size, or else ValueError. *)
Definition split3 {A} (l : list A) : result (list (list A)) :=
  let n := List.length l / 3 in
  if List.length l =? 3 * n then Ok [firstn n l; firstn n (skipn n l); skipn (2 * n) l] else Err ValueError.
(** plot_boxes_all_mods (plots.py:172-186): the boxes and the groups of the legends. *)
Definition plot_boxes_all_mods (py2 : bool) (w : world) (logger3 : nat) : result (list box * list (list box)) :=
  v <- get_value w logger3 "modalities" ;;
  mods <- names_of v ;;
  b <- plot_boxes_one_exp py2 w logger3 (combinations mods) false ;;
  g <- split3 b ;;
  Ok (b, g).

(** plot_boxes_by_feats (plots.py:189-205); the titles are not modelled. *)
Definition plot_boxes_by_feats (py2 : bool) (w : world) (loggers : list (list string * nat)) : result (list (list box)) :=
  b <- mapM (fun l => plot_boxes_one_exp_pairs py2 w (snd l) ["image"; "sound"]%string true) loggers ;;
  (match loggers with [] => Err UnboundLocalError | _ => Ok tt end) ;;;
  Ok b.

(** ** Tables *)

(** A printed line: names, then averages and deviations (printed with three digits). *)
Definition line := (list string * list (R * R))%type.
Definition metrics : list string := [""; "_frob"; "_cosine"]%string.

(** TwoModalitiesExperiment.print_result_table (experiment.py:291-319): the lines that are
    printed, and the exception that ends it, if any. *)
Fixpoint print_lines {A} (f : A -> result line) (l : list A) : list line * result unit :=
  match l with
  | [] => ([], Ok tt)
  | a :: l' =>
      match f a with
      | Ok r => let '(rs, e) := print_lines f l' in (r :: rs, e)
      | Err e => ([], Err e)
      end
  end.
Definition two_line (w : world) (x : experiment) (c : (nat * nat) * (option nat * string)) : result line :=
  let '((m1, m2), (cmp, name)) := c in
  n1 <- py_nth (x_mods x) (Z.of_nat m1) ;;
  n2 <- py_nth (x_mods x) (Z.of_nat m2) ;;
  res <- mapM (fun s => get_stats w 0 (score_key (x_mods x) m1 m2 cmp s)) metrics ;;
  Ok ([n1; n2; name], res).
Definition print_two (w : world) (x : experiment) : list line * result unit :=
  print_lines (two_line w x)
    (list_prod [(0, 1); (1, 0)] ((None, "internal"%string) :: map (fun p => (Some (fst p), snd p)) (enumerate (x_mods x)))).

(** ThreeModalitiesExperiment.print_result_table (experiment.py:377-404): "{:.3f} ({:.3f})".format of
    one tuple: '.3f' of a tuple raises TypeError, or ValueError with Python 2. *)
Definition three_line (py2 : bool) (w : world) (x : experiment) (c : list nat * list nat) : result line :=
  n1 <- mapM (fun m => py_nth (x_mods x) (Z.of_nat m)) (fst c) ;;
  n2 <- mapM (fun m => py_nth (x_mods x) (Z.of_nat m)) (snd c) ;;
  res <- mapM (fun s => _ <- get_stats w 0 (three_key (x_mods x) (fst c) (snd c) s) ;; @Err (R * R) (if py2 then ValueError else TypeError)) metrics ;;
  Ok ([join_with " & " n1; join_with " & " n2], res).
Definition print_three (py2 : bool) (w : world) (x : experiment) : list line * result unit :=
  print_lines (three_line py2 w x) (tested_combinations (List.length (x_mods x))).
