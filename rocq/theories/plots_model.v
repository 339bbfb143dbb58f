(** * Model of the plots of similarities along time (multimodal/plots.py:196-386).

    What is given to matplotlib is the value of [draw]; how it is put on the
    screen is not modelled.  Numbers are rationals.  A sliding window enters
    only by its absolute_start and absolute_end.  The windows of the records
    are those of window_model.  Of plot_rc only the three keys with boolean
    values are modelled; the others are colours and sizes. *)

From Coq Require Import List ZArith QArith Bool String.
Import ListNotations.
From Verif Require Import Py pairing_model window_model.
Open Scope py_scope.
Local Open Scope nat_scope.
Notation length := List.length.

(** An array with two axes, or a list of names; a list cannot be indexed by
    [i, :] (plots.py:218). *)
Inductive argument := Array (rows : list (list Q)) | Names (l : list string).
Definition get_row (x : argument) (i : nat) : result (list Q) :=
  match x with
  | Array rows => py_nth rows (Z.of_nat i)
  | Names _ => Err TypeError
  end.

(** Dictionaries of parameters, and dict.update. *)
Definition settings := list (string * bool).
Definition update_settings (d u : settings) : settings :=
  fold_left (fun d kv => dict_set String.eqb d (fst kv) (snd kv)) u d.
Definition setting (d : settings) (k : string) : result bool :=
  match dict_get String.eqb d k with Some b => Ok b | None => Err KeyError end.

(** default_plot_rc (plots.py:201-209). *)
Definition default_rc : settings :=
  [("draw_sentence_boundaries", true); ("use_relative_time", false); ("print_sentences", true)]%string.

Section Plots.
Context {O A P : Type} (files : wavfiles P A).
Notation leaf := (leaf O A P).

Record score_plot := ScorePlot {
  sp_current : Q * Q; sp_records : list leaf; sp_sliding : list (Q * Q);
  sp_similarity : list (basic (list Q)); sp_labels : argument; sp_rc : settings;
  sp_is_test : option (O -> bool) }.

(** __init__ (plots.py:211-224).  [plot_rc] is None only if it is given so: then
    update raises TypeError. *)
Definition new_score_plot (records : list leaf) (sliding : list (Q * Q)) (similarities labels : argument)
  (plot_rc : option settings) (is_test : option (O -> bool)) : result score_plot :=
  similarity <- mapM (fun p => row <- get_row similarities (fst p) ;;
                               Ok (Basic (fst (snd p)) (snd (snd p)) (Some row))) (enumerate sliding) ;;
  match plot_rc with
  | None => Err TypeError
  | Some rc => Ok (ScorePlot (0, 20)%Q records sliding similarity labels (update_settings default_rc rc) is_test)
  end.

(** is_test (plots.py:226-234). *)
Definition is_test (p : score_plot) (r : O) : bool :=
  match sp_is_test p with None => true | Some f => f r end.

(** subwindows (plots.py:236-238). *)
Definition subwindows (p : score_plot) : result (list leaf) :=
  concat_get_subwindow files (sp_records p) (fst (sp_current p)) (snd (sp_current p)).

(** time_in_current (plots.py:240-245). *)
Definition time_in_current (p : score_plot) (t : Q) : bool :=
  match check_time (fst (sp_current p)) (snd (sp_current p)) t with Ok _ => true | Err _ => false end.

(** mean_time (window.py:79-80) from the bounds. *)
Definition mean_of (w : Q * Q) : Q := ((1 # 2) * (snd w + fst w))%Q.

(** filter_windows (plots.py:247-249), given the bounds of a window. *)
Definition filter_windows {W} (bounds : W -> Q * Q) (p : score_plot) (ws : list W) : list W :=
  filter (fun w => time_in_current p (mean_of (bounds w))) ws.

(** relative_time (plots.py:251-257). *)
Definition relative_time (relative : bool) (p : score_plot) (t : Q) : Q :=
  if relative then (t - fst (sp_current p))%Q else t.

(** max(a, b) and min(a, b) of Python, and max of a sequence. *)
Definition max2 (a b : Q) : Q := if Qlt_bool a b then b else a.
Definition min2 (a b : Q) : Q := if Qlt_bool b a then b else a.
Definition py_max (l : list Q) : result Q :=
  match l with [] => Err ValueError | a :: l' => Ok (fold_left max2 l' a) end.

(** What is given to matplotlib: the abscissas and the rows of the curves, the
    segments (bounds and height) of the windows, the sentences (abscissa, record,
    whether it is a test record), the vertical lines and the bounds of the axis. *)
Record drawing := Drawing {
  d_times : list Q; d_rows : list (list Q); d_segments : list (Q * Q * Q);
  d_sentences : list (Q * O * bool); d_lines : list Q; d_axis : Q * Q; d_legend : argument }.

Definition obj_of (w : basic (list Q)) : list Q := match b_obj w with Some r => r | None => [] end.

(** The text for one sentence (plots.py:299-306): w.obj.trans. *)
Definition sentence (relative : bool) (p : score_plot) (w : leaf) : result (Q * O * bool) :=
  match w with
  | LB b =>
      match b_obj b with
      | Some r => Ok (relative_time relative p (mean_of (b_start b, b_end b)), r, is_test p r)
      | None => Err AttributeError
      end
  | _ => Err AttributeError
  end.

(** draw (plots.py:259-313). *)
Definition draw (p : score_plot) : result drawing :=
  relative <- setting (sp_rc p) "use_relative_time" ;;
  let filtered := filter_windows (fun w => w) p (sp_sliding p) in
  let rel := relative_time relative p in
  let times := map (fun w => rel (mean_of w)) filtered in
  let boundaries := map (fun w => (max2 (rel (fst w)) (rel (fst (sp_current p))),
                                   min2 (rel (snd w)) (rel (snd (sp_current p))))) filtered in
  let similarities := map obj_of (filter_windows (fun w => (b_start w, b_end w)) p (sp_similarity p)) in
  segments <- mapM (fun q => y <- py_max (snd q) ;; Ok (fst q, y)) (combine boundaries similarities) ;;
  subs <- subwindows p ;;
  text <- setting (sp_rc p) "print_sentences" ;;
  lines <- setting (sp_rc p) "draw_sentence_boundaries" ;;
  sentences <- (if text then mapM (sentence relative p) subs else Ok []) ;;
  Ok (Drawing times similarities segments sentences
              (if lines then map (fun w => rel (w_end w)) subs else [])
              (rel (fst (sp_current p)), rel (snd (sp_current p))) (sp_labels p)).

(** InteractivePlot.__init__ (plots.py:333-341): its parameters are named
    (record_wins, sliding_wins, example_labels, similarities) and are given in this
    order to ScorePlot, whose third and fourth parameters are similarities and
    example_labels.  The sliders are not modelled. *)
Definition new_interactive (records : list leaf) (sliding : list (Q * Q)) (example_labels similarities : argument)
  (is_test : option (O -> bool)) (plot_rc : option settings) : result (score_plot * drawing) :=
  p <- new_score_plot records sliding example_labels similarities plot_rc is_test ;;
  d <- draw p ;;
  concat_end records ;;;
  Ok (p, d).

(** set of current.absolute_start and current.absolute_end. *)
Definition with_current (p : score_plot) (a b : Q) : score_plot :=
  ScorePlot (a, b) (sp_records p) (sp_sliding p) (sp_similarity p) (sp_labels p) (sp_rc p) (sp_is_test p).

(** InteractivePlot.update (plots.py:350-355), [start] and [width] being the
    values of the sliders. *)
Definition update (p : score_plot) (start width : Q) : score_plot * result drawing :=
  let p := with_current p start (start + width) in (p, draw p).

(** on_key (plots.py:357-366): the new values of the sliders; the other keys do
    nothing. *)
Definition on_key (key : string) (start width : Q) : option Q :=
  if String.eqb key "right" then Some (start + 1 * (1 # 2) * width)%Q
  else if String.eqb key "left" then Some (start + - (1) * (1 # 2) * width)%Q
  else None.

(** plot_one_sentence (plots.py:369-386): the plot and its first drawing; the
    title and the annotations are in annotate_model. *)
Definition plot_one_sentence (record_win : leaf) (sliding : list (Q * Q)) (example_labels similarities : argument)
  (plot_rc : settings) : result (score_plot * drawing) :=
  let rc := update_settings [("draw_sentence_boundaries", false); ("use_relative_time", true); ("print_sentences", false)]%string plot_rc in
  records <- new_concat [record_win] ;;
  p <- new_score_plot records sliding example_labels similarities (Some rc) None ;;
  let p := with_current p (w_start record_win) (w_end record_win) in
  d <- draw p ;;
  Ok (p, d).

End Plots.
