(** * Model of the annotations of a plot of similarities (multimodal/plots.py:319-328, 369-386).

    Of the axes of matplotlib are modelled the title, the spans drawn by axvspan, the texts
    written by annotate and the limits of the vertical axis; axvspan and annotate leave these
    limits unchanged.  The limits that matplotlib chooses when it draws are any numbers. *)

From Coq Require Import List ZArith QArith Bool String.
Import ListNotations.
From Verif Require Import Py pairing_model window_model plots_model.
Open Scope py_scope.
Local Open Scope Q_scope.

Record axes := Axes { x_title : option string; x_spans : list (Q * Q); x_texts : list (string * (Q * Q)); x_ylim : Q * Q }.
(** The axes of a ScorePlot and its attribute _y_annotation (plots.py:224). *)
Record annotated := Annotated { n_axes : axes; n_y : option Q }.

(** A new plot (plots.py:219, 224); the limits of empty axes are 0 and 1. *)
Definition new_annotated : annotated := Annotated (Axes None [] [] (0, 1)) None.

(** draw (plots.py:270-313): main_ax.cla() (281) takes everything away; [ylim] are the limits
    after the curves are drawn; _y_annotation is not changed. *)
Definition redraw (st : annotated) (ylim : Q * Q) : annotated := Annotated (Axes None [] [] ylim) (n_y st).

(** set_ybound(lower, upper): the limits, in increasing order. *)
Definition set_ybound (x : axes) (lower upper : Q) : axes :=
  Axes (x_title x) (x_spans x) (x_texts x) (if Qlt_bool upper lower then (upper, lower) else (lower, upper)).

(** annotate (plots.py:319-328). *)
Definition annotate (st : annotated) (boundaries : Q * Q) (text : string) : annotated :=
  let x := n_axes st in
  let x := Axes (x_title x) (x_spans x ++ [boundaries]) (x_texts x) (x_ylim x) in
  let '(y, x) := match n_y st with
                 | Some y => (y, x)
                 | None => let y := snd (x_ylim x) in (y, set_ybound x 0 (y + (3 # 100)))
                 end in
  let xy := ((1 # 2) * (fst boundaries + snd boundaries), y) in
  Annotated (Axes (x_title x) (x_spans x) (x_texts x ++ [(text, xy)]) (x_ylim x)) (Some y).

(** set_title *)
Definition set_title (st : annotated) (text : string) : annotated :=
  Annotated (Axes (Some text) (x_spans (n_axes st)) (x_texts (n_axes st)) (x_ylim (n_axes st))) (n_y st).

(** What a user of the object calls. *)
Inductive action := Draw (ylim : Q * Q) | Annotate (boundaries : Q * Q) (text : string).
Definition act (st : annotated) (a : action) : annotated :=
  match a with Draw l => redraw st l | Annotate b t => annotate st b t end.
Definition act_all (st : annotated) (l : list action) : annotated := fold_left act l st.

Section Sentence.
Context {O A P : Type}.
Variable files : wavfiles P A.

(** plot_one_sentence (plots.py:369-386), with its title and its annotations; [trans] is the
    attribute of a record, [limits] what matplotlib chooses for a drawing. *)
Definition plot_annotated (trans : O -> string) (limits : @drawing O -> Q * Q)
  (record_win : leaf O A P) (sliding : list (Q * Q)) (example_labels similarities : argument) (plot_rc : settings)
  (annotations : list (string * (Q * Q))) : result (@score_plot O A P * @drawing O * annotated) :=
  '(p, d) <- plot_one_sentence files record_win sliding example_labels similarities plot_rc ;;
  let st := redraw new_annotated (limits d) in
  r <- match record_win with
       | LB b => match b_obj b with Some r => Ok r | None => Err AttributeError end
       | _ => Err AttributeError
       end ;;
  let st := set_title st (trans r) in
  Ok (p, d, fold_left (fun st a => annotate st (snd a) (fst a)) annotations st).
End Sentence.
