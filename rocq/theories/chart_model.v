(** * Model of lib/plot.py: colours, legends and axes (plot_var and boxplot on
    data are in figures_model).

    What matplotlib keeps about axes is a record: it is asked only to remember what it is
    given.  Sizes, colours of lines and the object that is returned are left out. *)

From Coq Require Import List ZArith Reals Bool Arith String.
Import ListNotations.
From Verif Require Import Py.
Open Scope py_scope.
Local Open Scope string_scope.
Notation length := List.length.

(** ** Colours *)

(** An element of an array: a number, or None for NaN, for which all comparisons are
    false. *)
Definition number := option R.
Definition at_least (a b : number) : bool :=
  match a, b with Some a, Some b => if Rle_dec b a then true else false | _, _ => false end.
Inductive cmap := Reds | Blues | Blues_r | GivenMap (name : string).

(** _cmap_from_data (plot.py:39-49); np.alltrue of no element is True. *)
Definition cmap_from_data (x : list number) : cmap :=
  if forallb (fun v => at_least v (Some 0%R)) x then Reds
  else if forallb (fun v => at_least (Some 0%R) v) x then Blues
  else Blues_r.

(** get_n_colors (plot.py:52-53): the colour map is applied to these numbers. *)
Definition get_n_colors {C} (n : Z) (color_map : R -> C) : list C :=
  map (fun i => color_map (1 * INR i / IZR n)%R) (seq 0 (Z.to_nat n)).

(** ** Axes *)

Inductive axis := X | Y.
Definition axis_eqb (a b : axis) : bool := match a, b with X, X | Y, Y => true | _, _ => false end.
(** Spines by their names, visible or not, with lines made thin or not; for each axis
    whether its scale is 'log', the side of the ticks, their places, their labels and the
    limits; the argument of the last call of grid; the mesh. *)
Record axes := Axes {
  visible : string -> bool; thin : string -> bool; is_log : axis -> bool; tick_side : axis -> string;
  locations : axis -> list R; labels : axis -> list string; limits : axis -> R * R;
  grid_on : option (list string); mesh : option (cmap * nat * nat) }.
Definition all_spines : list string := ["top"; "bottom"; "right"; "left"].
Definition mem (s : string) (l : list string) : bool := existsb (String.eqb s) l.
Definition hide (s : string) (a : axes) : axes :=
  Axes (fun t => if String.eqb t s then false else visible a t) (thin a) (is_log a) (tick_side a) (locations a) (labels a) (limits a) (grid_on a) (mesh a).
Definition make_thin (s : string) (a : axes) : axes :=
  Axes (visible a) (fun t => if String.eqb t s then true else thin a t) (is_log a) (tick_side a) (locations a) (labels a) (limits a) (grid_on a) (mesh a).
Definition set_ticks_position (x : axis) (p : string) (a : axes) : axes :=
  Axes (visible a) (thin a) (is_log a) (fun y => if axis_eqb y x then p else tick_side a y) (locations a) (labels a) (limits a) (grid_on a) (mesh a).
Definition set_locations (x : axis) (l : list R) (a : axes) : axes :=
  Axes (visible a) (thin a) (is_log a) (tick_side a) (fun y => if axis_eqb y x then l else locations a y) (labels a) (limits a) (grid_on a) (mesh a).
Definition set_labels (x : axis) (l : list string) (a : axes) : axes :=
  Axes (visible a) (thin a) (is_log a) (tick_side a) (locations a) (fun y => if axis_eqb y x then l else labels a y) (limits a) (grid_on a) (mesh a).
Definition set_limits (x : axis) (l : R * R) (a : axes) : axes :=
  Axes (visible a) (thin a) (is_log a) (tick_side a) (locations a) (labels a) (fun y => if axis_eqb y x then l else limits a y) (grid_on a) (mesh a).
Definition set_grid (g : list string) (a : axes) : axes :=
  Axes (visible a) (thin a) (is_log a) (tick_side a) (locations a) (labels a) (limits a) (Some g) (mesh a).
Definition set_mesh (m : cmap * nat * nat) (a : axes) : axes :=
  Axes (visible a) (thin a) (is_log a) (tick_side a) (locations a) (labels a) (limits a) (grid_on a) (Some m).

(** for spine in spines: ax.spines[spine].set_visible(False) (plot.py:182-183). *)
Fixpoint hide_all (spines : list string) (a : axes) : axes * result unit :=
  match spines with
  | [] => (a, Ok tt)
  | s :: l => if mem s all_spines then hide_all l (hide s a) else (a, Err KeyError)
  end.

(** Lines 194-208; [ord] is the order in which a set is gone through. *)
Definition sides (x : axis) : list string := match x with X => ["top"; "bottom"] | Y => ["left"; "right"] end.
Definition place_ticks (ord : list string -> list string) (spines : list string) (a : axes) (x : axis) : axes :=
  if is_log a x then
    fold_left (fun a p => set_ticks_position x p a) (ord (filter (fun p => negb (mem p spines)) (sides x))) a
  else set_ticks_position x "none" a.

(** remove_chartjunk (plot.py:171-222).  grid is None or a list of strings (a string is
    the list of its letters); ticklabels is None, or a string or list: line 218 compares a
    set and a number with >, which raises TypeError in all versions of Python, so
    that what follows is never run. *)
Definition remove_chartjunk (ord : list string -> list string) (a : axes) (spines : list string)
    (grid : option (list string)) (ticklabels : option (list string)) : axes * result unit :=
  match hide_all spines a with
  | (a, Err e) => (a, Err e)
  | (a, Ok _) =>
      let a := fold_left (fun a s => if mem s spines then a else make_thin s a) all_spines a in
      let a := fold_left (place_ticks ord spines) [X; Y] a in
      match (match grid with
             | None => (a, Ok tt)
             | Some g => if forallb (fun s => mem s ["x"; "y"]) g then (set_grid g a, Ok tt) else (a, Err AssertionError)
             end) with
      | (a, Err e) => (a, Err e)
      | (a, Ok _) => match ticklabels with None => (a, Ok tt) | Some _ => (a, Err TypeError) end
      end
  end.

(** np.arange(0.5, n + 0.5) in exact arithmetic. *)
Definition middles (n : nat) : list R := map (fun k => (INR k + / 2)%R) (seq 0 n).

(** pcolormesh (plot.py:149-168) of a table with n rows and m columns, elements in
    [x]; labels are None or a list, an empty list being false. *)
Definition labelled (x : axis) (n : nat) (l : option (list string)) (a : axes) : axes :=
  match l with
  | None | Some [] => a
  | Some l => set_labels x l (set_locations x (middles n) a)
  end.
Definition pcolormesh (ord : list string -> list string) (a : axes) (n m : nat) (x : list number)
    (map_given : option string) (xticklabels yticklabels : option (list string)) : axes * result unit :=
  let c := match map_given with Some s => GivenMap s | None => cmap_from_data x end in
  match remove_chartjunk ord (set_mesh (c, n, m) a) ["top"; "right"; "bottom"; "left"] None None with
  | (a, Err e) => (a, Err e)
  | (a, Ok _) =>
      let a := labelled X m xticklabels a in
      let a := labelled Y n yticklabels a in
      (set_limits Y (0%R, INR n) (set_limits X (0%R, INR m) a), Ok tt)
  end.

(** ** Where things are drawn *)

(** Axes, figures and the current axes; keyword arguments are absent (None), or given,
    possibly as the value None. *)
Inductive target := AxesNo (k : nat) | FigureNo (k : nat) | Current.
Definition keyword := option (option target).
(** kwargs.pop(name, default) *)
Definition pop (k : keyword) (d : option target) : option target := match k with Some v => v | None => d end.
Definition or_current (v : option target) : target := match v with Some t => t | None => Current end.
(** legend (plot.py:65-78): where it is put and the value of loc. *)
Definition legend (ax fig : keyword) (loc : option string) : target * string :=
  (or_current (pop ax (pop fig None)), match loc with Some l => l | None => "best" end).
(** plot (plot.py:56-62): the axes that are drawn on, those that are cleared, linewidth. *)
Definition plot (ax : keyword) (linewidth : option R) : target * target * R :=
  let ax := or_current (pop ax None) in
  (ax, ax, match linewidth with Some w => w | None => (3 / 4)%R end).
(** plot_var (plot.py:81-111): the curve, by plt.plot or plt.errorbar, and the area, by
    plt.fill_between, go to the current axes; those that are cleared. *)
Definition plot_var_targets (ax : keyword) (var : bool) (var_style : string) : list target * target :=
  (Current :: (if var && mem var_style ["fill"; "both"] then [Current] else []), or_current (pop ax None)).
