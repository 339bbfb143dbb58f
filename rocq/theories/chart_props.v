(** * C119: charts. *)

From Coq Require Import List ZArith Reals Bool Arith String Permutation Lra Sorted.
Import ListNotations.
From Verif Require Import Py chart_model chart_spec chart_proof.
Local Open Scope string_scope.

(** Sides that are listed disappear, no other does; those that are left become thin;
    ticks are removed from axes that are not logarithmic, and are left on a side that is
    left on the others.  Nothing else changes. *)
Theorem C119_spines : forall ord a spines, some_order ord -> (forall s, In s spines -> is_side s) ->
  exists b, remove_chartjunk ord a spines None None = (b, Ok tt) /\
    (forall s, visible b s = true <-> visible a s = true /\ ~ In s spines) /\
    (forall s, thin b s = true <-> thin a s = true \/ is_side s /\ ~ In s spines) /\
    ticks_after a b spines X /\ ticks_after a b spines Y /\ grid_on b = grid_on a /\ rest_kept a b.
Proof. exact junk_ok. Qed.

(** A name that is not a side raises KeyError; the sides before it are hidden already,
    nothing else is changed. *)
Theorem C119_unknown : forall ord a before t after grid tl, (forall s, In s before -> is_side s) -> ~ is_side t ->
  exists b, remove_chartjunk ord a (before ++ t :: after) grid tl = (b, Err KeyError) /\
    (forall s, visible b s = true <-> visible a s = true /\ ~ In s before) /\ thin b = thin a /\ tick_side b = tick_side a /\ rest_kept a b.
Proof. exact junk_unknown. Qed.

(** A grid is drawn for x and y; with anything else, AssertionError and no grid. *)
Theorem C119_grid : forall ord a spines g tl, some_order ord -> (forall s, In s spines -> is_side s) ->
  exists b r, remove_chartjunk ord a spines (Some g) tl = (b, r) /\
   ((forall s, In s g -> s = "x" \/ s = "y") -> grid_on b = Some g /\ (tl = None -> r = Ok tt)) /\
   ((exists s, In s g /\ s <> "x" /\ s <> "y") -> grid_on b = grid_on a /\ r = Err AssertionError).
Proof. exact junk_grid. Qed.

(** The documented use of ticklabels never removes labels: it always raises. *)
Theorem C119_ticklabels_refuted : forall ord a spines grid tl b r, some_order ord -> (forall s, In s spines -> is_side s) ->
  remove_chartjunk ord a spines grid (Some tl) = (b, r) -> labels b = labels a /\ exists e, r = Err e /\ (grid = None -> e = TypeError).
Proof. exact junk_labels. Qed.

(** A mesh has no sides, its map is the one given or that of the data, the limits are the
    numbers of columns and rows; labels that are given, unless there is none, are put
    at the middles of cells, else labels and places stay. *)
Theorem C119_mesh : forall ord a n m x map_given xl yl, some_order ord -> exists b, pcolormesh ord a n m x map_given xl yl = (b, Ok tt) /\
  (forall s, is_side s -> visible b s = false) /\
  mesh b = Some (match map_given with Some s => GivenMap s | None => cmap_from_data x end, n, m) /\
  limits b X = (0%R, INR m) /\ limits b Y = (0%R, INR n) /\
  (forall l, xl = Some l -> l <> [] -> labels b X = l /\ at_middles (locations b X) m) /\
  (forall l, yl = Some l -> l <> [] -> labels b Y = l /\ at_middles (locations b Y) n) /\
  (xl = None \/ xl = Some [] -> labels b X = labels a X /\ locations b X = locations a X) /\
  (yl = None \/ yl = Some [] -> labels b Y = labels a Y /\ locations b Y = locations a Y).
Proof.
  intros ord a n m x g xl yl Ho. destruct (mesh_ok ord a n m x g xl yl Ho) as (b & E & V & M & LX & LY & A & B & C & D).
  exists b. split; [exact E|]. split; [exact V|]. split; [exact M|]. split; [exact LX|]. split; [exact LY|]. split; [|split; [|split; [exact C|exact D]]].
  - intros l H N. destruct (A l H N) as [P Q]. split; [exact P|]. rewrite Q. apply middles_ok.
  - intros l H N. destruct (B l H N) as [P Q]. split; [exact P|]. rewrite Q. apply middles_ok.
Qed.

(** Red when no element is negative (in particular when there is none), blue when none is
    positive and one is negative, else, and as soon as there is a NaN, reversed blue. *)
Theorem C119_cmap : forall x, (cmap_from_data x = Reds <-> forall v, In v x -> exists r, v = Some r /\ (0 <= r)%R) /\
  (cmap_from_data x = Blues <-> (forall v, In v x -> exists r, v = Some r /\ (r <= 0)%R) /\ exists r, In (Some r) x /\ (r < 0)%R) /\
  (cmap_from_data x = Blues_r <-> In None x \/ exists r s, In (Some r) x /\ In (Some s) x /\ (r < 0 < s)%R).
Proof. exact cmap_cases. Qed.

(** n colours are taken at n different, increasing places of the map: 0, 1/n, ..., the end
    of the map is never reached; none for n <= 0. *)
Theorem C119_colors : forall C (n : Z) (f : R -> C), exists places, get_n_colors n f = map f places /\ length places = Z.to_nat n /\
  StronglySorted Rlt places /\ (forall p, In p places -> (0 <= p < 1)%R) /\ (forall k, (k < Z.to_nat n)%nat -> nth k places 0%R = (INR k / IZR n)%R).
Proof. intros C. exact colors_ok. Qed.

(** The legend goes to the axes that are given; else to the figure, if one is; else to the
    current axes.  Axes given as None hide the figure. *)
Theorem C119_legend : forall ax fig loc, exists t, fst (legend ax fig loc) = t /\
  (forall a, ax = Some (Some a) -> t = a) /\ (forall f, ax = None -> fig = Some (Some f) -> t = f) /\
  (ax = Some None -> t = Current) /\ (ax = None -> fig = None \/ fig = Some None -> t = Current) /\
  snd (legend ax fig loc) = (match loc with Some l => l | None => "best" end).
Proof.
  intros ax fig loc. eexists. split; [reflexivity|]. unfold legend, pop, or_current. cbn [fst snd].
  split; [intros a ->; reflexivity|]. split; [intros f -> ->; reflexivity|]. split; [intros ->; reflexivity|].
  split; [intros -> [->| ->]; reflexivity|reflexivity].
Qed.

(** plot draws on the axes that are given, and clears the same ones. *)
Theorem C119_plot : forall ax w d c l, plot ax w = (d, c, l) -> d = c /\ (forall a, ax = Some (Some a) -> d = a) /\
  (ax = None \/ ax = Some None -> d = Current) /\ (forall v, w = Some v -> l = v).
Proof.
  intros ax w d c l H. unfold plot in H. injection H as <- <- <-. split; [reflexivity|]. split; [intros a ->; reflexivity|].
  split; [intros [->| ->]; reflexivity|]. intros v ->. reflexivity.
Qed.

(** plot_var does not: whatever the axes that are given, curve and area go to the current
    axes, while those that are given are cleared. *)
Theorem C119_plot_var_axes_refuted : forall k var style l c, plot_var_targets (Some (Some (AxesNo k))) var style = (l, c) ->
  c = AxesNo k /\ ~ In (AxesNo k) l /\ In Current l.
Proof.
  intros k var style l c H. unfold plot_var_targets in H. injection H as <- <-. split; [reflexivity|].
  split; [|now left]. destruct (_ && _); cbn; intros [C|C]; try discriminate; [destruct C; [discriminate|contradiction]|contradiction].
Qed.

(** plot_var draws one curve, and an area only if the variation is asked for and the style is 'fill' or 'both'. *)
Theorem C119_plot_var_area : forall ax var style l c, plot_var_targets ax var style = (l, c) ->
  (var = true /\ (style = "fill" \/ style = "both")%string -> length l = 2) /\
  (~ (var = true /\ (style = "fill" \/ style = "both")%string) -> length l = 1).
Proof.
  intros ax var style l c H. unfold plot_var_targets in H. injection H as <- <-. split.
  - intros (-> & [-> | ->]); reflexivity.
  - intro N. destruct var; [|reflexivity]. cbn [andb]. unfold mem. cbn [existsb]. destruct (String.eqb_spec style "fill") as [->|_]; [exfalso; auto|].
    destruct (String.eqb_spec style "both") as [->|_]; [exfalso; auto|]. reflexivity.
Qed.

Print Assumptions C119_plot_var_area.
Print Assumptions C119_spines.
Print Assumptions C119_unknown.
Print Assumptions C119_grid.
Print Assumptions C119_ticklabels_refuted.
Print Assumptions C119_mesh.
Print Assumptions C119_cmap.
Print Assumptions C119_colors.
Print Assumptions C119_legend.
Print Assumptions C119_plot.
Print Assumptions C119_plot_var_axes_refuted.

(** Axes with all sides, the first axis being logarithmic; sets in reverse order. *)
Definition case_axes : axes := Axes (fun _ => true) (fun _ => false) (axis_eqb X) (fun _ => "both") (fun _ => []) (fun _ => ["0"; "1"])
  (fun _ => (0%R, 1%R)) None None.
Example C119_case : some_order (@rev string) /\ (forall s, In s ["top"; "right"] -> is_side s) /\
  exists b, remove_chartjunk (@rev string) case_axes ["top"; "right"] None None = (b, Ok tt) /\
    tick_side b X = "bottom" /\ tick_side b Y = "none" /\ visible b "left" = true /\ visible b "top" = false.
Proof.
  split; [intros l; apply Permutation_sym, Permutation_rev|]. split.
  - intros s [<-|[<-|[]]]; unfold is_side; auto.
  - eexists. split; [reflexivity|]. repeat split.
Qed.
Example C119_case_unknown : ~ is_side "middle" /\ exists b, remove_chartjunk (@rev string) case_axes (["top"] ++ "middle" :: ["left"]) None None = (b, Err KeyError) /\
  visible b "top" = false /\ visible b "left" = true.
Proof.
  split; [unfold is_side; intros H; decompose [or] H; discriminate|]. eexists. split; [reflexivity|]. split; reflexivity.
Qed.
(** grid='both', as the letters of a string. *)
Example C119_case_grid : exists b, remove_chartjunk (@rev string) case_axes [] (Some ["b"; "o"; "t"; "h"]) None = (b, Err AssertionError).
Proof. eexists. reflexivity. Qed.
Example C119_case_labels : exists b, remove_chartjunk (@rev string) case_axes [] None (Some ["x"]) = (b, Err TypeError) /\ labels b X = ["0"; "1"].
Proof. eexists. split; reflexivity. Qed.
Example C119_case_mesh : exists b, pcolormesh (@rev string) case_axes 2 3 [] (Some "jet") (Some ["a"; "b"; "c"]) None = (b, Ok tt) /\
  labels b X = ["a"; "b"; "c"] /\ nth 2 (locations b X) 0%R = (INR 2 + / 2)%R /\ labels b Y = ["0"; "1"].
Proof. eexists. split; [reflexivity|]. repeat split. Qed.
Example C119_case_cmap : cmap_from_data [Some 1%R; Some 0%R] = Reds /\ cmap_from_data [Some (-1)%R; Some 0%R] = Blues /\ cmap_from_data [Some 1%R; None] = Blues_r.
Proof.
  repeat split.
  - apply C119_cmap. intros v [<-|[<-|[]]]; eexists; (split; [reflexivity|lra]).
  - apply C119_cmap. split; [intros v [<-|[<-|[]]]; eexists; (split; [reflexivity|lra])|]. exists (-1)%R. split; [now left|lra].
  - apply C119_cmap. left. right. now left.
Qed.
Example C119_ex_plot_var_area : plot_var_targets None true "bar" = ([Current], Current) /\ plot_var_targets None true "both" = ([Current; Current], Current).
Proof. split; reflexivity. Qed.
