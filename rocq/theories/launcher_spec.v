(** * Specification of the launcher of experiments. *)

From Coq Require Import List ZArith Reals Bool Arith String.
Import ListNotations.
From Verif Require Import Py nd_model logger_model logger_spec experiment_model experiment_spec figures_model figures_spec launcher_model.
From Verif Require serial_model serial_spec.
Local Open Scope nat_scope.

Section Spec.
Variable labels : list string.
Variable Ks : list nat.
Variable n_run : nat.

(** The name of an experiment says its modalities, its number of components and the number
    of the repetition. *)
Definition named (mods : list string) (k i : nat) (name : string) : Prop :=
  name = (join mods ++ "_" ++ string_of_nat k ++ "_" ++ string_of_nat i)%string.
Definition named_feats (feats : list string) (i : nat) (name : string) : Prop :=
  name = ("image_sound_feats_" ++ join feats ++ "_" ++ string_of_nat i)%string.

(** The loader of each modality, [feats] being the descriptors of images. *)
Definition loader_for (feats : list string) (m : string) (l : serial_model.loader nd) : Prop :=
  (m = "motion"%string /\ l = serial_model.Choreo2Loader) \/
  (m = "sound"%string /\ l = serial_model.Year1Loader (VInt 1)) \/
  (m = "image"%string /\ l = serial_model.ObjectsLoader (VList (map VStr feats)) labels).
(** Parameters: 50 iterations, shuffled labels, one split. *)
Definition parameters_for (feats mods : list string) (k : nat) (e : serial_model.exper nd) : Prop :=
  serial_model.ex_modalities e = mods /\ Forall2 (loader_for feats) mods (serial_model.ex_loaders e) /\
  serial_model.ex_k e = VInt (Z.of_nat k) /\ serial_model.ex_coefs e = VNone /\
  serial_model.ex_iter_train e = VInt 50 /\ serial_model.ex_iter_test e = VInt 50 /\
  serial_model.ex_shuffle_labels e = VBool true /\ serial_model.ex_run_mode e = VStr "single" /\ serial_model.ex_debug e = VBool false.

(** The groups of modalities of experiments, with their classes. *)
Definition groups : list (list string * kind) :=
  [(["motion"; "sound"], Two); (["image"; "sound"], Two); (["image"; "motion"], Two); (["image"; "motion"; "sound"], Three)]%string.
(** The sets of descriptors: each one alone, three pairs, all. *)
Definition feature_sets : list (list string) :=
  [["SURF"]; ["color"]; ["SURF_pairs"]; ["color_pairs"]; ["color_triplets"];
   ["SURF"; "color"]; ["SURF_pairs"; "color_pairs"]; ["SURF_pairs"; "color_triplets"];
   ["SURF"; "color"; "SURF_pairs"; "color_pairs"; "color_triplets"]]%string.
Definition expected (e : planned) : Prop :=
  (exists mods k i, In (mods, pl_kind e) groups /\ In k Ks /\ i < n_run /\ named mods k i (pl_name e) /\
     parameters_for ["SURF"; "color"]%string mods k (pl_exper e)) \/
  (exists feats i, In feats feature_sets /\ i < n_run /\ pl_kind e = Two /\ named_feats feats i (pl_name e) /\
     parameters_for feats ["image"; "sound"]%string 50 (pl_exper e)).

(** Whether the data of the experiments, and the random numbers of each job, are such that
    an experiment can be run (see [sound], [legal] and [enough]). *)
Definition runnable (data : serial_model.loader nd -> loader) (rd : string -> random) : Prop :=
  forall e e' x, In e (exps labels Ks n_run) -> serial_spec.same_experiment (pl_exper e) e' -> experiment_of data (pl_kind e) e' = Ok x ->
    sound x /\ legal x (rd (pl_name e)) /\ enough x (rd (pl_name e)).

(** The experiment [x] of the job [name]: its parameters are those that were planned, as
    they come back from a file; prepared as [p], with the only split [split]. *)
Definition ran (data : serial_model.loader nd -> loader) (rd : string -> random) (name : string)
  (x : experiment) (p : prepared) (split : list nat * list nat) : Prop :=
  exists e e', In e (exps labels Ks n_run) /\ pl_name e = name /\ serial_spec.same_experiment (pl_exper e) e' /\ experiment_of data (pl_kind e) e' = Ok x /\
    prepare (rd name) x = Ok p /\ p_generator p = Ok [split].
(** One number from each repetition. *)
Definition repeated data rd (name : nat -> string) (P : experiment -> prepared -> list nat * list nat -> R -> Prop) (xs : list R) : Prop :=
  List.length xs = n_run /\ forall i v, nth_error xs i = Some v -> exists x p split, ran data rd (name i) x p split /\ P x p split v.

(** [v] is the score of modality [a] against [b], with suffix [s], on internal coefficients. *)
Definition score_between (a b : string) (s : string) (x : experiment) (p : prepared) (split : list nat * list nat) (v : R) : Prop :=
  exists m1 m2, nth_error (x_mods x) m1 = Some a /\ nth_error (x_mods x) m2 = Some b /\
    match x_kind x with
    | Two => two_score x p m1 m2 None s split v
    | Three => three_score x p [m1] [m2] s split v
    | Base => False
    end.

Definition pair_name (a b : string) (k i : nat) : string := (a ++ "_" ++ b ++ "_" ++ string_of_nat k ++ "_" ++ string_of_nat i)%string.
Definition three_name (k i : nat) : string := ("image_motion_sound_" ++ string_of_nat k ++ "_" ++ string_of_nat i)%string.
Definition feats_name (feats : list string) (i : nat) : string := ("image_sound_feats_" ++ join feats ++ "_" ++ string_of_nat i)%string.

(** The jobs that a curve or a box of a pair shows: those of the two modalities, or those
    of the three. *)
Definition jobs_of (three : bool) (pair : string * string) (k i : nat) : string :=
  if three then three_name k i else pair_name (fst pair) (snd pair) k i.
(** The pairs of modalities, and both directions of each one. *)
Definition the_pairs : list (string * string) := [("motion", "sound"); ("image", "motion"); ("image", "sound")]%string.
Definition directions (pair : string * string) : list (string * string) := [pair; (snd pair, fst pair)].
Definition the_curves : list (bool * ((string * string) * (string * string))) :=
  flat_map (fun three => flat_map (fun pair => map (fun d => (three, (pair, d))) (directions pair)) the_pairs) [false; true].
(** A curve: at each number of components the average of the scores, [a] against [b], of
    all the repetitions, and their deviation; dashed for the experiments of three. *)
Definition shown_curve data rd (s : bool * ((string * string) * (string * string))) (c : curve) : Prop :=
  let '(three, (mm, (a, b))) := s in
  c_style c = (if three then Dashed else Solid) /\
  get_color_for_modalities [a] [b] true = Ok (c_color c) /\
  map fst (c_points c) = Ks /\ List.length (c_var c) = List.length Ks /\
  forall q k m d, nth_error (c_points c) q = Some (k, m) -> nth_error (c_var c) q = Some d ->
    exists xs, repeated data rd (jobs_of three mm k) (score_between a b "") xs /\ average_of xs m /\ deviation_of xs m d.
(** A box of the scores, [a] against [b], of the cosine, of all the repetitions. *)
Definition shown_box data rd (name : nat -> string) (d : string * string) (b : box) : Prop :=
  b_label b = (fst d ++ " $\rightarrow$ " ++ snd d)%string /\ repeated data rd name (score_between (fst d) (snd d) "_cosine") (b_values b).
(** The same for one modality or two of the three against one. *)
Definition shown_three data rd (c : list nat * list nat) (b : box) : Prop :=
  let mods := ["image"; "motion"; "sound"]%string in
  b_label b = (join_with ", " (map (mod_name mods) (fst c)) ++ " $\rightarrow$ " ++ join_with ", " (map (mod_name mods) (snd c)))%string /\
  repeated data rd (three_name 50) (fun x p split v => x_mods x = mods /\ three_score x p (fst c) (snd c) "_cosine" split v) (b_values b).
(** What the figures show. *)
Definition shown_figures data rd (g : figures) : Prop :=
  let '((curves, legend), (panels, last), feats, (boxes, groups)) := g in
  Forall2 (shown_curve data rd) the_curves curves /\
  map fst legend = map (fun d => (fst d ++ " $\rightarrow$ " ++ snd d)%string) (flat_map directions the_pairs) /\ map snd legend = firstn 6 curves /\
  Forall2 (fun mm panel => fst panel = (fst mm ++ ", " ++ snd mm)%string /\ Forall2 (shown_box data rd (jobs_of false mm 50)) (directions mm) (snd panel)) the_pairs panels /\
  List.length (snd last) = 6 /\
  (forall a b, known a -> known b -> a <> b -> exists bx, In bx (snd last) /\ shown_box data rd (three_name 50) (a, b) bx) /\
  Forall2 (fun fs bs => Forall2 (shown_box data rd (feats_name fs)) (directions ("image", "sound")%string) bs) feature_sets feats /\
  Forall2 (shown_three data rd) three_shown boxes /\
  List.concat groups = boxes /\ List.length groups = 3 /\ (forall g, In g groups -> List.length g = 3).
(** The log of the job of [e] is in the files at [path]: whatever else was loaded before,
    it loads as a log with the names of the modalities and the scores of the single run of
    an experiment with the planned parameters. *)
Definition log_of data rd (f : fs nd) (path : string) (e : planned) : Prop :=
  exists x p split, ran data rd (pl_name e) x p split /\ x_kind x = pl_kind e /\ x_mods x = serial_model.ex_modalities (pl_exper e) /\
  forall w, wf_world w -> exists w' j, load w f path false false = (w', Ok j) /\ wf_world w' /\
    (exists v, get_value w' j "modalities" = Ok v /\ names_of v = Ok (x_mods x)) /\
    (pl_kind e = Two -> forall m1 m2 cmp s, m1 < 2 -> m2 < 2 -> match cmp with None => True | Some c => c < 2 end -> In s suffixes ->
       exists v, scored w' j (score_key (x_mods x) m1 m2 cmp s) [v] /\ two_score x p m1 m2 cmp s split v) /\
    (pl_kind e = Three -> forall ms1 ms2 s, In (ms1, ms2) (tested_combinations 3) -> In s suffixes ->
       exists v, scored w' j (three_key (x_mods x) ms1 ms2 s) [v] /\ three_score x p ms1 ms2 s split v).
End Spec.
