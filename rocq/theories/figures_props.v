(** * C98 and C99: figures and tables of recorded scores. *)

From Coq Require Import List ZArith Reals Bool Arith String QArith Qreals Lia Lra.
Import ListNotations.
From Verif Require Import Py nd_model nd_spec logger_model logger_spec pairing_model pairing_spec sparse_model learner_spec experiment_model experiment_spec
  figures_model figures_spec figures_proof figures_draw figures_exp figures_tables.
From Verif Require logger_props experiment_props.
Local Open Scope nat_scope.

(** ** What is compared *)
Theorem C98_pairs : forall (l : list string), NoDup l ->
  NoDup (all_pairs l) /\ List.length (all_pairs l) = List.length l * (List.length l - 1) /\
  forall a b, In (a, b) (all_pairs l) <-> exists i j, a = [i] /\ b = [j] /\ In i l /\ In j l /\ i <> j.
Proof. intros l N. split; [exact (pairs_nodup l N)|]. split; [exact (pairs_length l N)|exact (pairs_in l)]. Qed.
Print Assumptions C98_pairs.
Theorem C98_combinations : forall (l : list string) (a b : list string), NoDup l ->
  In (a, b) (combinations l) <->
  (exists i j, a = [i] /\ b = [j] /\ In i l /\ In j l /\ i <> j) \/ exists l1 i l2, l = l1 ++ i :: l2 /\ a = l1 ++ l2 /\ b = [i].
Proof. exact combinations_in. Qed.
Print Assumptions C98_combinations.
(** The pairs of different known modalities have colours, no two the same; other pairs have none. *)
Theorem C98_colours : forall (a b : string),
  (known a -> known b -> a <> b -> exists c, get_color_for_modalities [a] [b] true = Ok c /\
     forall a' b', get_color_for_modalities [a'] [b'] true = Ok c -> a' = a /\ b' = b) /\
  (~ (known a /\ known b /\ a <> b) -> get_color_for_modalities [a] [b] true = Err KeyError).
Proof.
  intros a b. split; [|exact (color_none a b)]. intros Ka Kb N. destruct (color_some a b Ka Kb N) as (c & E). exists c. split; [exact E|].
  intros a' b' E'. exact (color_inj a' b' a b c E' E).
Qed.
Print Assumptions C98_colours.

(** ** Curves: each point is the average of the scores of the runs of one logger, and the
    variation is their standard deviation. *)
Theorem C98_curve : forall (w : world) (loggers : list nat) (a b : string) (ks : list nat) (metric : string) (st : style) (bars : bool) (n : nat) (xss : list (list R)),
  known a -> known b -> a <> b -> ks <> [] -> n <> 0 -> List.length xss = List.length ks ->
  (forall i xs, nth_error xss i = Some xs -> List.length xs = n /\
     exists lg, nth_error loggers i = Some lg /\ scored w lg ("score_" ++ a ++ "2" ++ b)%string xs) ->
  exists c, plot_one_curve w loggers ([a], [b]) ks metric st bars = Ok c /\ c_style c = st /\ c_bars c = bars /\
    List.length (c_points c) = List.length ks /\ List.length (c_var c) = List.length ks /\
    forall i k xs, nth_error ks i = Some k -> nth_error xss i = Some xs -> exists m s,
      nth_error (c_points c) i = Some (k, m) /\ nth_error (c_var c) i = Some s /\ average_of xs m /\ deviation_of xs m s.
Proof. exact curve_drawn. Qed.
Print Assumptions C98_curve.
(** Loggers with different numbers of runs, and a run without the score. *)
Theorem C98_ragged : forall (w : world) (loggers : list nat) (a b : string) (ks : list nat) (metric : string) (st : style) (bars : bool) (i j ni nj : nat),
  known a -> known b -> a <> b -> wf_world w ->
  (forall i, i < List.length ks -> exists lg n, nth_error loggers i = Some lg /\ runs_of w lg = Some n) ->
  i < List.length ks -> j < List.length ks ->
  (exists lg, nth_error loggers i = Some lg /\ runs_of w lg = Some ni) -> (exists lg, nth_error loggers j = Some lg /\ runs_of w lg = Some nj) -> ni <> nj ->
  plot_one_curve w loggers ([a], [b]) ks metric st bars = Err ValueError.
Proof. exact curve_ragged. Qed.
Print Assumptions C98_ragged.
Theorem C98_missing : forall (w : world) (loggers : list nat) (a b : string) (ks : list nat) (metric : string) (st : style) (bars : bool) (i lg q n : nat),
  known a -> known b -> a <> b -> wf_world w ->
  (forall i, i < List.length ks -> exists lg, nth_error loggers i = Some lg /\ runs_of w lg = Some n) ->
  i < List.length ks -> nth_error loggers i = Some lg -> q < n -> value_at w lg q ("score_" ++ a ++ "2" ++ b)%string = None ->
  plot_one_curve w loggers ([a], [b]) ks metric st bars = Err TypeError.
Proof. exact curve_missing. Qed.
Print Assumptions C98_missing.
(** Merged logs: all the runs of all the jobs. *)
Theorem C98_merged : forall (w : world) (i : nat) (js : list nat) (l : logger nd) (key : string) (xss : list (list R)),
  wf_world w -> nth_error (w_logs w) i = Some l -> (forall j, In j js -> nth_error (w_logs w) j <> None) -> ~ In i js ->
  (forall j b, In j js -> nth_error (w_logs w) j = Some b -> forall k, In k (lg_exp_keys b) <-> In k (lg_exp_keys l)) ->
  Forall2 (fun j xs => scored w j key xs) (i :: js) xss ->
  exists w', merge_experiments w (i :: js) = (w', Ok i) /\ scored w' i key (List.concat xss).
Proof.
  intros w i js l key xss W El H N K F. destruct (logger_props.C32_merge nd w i js l El H N) as [M _]. destruct (M K) as (w' & a' & E & _ & _ & _ & _ & _ & _ & V).
  exists w'. split; [exact E|]. destruct (V W key) as (vss & A & B). exact (merged_scored w w' i key vss (i :: js) xss A F B).
Qed.
Print Assumptions C98_merged.
(** All the curves of a figure: both directions of each entry. *)
Theorem C98_k_graphs : forall (w : world) (d : list ((string * string) * list nat)) (ks : list nat) (metric : string),
  (forall m1 m2 lg, In ((m1, m2), lg) d -> (exists c, plot_one_curve w lg ([m1], [m2]) ks metric Solid false = Ok c) /\
                                      exists c, plot_one_curve w lg ([m2], [m1]) ks metric Solid false = Ok c) ->
  exists cs, plot_k_graphs w d ks metric = Ok (List.concat cs) /\
    Forall2 (fun e l => exists c1 c2, l = [c1; c2] /\ plot_one_curve w (snd e) ([fst (fst e)], [snd (fst e)]) ks metric Solid false = Ok c1 /\
                                 plot_one_curve w (snd e) ([snd (fst e)], [fst (fst e)]) ks metric Solid false = Ok c2) d cs.
Proof.
  intros w d ks metric H. apply graphs_ok. intros [[m1 m2] lg] I. destruct (H m1 m2 lg I) as ((c1 & E1) & c2 & E2). exists c1, c2. split; assumption.
Qed.
Print Assumptions C98_k_graphs.
(** plot_2k_graphs: solid lines for the first dictionary, dashed ones for the second, and a
    legend for the first; other dictionaries are not drawn. *)
Theorem C98_2k_graphs : forall (w : world) (d2 d3 : list ((string * string) * list nat)) more (ks : list nat) (metric : string),
  (forall d st m1 m2 lg, (d, st) = (d2, Solid) \/ (d, st) = (d3, Dashed) -> In ((m1, m2), lg) d ->
     (exists c, plot_one_curve w lg ([m1], [m2]) ks metric st true = Ok c) /\ exists c, plot_one_curve w lg ([m2], [m1]) ks metric st true = Ok c) ->
  exists l2 l3, plot_2k_graphs w (d2 :: d3 :: more) ks metric =
      Ok (map snd (List.concat l2 ++ List.concat l3), fold_left (fun d e => dict_set String.eqb d (fst e) (snd e)) (List.concat l2) []) /\
    (forall d st ls, (d, st, ls) = (d2, Solid, l2) \/ (d, st, ls) = (d3, Dashed, l3) ->
       Forall2 (fun e l => exists c1 c2,
         l = [((fst (fst e) ++ " $\rightarrow$ " ++ snd (fst e))%string, c1); ((snd (fst e) ++ " $\rightarrow$ " ++ fst (fst e))%string, c2)] /\
         plot_one_curve w (snd e) ([fst (fst e)], [snd (fst e)]) ks metric st true = Ok c1 /\
         plot_one_curve w (snd e) ([snd (fst e)], [fst (fst e)]) ks metric st true = Ok c2) d ls).
Proof.
  intros w d2 d3 more ks metric H. destruct (two_graphs w d2 d3 more ks metric) as (l2 & l3 & E & F2 & F3).
  - intros [[m1 m2] lg] I. destruct (H d2 Solid m1 m2 lg (or_introl eq_refl) I) as ((c1 & E1) & c2 & E2). exists c1, c2. split; assumption.
  - intros [[m1 m2] lg] I. destruct (H d3 Dashed m1 m2 lg (or_intror eq_refl) I) as ((c1 & E1) & c2 & E2). exists c1, c2. split; assumption.
  - exists l2, l3. split; [exact E|]. intros d st ls [X|X]; assert (X1 := f_equal (fun t => fst (fst t)) X); assert (X2 := f_equal (fun t => snd (fst t)) X); assert (X3 := f_equal snd X);
      cbn in X1, X2, X3; subst d st ls; assumption.
Qed.
Print Assumptions C98_2k_graphs.
(** The argument [metric] changes nothing: with '_cosine' the figures do not show the scores
    of the cosine. *)
Definition w_fig : world :=
  mkWorld [[("score_image2sound", VFloat 0); ("score_sound2image", VFloat 0);
            ("score_image2sound_cosine", VFloat 1); ("score_sound2image_cosine", VFloat 1)]%string] [mkLogger [] [0] [] [] None None].
Theorem C98_metric_refuted :
  (forall (w : world) loggers ks metric metric', plot_2k_graphs w loggers ks metric = plot_2k_graphs w loggers ks metric') /\
  exists w c1 c2 legend, scored w 0 "score_image2sound_cosine" [1%R] /\ scored w 0 "score_sound2image_cosine" [1%R] /\
    plot_2k_graphs w [[(("image", "sound")%string, [0])]] [15] "_cosine" = Ok ([c1; c2], legend) /\
    c_points c1 = [(15, 0%R)] /\ c_points c2 = [(15, 0%R)].
Proof.
  split; [reflexivity|].
  assert (Z1 : Q2R 1 = 1%R) by (unfold Q2R; cbn; lra). assert (Z0 : Q2R 0 = 0%R) by (unfold Q2R; cbn; lra).
  exists w_fig. eexists _, _, _. split; [|split; [|split; [reflexivity|]]].
  - split; [reflexivity|]. intros [|[|q]] v E; try discriminate. exists 1%Q. split; [reflexivity|]. cbn in E. rewrite Z1. congruence.
  - split; [reflexivity|]. intros [|[|q]] v E; try discriminate. exists 1%Q. split; [reflexivity|]. cbn in E. rewrite Z1. congruence.
  - assert (M : np_mean [Q2R 0] = 0%R). { unfold np_mean, np_sum. cbn [fold_left List.length]. rewrite Z0. cbn [INR]. lra. }
    cbn [c_points combine map]. rewrite M. auto.
Qed.
Print Assumptions C98_metric_refuted.

(** ** Boxes: those of the pairs, and those of the log of three modalities. *)
Theorem C98_boxes : forall (w : world) (d : list ((string * string) * nat)) (lg3 : nat) v (mods : list string) (P : (string * string) * nat -> string -> string -> list R -> Prop) (P3 : string -> string -> list R -> Prop), d <> [] ->
  (forall m1 m2 lg, In ((m1, m2), lg) d -> known m1 /\ known m2 /\ m1 <> m2 /\
     (exists xs, scored w lg ("score_" ++ m1 ++ "2" ++ m2 ++ "_cosine")%string xs /\ P ((m1, m2), lg) m1 m2 xs) /\
     (exists xs, scored w lg ("score_" ++ m2 ++ "2" ++ m1 ++ "_cosine")%string xs /\ P ((m1, m2), lg) m2 m1 xs)) ->
  get_value w lg3 "modalities" = Ok v -> names_of v = Ok mods -> (forall m, In m mods -> known m) ->
  (forall m1 m2, In m1 mods -> In m2 mods -> m1 <> m2 -> exists xs, scored w lg3 ("score_" ++ m1 ++ "2" ++ m2 ++ "_cosine")%string xs /\ P3 m1 m2 xs) ->
  exists panels last, plot_boxes true w d lg3 = Ok (panels, last) /\
    Forall2 (fun e panel => exists b1 b2, panel = ((fst (fst e) ++ ", " ++ snd (fst e))%string, [b1; b2]) /\
      b_label b1 = (fst (fst e) ++ " $\rightarrow$ " ++ snd (fst e))%string /\ b_label b2 = (snd (fst e) ++ " $\rightarrow$ " ++ fst (fst e))%string /\
      P e (fst (fst e)) (snd (fst e)) (b_values b1) /\ P e (snd (fst e)) (fst (fst e)) (b_values b2)) d panels /\
    List.length (snd last) = List.length (all_pairs mods) /\
    forall m1 m2, In m1 mods -> In m2 mods -> m1 <> m2 -> exists b, In b (snd last) /\ b_label b = (m1 ++ " $\rightarrow$ " ++ m2)%string /\ P3 m1 m2 (b_values b).
Proof. exact figure_boxes. Qed.
Print Assumptions C98_boxes.
(** With Python 3 no box can be filled. *)
Theorem C98_python3_refuted : forall (w : world) (i : nat) m ps (pairs : bool),
  (forall m', In m' (m :: ps) -> exists xs, scored w i ("score_" ++ join (fst m') ++ "2" ++ join (snd m') ++ "_cosine")%string xs) ->
  (exists c, get_color_for_modalities (fst m) (snd m) pairs = Ok c) ->
  plot_boxes_one_exp false w i (m :: ps) pairs = Err TypeError.
Proof. exact boxes_python3. Qed.
Print Assumptions C98_python3_refuted.

(** ** Experiments: the boxes hold, for every run, the score of the cosine of internal
    coefficients, and the curves the average of the scores of the divergence. *)
Theorem C98_two : forall (rd : random) (x : experiment) (f : option string), sound x -> legal x rd -> enough x rd -> x_kind x = Two -> (forall m, In m (x_mods x) -> known m) ->
  exists p splits w, prepare rd x = Ok p /\ p_generator p = Ok splits /\ run_world rd x f = (w, Ok tt) /\
  forall w' j, recorded w w' j ->
    (exists bs, plot_boxes_one_exp_pairs true w' j (x_mods x) true = Ok bs /\ List.length bs = List.length (x_mods x) * (List.length (x_mods x) - 1) /\
       forall m1 m2, m1 < List.length (x_mods x) -> m2 < List.length (x_mods x) -> m1 <> m2 -> exists b, In b bs /\
         b_label b = (mod_name (x_mods x) m1 ++ " $\rightarrow$ " ++ mod_name (x_mods x) m2)%string /\
         Forall2 (two_score x p m1 m2 None "_cosine") splits (b_values b)) /\
    forall m1 m2 k metric st bars, m1 < List.length (x_mods x) -> m2 < List.length (x_mods x) -> m1 <> m2 ->
      exists c m s xs, plot_one_curve w' [j] ([mod_name (x_mods x) m1], [mod_name (x_mods x) m2]) [k] metric st bars = Ok c /\
        c_points c = [(k, m)] /\ c_var c = [s] /\ average_of xs m /\ deviation_of xs m s /\ Forall2 (two_score x p m1 m2 None "") splits xs.
Proof. exact two_figures. Qed.
Print Assumptions C98_two.
Theorem C98_three : forall (rd : random) (x : experiment) (f : option string), sound x -> legal x rd -> enough x rd -> x_kind x = Three ->
  (forall m, In m (x_mods x) -> known m) -> List.length (x_mods x) = 3 ->
  exists p splits w, prepare rd x = Ok p /\ p_generator p = Ok splits /\ run_world rd x f = (w, Ok tt) /\
  forall w' j, recorded w w' j ->
    exists bs groups, plot_boxes_all_mods true w' j = Ok (bs, groups) /\ List.concat groups = bs /\ List.length groups = 3 /\ (forall g, In g groups -> List.length g = 3) /\
      Forall2 (fun c b => b_label b = (join_with ", " (map (mod_name (x_mods x)) (fst c)) ++ " $\rightarrow$ " ++ join_with ", " (map (mod_name (x_mods x)) (snd c)))%string /\
                          Forall2 (three_score x p (fst c) (snd c) "_cosine") splits (b_values b)) three_shown bs.
Proof. exact three_figures. Qed.
Print Assumptions C98_three.

(** ** Statistics and tables *)
Theorem C99_stats : forall (w : world) (i : nat) (key : string) (xs : list R), scored w i key xs -> xs <> [] ->
  exists m s, get_stats w i key = Ok (m, s) /\ average_of xs m /\ deviation_of xs m s.
Proof. exact stats_ok. Qed.
Print Assumptions C99_stats.
Theorem C99_missing : forall (w : world) (i : nat) (l : logger nd) (key : string) (q : nat),
  wf_world w -> nth_error (w_logs w) i = Some l -> q < List.length (lg_exps l) -> value_at w i q key = None -> get_stats w i key = Err TypeError.
Proof. exact stats_missing. Qed.
Print Assumptions C99_missing.
(** The table of two modalities after an experiment: the lines are the comparisons of the
    first two modalities in both directions, on internal coefficients and in each modality. *)
Theorem C99_two : forall (rd : random) (x : experiment) (f : option string), sound x -> legal x rd -> enough x rd -> x_kind x = Two ->
  (forall m, In m (x_mods x) -> clean m) -> 2 <= List.length (x_mods x) ->
  exists p splits w, prepare rd x = Ok p /\ p_generator p = Ok splits /\ run_world rd x f = (w, Ok tt) /\
  exists rows, print_two w x = (rows, Ok tt) /\
    Forall2 (fun c row => let '((m1, m2), cmp) := c in exists stats,
        row = ([mod_name (x_mods x) m1; mod_name (x_mods x) m2; match cmp with None => "internal"%string | Some k => mod_name (x_mods x) k end], stats) /\
        Forall2 (fun s ms => exists xs, Forall2 (two_score x p m1 m2 cmp s) splits xs /\ average_of xs (fst ms) /\ deviation_of xs (fst ms) (snd ms))
          [""; "_frob"; "_cosine"]%string stats)
      (list_prod [(0, 1); (1, 0)] (None :: map Some (seq 0 (List.length (x_mods x))))) rows.
Proof. exact two_table. Qed.
Print Assumptions C99_two.
(** With one modality nothing is printed but the head; the same for three modalities. *)
Theorem C99_one_refuted : forall (w : world) (x : experiment), List.length (x_mods x) = 1 -> print_two w x = ([], Err IndexError).
Proof. exact one_table. Qed.
Print Assumptions C99_one_refuted.
Theorem C99_three_refuted : forall (rd : random) (x : experiment) (f : option string) (py2 : bool), sound x -> legal x rd -> enough x rd -> x_kind x = Three ->
  (forall m, In m (x_mods x) -> clean m) -> List.length (x_mods x) = 3 ->
  exists w, run_world rd x f = (w, Ok tt) /\ print_three py2 w x = ([], Err (if py2 then ValueError else TypeError)).
Proof. exact three_table. Qed.
Print Assumptions C99_three_refuted.

(** ** Examples *)
Import experiment_props.
Definition ex2 := ex_x Two ["sound"; "image"]%string None.
Lemma ex2_known m : In m (x_mods ex2) -> known m.
Proof. intros [<-|[<-|[]]]; cbn; auto. Qed.
Example C98_ex_two : exists w bs, run_world ex_rd ex2 None = (w, Ok tt) /\ plot_boxes_one_exp_pairs true w 0 ["sound"; "image"]%string true = Ok bs /\ List.length bs = 2.
Proof.
  destruct (C98_two ex_rd ex2 None) as (p & splits & w & _ & _ & Er & H).
  - apply ex_sound_x; [discriminate|now left].
  - apply ex_legal.
  - apply ex_enough.
  - reflexivity.
  - exact ex2_known.
  - destruct (H w 0 (or_introl (conj eq_refl eq_refl))) as ((bs & Eb & L & _) & _). exists w, bs. auto.
Qed.
Example C99_ex_two : exists w rows, run_world ex_rd ex2 None = (w, Ok tt) /\ print_two w ex2 = (rows, Ok tt) /\ List.length rows = 6.
Proof.
  destruct (C99_two ex_rd ex2 None) as (p & splits & w & _ & _ & Er & rows & Ep & F).
  - apply ex_sound_x; [discriminate|now left].
  - apply ex_legal.
  - apply ex_enough.
  - reflexivity.
  - exact (all_clean _ ex2_known).
  - cbn. lia.
  - exists w, rows. split; [exact Er|]. split; [exact Ep|]. exact (eq_sym (f2_len _ _ _ F)).
Qed.

(** Three modalities. *)
Definition ex_rd3 := Random [["a"; "b"]; ["c"; "d"]; ["a"; "b"]]%string (fun _ _ l => l) [0; 1] (fun l => l) (fun _ _ _ _ => 1%R) "" "".
Definition ex3 := Exp Three ["image"; "motion"; "sound"]%string [ex_a; ex_b; ex_a] 2 None 10 10 false LeaveOneOut false.
Lemma ex3_paired : exists t, associate_samples String.eqb (r_names ex_rd3) (r_buckets ex_rd3) (map ld_labels (x_loaders ex3)) =
  Ok ([["a"; "b"]; ["c"; "d"]; ["a"; "b"]]%string, [0; 0; 1; 1], t) /\ List.length t = 4.
Proof. eexists. split; reflexivity. Qed.
Lemma ex3_legal : legal ex3 ex_rd3.
Proof.
  split; [|split; [|split]].
  - cbn. constructor; [|constructor; [|constructor; [|constructor]]]; (apply ex_distinct; [discriminate|]; intro s; cbn; intuition congruence).
  - intros m i l. apply Permutation.Permutation_refl.
  - intro l. apply Permutation.Permutation_refl.
  - intros n l t E. destruct ex3_paired as (t' & E' & _). rewrite E' in E. assert (l = [0; 0; 1; 1]) by congruence. subst l. cbn. split; [repeat constructor; cbn; intuition congruence|].
    intro v. cbn. intuition congruence.
Qed.
Lemma ex3_enough : enough ex3 ex_rd3.
Proof. intros n l t E. destruct ex3_paired as (t' & E' & L). rewrite E' in E. assert (t = t') by congruence. subst t. rewrite L. cbn. split; lia. Qed.
Lemma ex3_sound : sound ex3.
Proof.
  assert (B : sound ex2) by (apply ex_sound_x; [discriminate|now left]). destruct B as (_ & _ & _ & B1 & _ & B2 & _). cbn [x_coefs ex2 ex_x] in B2. unfold sound, ex3. cbn [x_mods x_loaders x_coefs x_k x_iter_train x_iter_test].
  assert (I : forall ld, In ld [ex_a; ex_b; ex_a] -> In ld (x_loaders ex2)) by (cbn; tauto).
  split; [repeat constructor; cbn; intuition discriminate|]. split; [discriminate|]. split; [reflexivity|]. split; [|split; [|split; [|split; [lia|split; lia]]]].
  - intros ld Hl. apply B1, I, Hl.
  - exists 2. split; [lia|]. intros ld [<-|[<-|[<-|[]]]]; [exists ["a"; "b"]%string|exists ["c"; "d"]%string|exists ["a"; "b"]%string]; (split; [apply ex_distinct; [discriminate|]; intro s; cbn; intuition congruence|reflexivity]).
  - intros ld Hl. apply B2, I, Hl.
Qed.
Lemma ex3_known m : In m (x_mods ex3) -> known m.
Proof. intros [<-|[<-|[<-|[]]]]; cbn; auto. Qed.
Example C98_ex_three : exists w bs groups, run_world ex_rd3 ex3 None = (w, Ok tt) /\ plot_boxes_all_mods true w 0 = Ok (bs, groups) /\
  map b_label bs = ["image $\rightarrow$ motion"; "image $\rightarrow$ sound"; "motion $\rightarrow$ image"; "motion $\rightarrow$ sound"; "sound $\rightarrow$ image"; "sound $\rightarrow$ motion";
                    "motion, sound $\rightarrow$ image"; "image, sound $\rightarrow$ motion"; "image, motion $\rightarrow$ sound"]%string.
Proof.
  destruct (C98_three ex_rd3 ex3 None ex3_sound ex3_legal ex3_enough eq_refl ex3_known eq_refl) as (p & splits & w & _ & _ & Er & H).
  destruct (H w 0 (or_introl (conj eq_refl eq_refl))) as (bs & g & E & _ & _ & _ & F). exists w, bs, g. split; [exact Er|]. split; [exact E|].
  unfold three_shown in F. repeat match goal with F : Forall2 _ (_ :: _) _ |- _ => inversion F as [|? ? ? ? (? & _) ?]; subst; clear F end. match goal with F : Forall2 _ [] _ |- _ => inversion F; subst end. cbn [map].
  repeat match goal with X : b_label _ = _ |- _ => rewrite X; clear X end. reflexivity.
Qed.
Example C99_ex_three : exists w, run_world ex_rd3 ex3 None = (w, Ok tt) /\ print_three false w ex3 = ([], Err TypeError).
Proof. exact (C99_three_refuted ex_rd3 ex3 None false ex3_sound ex3_legal ex3_enough eq_refl (all_clean _ ex3_known) eq_refl). Qed.

(** A curve of two loggers with two runs each; averages 1/2 and 1. *)
Definition w_ex : world :=
  mkWorld [[("score_image2sound"%string, VFloat 0)]; [("score_image2sound"%string, VFloat 1)]; [("score_image2sound"%string, VFloat 1)]; [("score_image2sound"%string, VFloat 1)]]
    [mkLogger [] [0; 1] [] [] None None; mkLogger [] [2; 3] [] [] None None; mkLogger [] [3] [] [] None None].
Lemma Q2R1 : Q2R 1 = 1%R. Proof. unfold Q2R. cbn. lra. Qed.
Lemma Q2R0 : Q2R 0 = 0%R. Proof. unfold Q2R. cbn. lra. Qed.
Lemma w_ex_scored i xs : nth_error [[0; 1]; [1; 1]]%R i = Some xs -> scored w_ex i "score_image2sound" xs.
Proof.
  intro E. destruct i as [|[|[|]]]; try discriminate; cbn in E; assert (X := E); (assert (xs = nth 0 [xs] []) by reflexivity); injection E as <-; (split; [reflexivity|]);
    intros [|[|[|q]]] v Ev; try discriminate; cbn in Ev; injection Ev as <-; cbn; eexists; (split; [reflexivity|]); now rewrite ?Q2R1, ?Q2R0.
Qed.
Example C98_ex_curve : exists c, plot_one_curve w_ex [0; 1] (["image"], ["sound"])%string [15; 50] "" Solid false = Ok c /\ c_points c = [(15, (1 / 2)%R); (50, 1%R)].
Proof.
  destruct (C98_curve w_ex [0; 1] "image" "sound" [15; 50] "" Solid false 2 [[0; 1]; [1; 1]]%R) as (c & E & _ & _ & L & _ & H); cbn; auto; try discriminate.
  - intros i xs Ex. split; [destruct i as [|[|[|]]]; try discriminate; cbn in Ex; injection Ex as <-; reflexivity|]. exists i. split; [|now apply w_ex_scored].
    destruct i as [|[|[|]]]; try discriminate; reflexivity.
  - exists c. split; [exact E|]. destruct (H 0 15 _ eq_refl eq_refl) as (m & s & E1 & _ & A & _). destruct (H 1 50 _ eq_refl eq_refl) as (m' & s' & E2 & _ & A' & _).
    unfold average_of in A, A'. cbn [List.length lsum] in A, A'. change (INR 2) with 2%R in A, A'.
    destruct (c_points c) as [|a [|b [|]]]; try discriminate. cbn [nth_error] in E1, E2. injection E1 as ->. injection E2 as ->. repeat f_equal; lra.
Qed.
Lemma w_ex_wf : wf_world w_ex.
Proof.
  unfold w_ex. split.
  - intros i l E. cbn [w_logs w_runs] in *. destruct i as [|[|[|i]]]; cbn in E; try (injection E as <-); try (now destruct i); (split; [constructor|]); cbn; intros r H; repeat (destruct H as [<-|H]; [lia|]); destruct H.
  - cbn [w_runs]. intros r d E. do 4 (destruct r as [|r]; [cbn in E; injection E as <-; repeat constructor; cbn; tauto|]). cbn in E. now destruct r.
Qed.
Example C98_ex_ragged : plot_one_curve w_ex [0; 2] (["image"], ["sound"])%string [15; 50] "" Solid false = Err ValueError.
Proof.
  apply (C98_ragged w_ex [0; 2] "image" "sound" [15; 50] "" Solid false 0 1 2 1); cbn; auto; try discriminate; try exact w_ex_wf.
  - intros [|[|i]] H; [exists 0, 2|exists 2, 1|lia]; auto.
  - exists 0. auto.
  - exists 2. auto.
Qed.
Example C98_ex_missing : plot_one_curve w_ex [0; 1] (["sound"], ["image"])%string [15; 50] "" Solid false = Err TypeError.
Proof.
  apply (C98_missing w_ex [0; 1] "sound" "image" [15; 50] "" Solid false 0 0 1 2); cbn; auto; try discriminate; try exact w_ex_wf; try lia.
  intros [|[|i]] H; [exists 0|exists 1|lia]; auto.
Qed.
(** Boxes, a merge, and curves of two dictionaries. *)
Definition w_box : world :=
  mkWorld (w_runs w_fig) [mkLogger [] [0] [] [] None None; mkLogger [("modalities"%string, VList [VStr "sound"; VStr "image"])] [0] [] [] None None].
Example C98_ex_boxes : exists panels last, plot_boxes true w_box [(("image", "sound")%string, 0)] 1 = Ok (panels, last) /\
  map fst panels = ["image, sound"]%string /\ map b_values (snd last) = [[1]; [1]]%R.
Proof. eexists _, _. split; [reflexivity|]. split; [reflexivity|]. cbn [snd map b_values]. now rewrite Q2R1. Qed.
Lemma w_box_scored i m1 m2 : i < 2 -> In m1 ["image"; "sound"]%string -> In m2 ["image"; "sound"]%string -> m1 <> m2 ->
  scored w_box i ("score_" ++ m1 ++ "2" ++ m2 ++ "_cosine")%string [1%R].
Proof.
  intros Hi I1 I2 D. split; [destruct i as [|[|]]; try reflexivity; lia|]. intros [|[|q]] v E; try discriminate. cbn in E. injection E as <-. exists 1%Q. split; [|now rewrite Q2R1].
  destruct I1 as [<-|[<-|[]]]; destruct I2 as [<-|[<-|[]]]; try congruence; destruct i as [|[|]]; try lia; reflexivity.
Qed.
Example C98_ex_boxes_hyps : exists panels last, plot_boxes true w_box [(("image", "sound")%string, 0)] 1 = Ok (panels, last) /\ List.length (snd last) = 2.
Proof.
  destruct (C98_boxes w_box [(("image", "sound")%string, 0)] 1 (VList [VStr "sound"; VStr "image"]) ["sound"; "image"]%string (fun _ _ _ xs => xs = [1%R]) (fun _ _ xs => xs = [1%R])) as (panels & last & E & _ & L & _).
  - discriminate.
  - intros m1 m2 lg [X|[]]. assert (m1 = "image"%string /\ m2 = "sound"%string /\ lg = 0) as (-> & -> & ->) by (repeat split; congruence).
    split; [cbn; auto|]. split; [cbn; auto|]. split; [discriminate|]. split; exists [1%R]; (split; [apply w_box_scored; cbn; auto; discriminate|reflexivity]).
  - reflexivity.
  - reflexivity.
  - intros m [<-|[<-|[]]]; cbn; auto.
  - intros m1 m2 I1 I2 D. exists [1%R]. split; [|reflexivity]. apply w_box_scored; auto; cbn in *; tauto.
  - exists panels, last. split; [exact E|exact L].
Qed.
Example C98_ex_python3 : plot_boxes_one_exp false w_box 0 (all_pairs ["image"; "sound"]%string) true = Err TypeError.
Proof.
  apply (C98_python3_refuted w_box 0 (["image"], ["sound"])%string [(["sound"], ["image"])%string] true); [|eexists; reflexivity].
  intros m' [<-|[<-|[]]]; exists [1%R]; apply (w_box_scored 0); cbn; auto; discriminate.
Qed.
Example C98_ex_merged : exists w', merge_experiments w_ex [0; 1] = (w', Ok 0) /\ scored w' 0 "score_image2sound" [0; 1; 1; 1]%R.
Proof.
  destruct (C98_merged w_ex 0 [1] (mkLogger [] [0; 1] [] [] None None) "score_image2sound" [[0; 1]; [1; 1]]%R w_ex_wf eq_refl) as (w' & E & S).
  - intros j [<-|[]]. discriminate.
  - cbn. intuition discriminate.
  - intros j b [<-|[]] Eb k. cbn in Eb. injection Eb as <-. cbn. tauto.
  - constructor; [now apply w_ex_scored|]. constructor; [now apply w_ex_scored|constructor].
  - exists w'. auto.
Qed.
Example C98_ex_2k : exists cs legend, plot_2k_graphs w_fig [[(("image", "sound")%string, [0])]; [(("image", "sound")%string, [0])]] [15] "" = Ok (cs, legend) /\
  map c_style cs = [Solid; Solid; Dashed; Dashed] /\ map fst legend = ["image $\rightarrow$ sound"; "sound $\rightarrow$ image"]%string.
Proof. eexists _, _. split; [reflexivity|]. split; reflexivity. Qed.
