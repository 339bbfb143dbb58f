(** * Properties of the launcher of experiments. *)

From Coq Require Import List ZArith Reals Bool Arith String Permutation QArith Qreals Lia Lra.
From Flocq Require Import Core.
Import ListNotations.
From Verif Require Import Py nd_model nd_spec logger_model logger_spec logger_proof pairing_model pairing_spec sparse_model learner_spec experiment_model experiment_spec figures_model figures_spec
  launcher_model launcher_spec launcher_names launcher_plan launcher_log launcher_run launcher_plot launcher_fail launcher_end.
From Verif Require serial_model serial_spec sound_model utils_props experiment_props.
Local Open Scope nat_scope.

(** ** The experiments that are planned *)

(** Every experiment has a name that says its modalities, number of components and
    repetition (or its descriptors and repetition), and the parameters that this name says;
    all those that the names can say are there; there is one job for each, in the same
    order, with the script of its class. *)
Theorem C100_plan : forall labels Ks n_run,
  (forall e, In e (exps labels Ks n_run) -> expected labels Ks n_run e) /\
  (forall mods kd k i, In (mods, kd) groups -> In k Ks -> i < n_run -> exists e, In e (exps labels Ks n_run) /\ pl_kind e = kd /\ named mods k i (pl_name e)) /\
  (forall d i, In d feature_sets -> i < n_run -> exists e, In e (exps labels Ks n_run) /\ pl_kind e = Two /\ named_feats d i (pl_name e)) /\
  Forall2 (fun e j => j_name j = pl_name e /\ script_kind (j_script j) = pl_kind e) (exps labels Ks n_run) (jobs labels Ks n_run).
Proof.
  intros labels Ks n_run. split; [exact (planned_expected labels Ks n_run)|]. split; [exact (group_planned labels Ks n_run)|]. split; [|exact (jobs_planned labels Ks n_run)].
  exact (feats_planned labels Ks n_run).
Qed.
Print Assumptions C100_plan.

(** The name of a job tells the experiment; names are used once unless a number of
    components is listed twice. *)
Theorem C100_names : forall labels Ks n_run,
  (forall e e', In e (exps labels Ks n_run) -> In e' (exps labels Ks n_run) -> pl_name e = pl_name e' -> e = e') /\
  (NoDup (map j_name (jobs labels Ks n_run)) <-> NoDup Ks \/ n_run = 0).
Proof. intros labels Ks n_run. split; [exact (name_determines labels Ks n_run)|exact (names_once labels Ks n_run)]. Qed.
Print Assumptions C100_names.

(** ** The files of parameters: each one loads as the experiment of its job. *)
Theorem C100_prepare : forall ord, enumerates ord -> forall config, (forall a b : string, config a = config b -> a = b) -> forall labels Ks n_run fs,
  exists fs', prepare_action labels Ks n_run ord config fs = (fs', Ok tt) /\
    (forall e, In e (exps labels Ks n_run) -> exists e', serial_model.load_from_serialized fs' (config (pl_name e)) = Ok e' /\ serial_spec.same_experiment (pl_exper e) e') /\
    forall q, (forall e, In e (exps labels Ks n_run) -> q <> config (pl_name e)) -> serial_model.load_from_serialized fs' q = serial_model.load_from_serialized fs q.
Proof. exact configs_prepared. Qed.
Print Assumptions C100_prepare.

(** ** One job: the script leaves the log of its experiment, and no other log changes; the
    script of three modalities then raises (see C99). *)
Theorem C100_job : forall labels Ks n_run data rd, runnable labels Ks n_run data rd -> forall ord, enumerates ord -> forall config py2 workdir files f e e',
  In e (exps labels Ks n_run) -> serial_model.load_from_serialized files (config (pl_name e)) = Ok e' -> serial_spec.same_experiment (pl_exper e) e' ->
  exists f' j, In j (jobs labels Ks n_run) /\ j_name j = pl_name e /\
    run_job py2 ord config workdir data rd files f j = (f', match pl_kind e with Three => Err (if py2 then ValueError else TypeError) | _ => Ok tt end) /\
    log_of labels Ks n_run data rd f' (sound_model.path_join workdir (pl_name e)) e /\
    forall p, p <> sound_model.path_join workdir (pl_name e) -> fs_read f' (p ++ ".json")%string = fs_read f (p ++ ".json")%string.
Proof. exact job_log. Qed.
Print Assumptions C100_job.

(** ** From the parameters to the figures: after all the jobs were run, in any order, any
    number of times, the figures show the scores of their experiments. *)
Theorem C100_figures : forall labels Ks n_run data rd, runnable labels Ks n_run data rd -> forall ord, enumerates ord ->
  forall config, (forall a b : string, config a = config b -> a = b) -> 0 < n_run ->
  forall order, (forall j, In j order <-> In j (jobs labels Ks n_run)) -> forall fs0 f0 py2 workdir w0, wf_world w0 -> In 50 Ks ->
  exists files w g, prepare_action labels Ks n_run ord config fs0 = (files, Ok tt) /\
    plot_action labels Ks n_run true workdir (run_jobs py2 ord config workdir data rd files f0 order) w0 = (w, Ok g) /\
    shown_figures labels Ks n_run data rd g.
Proof. exact figures_made. Qed.
Print Assumptions C100_figures.

(** The figures fail when the log of some job is missing, *)
Theorem C100_missing : forall labels Ks n_run data rd, runnable labels Ks n_run data rd -> forall ord, enumerates ord ->
  forall config, (forall a b : string, config a = config b -> a = b) -> 0 < n_run ->
  forall fs0 f0 py2 workdir order w0 b, (forall j, In j order -> In j (jobs labels Ks n_run)) -> (exists j, In j (jobs labels Ks n_run) /\ ~ In j order) ->
  (forall j, In j (jobs labels Ks n_run) -> fs_read f0 (sound_model.path_join workdir (j_name j) ++ ".json")%string = None) -> wf_world w0 ->
  exists files w, prepare_action labels Ks n_run ord config fs0 = (files, Ok tt) /\
    plot_action labels Ks n_run b workdir (run_jobs py2 ord config workdir data rd files f0 order) w0 = (w, Err IOError).
Proof. exact not_all_run. Qed.
Print Assumptions C100_missing.

(** and, with all logs, in Python 3, or when 50 is not a number of components; *)
Theorem C100_figures_refuted : forall labels Ks n_run data rd, runnable labels Ks n_run data rd -> forall ord, enumerates ord ->
  forall config, (forall a b : string, config a = config b -> a = b) -> 0 < n_run ->
  forall order, (forall j, In j order <-> In j (jobs labels Ks n_run)) -> forall fs0 f0 py2 workdir w0, wf_world w0 ->
  exists files, prepare_action labels Ks n_run ord config fs0 = (files, Ok tt) /\
    let f := run_jobs py2 ord config workdir data rd files f0 order in
    (In 50 Ks -> exists w, plot_action labels Ks n_run false workdir f w0 = (w, Err TypeError)) /\
    (Ks <> [] -> ~ In 50 Ks -> forall b, exists w, plot_action labels Ks n_run b workdir f w0 = (w, Err ValueError)).
Proof. exact figures_not_made. Qed.
Print Assumptions C100_figures_refuted.

(** and with no repetition. *)
Theorem C100_no_runs : forall labels Ks py2 workdir f w, Ks <> [] -> exists w', plot_action labels Ks 0 py2 workdir f w = (w', Err ValueError).
Proof. exact plot_no_runs. Qed.
Print Assumptions C100_no_runs.

(** ** Examples: 33 samples with the same label in each modality. *)
Definition ex_ld := Loader (repeat "a"%string 33) (Dense (nd_model.mat 1 (repeat [1%R] 33))).
Definition ex_data (_ : serial_model.loader nd) := ex_ld.
Definition ex_rd3 (n : nat) := Random (repeat ["a"%string] n) (fun _ _ l => l) [0] (fun l => l) (fun _ _ _ _ => 1%R) "" "".
Definition ex_rd (name : string) : random := ex_rd3 (if String.eqb name "image_motion_sound_50_0" then 3 else 2).
Definition ex_x kd mods n := Exp kd mods (repeat ex_ld n) 50 None 50 50 true Single false.
Lemma ex_paired n kd mods : n = 2 \/ n = 3 -> exists t, associate_samples String.eqb (r_names (ex_rd3 n)) (r_buckets (ex_rd3 n)) (map ld_labels (x_loaders (ex_x kd mods n))) =
  Ok (repeat ["a"%string] n, repeat 0 33, t) /\ List.length t = 33.
Proof. intros [-> | ->]; eexists; (split; [reflexivity|reflexivity]). Qed.
Lemma ex_split : can_split Single 32.
Proof.
  split; [cbn; lia|]. unfold utils_model.nb_test_of. change (Z.of_nat 32) with 32%Z. rewrite (utils_props.round64_int 32) by (cbn; lia).
  assert (M : forall x y, (x <= y)%R -> (utils_model.round64 x <= utils_model.round64 y)%R) by (intros; apply round_le; [apply FLT_exp_valid; reflexivity|apply valid_rnd_N|assumption]).
  assert (P : forall z, (-1000 <= z <= 0)%Z -> utils_model.round64 (bpow radix2 z) = bpow radix2 z).
  { intros z Hz. apply round_generic; [apply valid_rnd_N|]. apply generic_format_bpow. unfold FLT_exp. lia. }
  pose proof (M (bpow radix2 (-4)) (/ 10)%R) as A. pose proof (M (/ 10)%R (bpow radix2 (-3))) as B. rewrite P in A, B by lia. cbn in A, B. specialize (A ltac:(lra)). specialize (B ltac:(lra)).
  set (r := utils_model.round64 (/ 10)) in *.
  pose proof (M 2%R (r * 32)%R ltac:(lra)) as A'. pose proof (M (r * 32)%R 4%R ltac:(lra)) as B'. rewrite (utils_props.round64_int 2) in A' by (cbn; lia). rewrite (utils_props.round64_int 4) in B' by (cbn; lia).
  set (s := utils_model.round64 (r * 32)) in *. pose proof (Ztrunc_le _ _ A') as A2. pose proof (Ztrunc_le _ _ B') as B2. rewrite Ztrunc_IZR in A2, B2. lia.
Qed.
Lemma ex_one : distinct_labels ["a"%string] (repeat "a"%string 33).
Proof. split; [repeat constructor; auto|]. intro s. split; [intros [<-|[]]; now left|]. intro H. apply repeat_spec in H. subst. now left. Qed.
Lemma ex_good n kd mods : n = 2 \/ n = 3 -> NoDup mods -> List.length mods = n -> sound (ex_x kd mods n) /\ legal (ex_x kd mods n) (ex_rd3 n) /\ enough (ex_x kd mods n) (ex_rd3 n).
Proof.
  intros Hn N L. assert (I : forall ld, In ld (repeat ex_ld n) -> ld = ex_ld) by (intros ld H; now apply repeat_spec in H). split; [|split].
  - unfold sound, ex_x. cbn [x_mods x_loaders x_coefs x_k x_iter_train x_iter_test]. split; [exact N|]. split; [intros ->; cbn in L; lia|]. split; [now rewrite repeat_length|].
    split; [|split; [|split; [|split; [lia|split; lia]]]].
    + intros ld H. rewrite (I ld H). split; [exists 1; reflexivity|]. apply experiment_props.ex_nonneg_mat. apply Forall_forall. intros x Hx. apply repeat_spec in Hx. subst. repeat constructor. lra.
    + exists 1. split; [lia|]. intros ld H. rewrite (I ld H). exists ["a"%string]. split; [exact ex_one|reflexivity].
    + intros ld H. rewrite (I ld H). exists [0; 0]. split; [cbn; lia|cbn; lra].
  - split; [|split; [|split]].
    + destruct Hn as [-> | ->]; cbn [ex_rd3 r_names ex_x x_loaders map repeat]; repeat (constructor; [exact ex_one|]); constructor.
    + intros m i l. apply Permutation_refl.
    + intro l. apply Permutation_refl.
    + intros ns l t E. destruct (ex_paired n kd mods Hn) as (t' & E' & _). rewrite E' in E. assert (l = repeat 0 33) by congruence. subst l. cbn [x_debug ex_x ex_rd3 r_label_set].
      split; [repeat constructor; auto|]. intro v. split; [intros [<-|[]]; now left|]. intro H. apply repeat_spec in H. subst. now left.
  - intros ns l t E. destruct (ex_paired n kd mods Hn) as (t' & E' & Lt). rewrite E' in E. assert (t = t') by congruence. subst t. unfold kept_rows. cbn [x_debug ex_x x_mode]. rewrite Lt. exact ex_split.
Qed.
Lemma ex_runnable : runnable ["cup"%string] [50] 1 ex_data ex_rd.
Proof.
  intros e e' x I S E. destruct (made ["cup"%string] [50] 1 ex_data e e' I S) as (x' & k & E' & Ek & Xe). assert (x = x') by congruence. subst x.
  assert (Lm : List.length (serial_model.ex_loaders e') = List.length (serial_model.ex_loaders (pl_exper e))).
  { destruct S as (_ & F & _). clear - F. induction F; cbn; congruence. }
  assert (Md : map ex_data (serial_model.ex_loaders e') = repeat ex_ld (List.length (serial_model.ex_loaders e'))) by (clear; generalize (serial_model.ex_loaders e'); intro l; induction l as [|a l IH]; [reflexivity|]; cbn [map repeat List.length]; rewrite IH; reflexivity).
  rewrite Md, Lm in Xe. clear - I Xe Ek. cbn in I.
  repeat (destruct I as [<-|I]; [cbn in Ek; injection Ek as Ek; assert (k = 50) by lia; subst k; rewrite Xe; cbn [pl_kind pl_exper pl_name with_defaults serial_model.init serial_model.ex_modalities serial_model.ex_loaders map fst snd List.length];
    (apply (ex_good 2)+apply (ex_good 3)); [tauto|repeat (constructor; [cbn; intuition discriminate|]); constructor|reflexivity]|]). destruct I.
Qed.
Lemma ex_order : forall j, In j (rev (jobs ["cup"%string] [50] 1)) <-> In j (jobs ["cup"%string] [50] 1).
Proof. intro j. symmetry. apply in_rev. Qed.
Example C100_ex : exists files w g, prepare_action ["cup"%string] [50] 1 (fun s => s) (fun s => s) [] = (files, Ok tt) /\
  plot_action ["cup"%string] [50] 1 true "work" (run_jobs true (fun s => s) (fun s => s) "work" ex_data ex_rd files [] (rev (jobs ["cup"%string] [50] 1))) (mkWorld [] []) = (w, Ok g) /\
  shown_figures ["cup"%string] [50] 1 ex_data ex_rd g.
Proof.
  apply (C100_figures ["cup"%string] [50] 1 ex_data ex_rd ex_runnable (fun s => s)); [intros s k; reflexivity|auto|lia|exact ex_order|apply logger_proof.empty_wf|now left].
Qed.
Example C100_ex_missing : exists files w, prepare_action ["cup"%string] [50] 1 (fun s => s) (fun s => s) [] = (files, Ok tt) /\
  plot_action ["cup"%string] [50] 1 true "work" (run_jobs true (fun s => s) (fun s => s) "work" ex_data ex_rd files [] (tl (jobs ["cup"%string] [50] 1))) (mkWorld [] []) = (w, Err IOError).
Proof.
  apply (C100_missing ["cup"%string] [50] 1 ex_data ex_rd ex_runnable (fun s => s)); [intros s k; reflexivity|auto|lia| | | |apply logger_proof.empty_wf].
  - intros j I. right. exact I.
  - exists (Job "motion_sound_50_0" SCRIPT2). split; [now left|]. cbn. intuition discriminate.
  - reflexivity.
Qed.
Example C100_ex_names : map j_name (jobs ["cup"%string] [10; 50] 1) =
  ["motion_sound_10_0"; "motion_sound_50_0"; "image_sound_10_0"; "image_sound_50_0"; "image_motion_10_0"; "image_motion_50_0"; "image_motion_sound_10_0"; "image_motion_sound_50_0";
   "image_sound_feats_SURF_0"; "image_sound_feats_color_0"; "image_sound_feats_SURF_pairs_0"; "image_sound_feats_color_pairs_0"; "image_sound_feats_color_triplets_0"; "image_sound_feats_SURF_color_0";
   "image_sound_feats_SURF_pairs_color_pairs_0"; "image_sound_feats_SURF_pairs_color_triplets_0"; "image_sound_feats_SURF_color_SURF_pairs_color_pairs_color_triplets_0"]%string.
Proof. reflexivity. Qed.
Example C100_ex_groups : In (["image"; "motion"; "sound"]%string, Three) groups /\ In ["SURF"; "color"]%string feature_sets.
Proof. cbn. tauto. Qed.
