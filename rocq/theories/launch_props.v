(** * Theorems about the command line of the launcher (C124). *)

From Coq Require Import List ZArith Reals Bool Arith Ascii String Lia Permutation.
Import ListNotations.
From Verif Require Import Py nd_model logger_model logger_spec experiment_model figures_model figures_spec launcher_model launcher_spec
  launch_model launch_spec launch_proof.
From Verif Require serial_model sound_model launcher_props.
Local Open Scope nat_scope.

(** ** prepare, run, and plot --save: the four figures show the results of the jobs and are
    the contents of four distinct files of the directory that was asked for; one line is
    printed for each. *)
Theorem C124_session : forall s turns a1 a2 a3 d, usable s -> s_py2 s = true -> In 50 (s_Ks s) ->
  a_action a1 = Prepare -> a_action a2 = RunJobs -> a_action a3 = Plot -> a_save a3 = true ->
  (forall c, a_config a3 = Some c -> s_rc_file s c = Ok tt) -> (forall p, a_path (s_expanduser s) a3 p -> s_savefig s p = Ok tt) ->
  exists d1 d2 lines r d3 written g,
    main s turns a1 d = (d1, [], Ok tt) /\ main s turns a2 d1 = (d2, lines, r) /\ main s turns a3 d2 = (d3, written, Ok tt) /\
    shown_figures (s_labels s) (s_Ks s) (s_n_run s) (s_data s) (s_rd s) g /\
    (forall dir name f path, goes_to (s_expanduser s) a3 dir -> figure_named g name f -> inside dir (name ++ "." ++ a_format a3) path ->
       dict_get String.eqb (d_figures d3) path = Some f) /\
    length written = 4 /\ NoDup written /\
    forall line, In line written <-> exists path, a_path (s_expanduser s) a3 path /\ line = ("Written: " ++ path ++ ".")%string.
Proof. exact session. Qed.

(** ** What a command leaves as it was. *)
Theorem C124_frame : forall s turns a d d' l r, (forall l, Permutation l (s_names_order s l)) -> main s turns a d = (d', l, r) ->
  (a_action a <> Prepare -> d_params d' = d_params d) /\ (a_action a <> RunJobs -> d_logs d' = d_logs d) /\
  (a_action a <> Plot \/ a_save a = false -> d_figures d' = d_figures d) /\
  (forall p, ~ a_path (s_expanduser s) a p -> dict_get String.eqb (d_figures d') p = dict_get String.eqb (d_figures d) p).
Proof. exact main_frame. Qed.

(** ** The status: without -w one line; with -w a line for each turn, until a read of the status
    is FAILED or more, and one line after it. *)
Theorem C124_status : forall s turns a d, a_action a = Status -> a_watch a = false ->
  exists line, main s turns a d = (d, [line], Ok tt) /\ line_at (s_show s) (s_st s) (s_counts s) 0 line.
Proof. intros s turns a d A W. unfold main. rewrite A, W. eexists. split; [reflexivity|apply stats_line]. Qed.
Theorem C124_watch : forall s turns a d n, a_action a = Status -> a_watch a = true ->
  (forall i, i < n -> (s_st s (3 * i) < s_FAILED s)%Z) -> (s_FAILED s <= s_st s (3 * n)%nat)%Z -> n < turns ->
  exists lines, main s turns a d = (d, lines, Ok tt) /\ length lines = S n /\
    forall i line, nth_error lines i = Some line -> line_at (s_show s) (s_st s) (s_counts s) (3 * i + 1) line.
Proof.
  intros s turns a d n A W L G T. unfold main. rewrite A, W. unfold watch.
  destruct (watch_ends (s_FAILED s) (s_show s) (s_st s) (s_counts s) n 0 turns L G T) as (lines & -> & H). now exists lines.
Qed.
Theorem C124_watch_forever : forall s turns a d, a_action a = Status -> a_watch a = true -> (forall i, (s_st s (3 * i) < s_FAILED s)%Z) ->
  exists lines, main s turns a d = (d, lines, Err Timeout) /\ length lines = turns.
Proof.
  intros s turns a d A W L. unfold main. rewrite A, W. unfold watch.
  destruct (watch_forever (s_FAILED s) (s_show s) (s_st s) (s_counts s) turns 0 L) as (lines & -> & H). now exists lines.
Qed.
(** The status that ends the loop is not the one that is printed: it is read again. *)
Theorem C124_last_line_refuted : exists s a d line, a_action a = Status /\ a_watch a = true /\
  main s 1 a d = (d, [line], Ok tt) /\ (s_FAILED s <= s_st s 0)%Z /\ line_at (s_show s) (s_st s) (s_counts s) 1 line /\ (s_st s 1 < s_FAILED s)%Z.
Proof.
  exists (Setting [] [] 0 (fun l => l) (fun x => x) launcher_props.ex_data (launcher_props.ex_rd) [] (fun l => l) (fun x => x) false true
    2 (fun z => if (z <? 2)%Z then "running" else "done")%string (fun t => if t =? 0 then 2%Z else 1%Z) (fun _ => []) (fun _ => Ok tt) (fun _ => Ok tt)).
  exists (Args Status true None false false None None "svg"), (Disk [] [] []). eexists. split; [reflexivity|]. split; [reflexivity|]. split; [reflexivity|].
  split; [cbn; lia|]. split; [|cbn; lia]. apply stats_line.
Qed.

(** ** run: the status is watched with the launcher of processes, or if asked for. *)
Theorem C124_run_watches : forall s turns a d, a_action a = RunJobs -> turns <> 0 ->
  (snd (fst (main s turns a d)) = [] <-> ~ by_processes (s_has_qsub s) a /\ a_watch a = false).
Proof.
  intros s turns a d A T. unfold main, by_processes, chosen_launcher. rewrite A.
  pose proof (watch_prints (s_FAILED s) (s_show s) (s_st s) (s_counts s) turns 0 T) as P. fold (watch s) in P.
  destruct (watch s turns 0) as [l r]. cbn [fst] in P.
  destruct (a_launcher a) as [[|]|] eqn:El; [| |destruct (s_has_qsub s) eqn:Eq].
  - destruct (a_watch a); cbn [fst snd]; (split; [intro H; contradiction|intros [H _]; exfalso; apply H; auto]).
  - destruct (a_watch a); cbn [fst snd]; [split; [intro H; contradiction|intros [_ H]; discriminate]|].
    split; [intros _; split; [intros [H|[H _]]; discriminate|reflexivity]|reflexivity].
  - destruct (a_watch a); cbn [fst snd]; [split; [intro H; contradiction|intros [_ H]; discriminate]|].
    split; [intros _; split; [intros [H|[_ H]]; discriminate|reflexivity]|reflexivity].
  - destruct (a_watch a); cbn [fst snd]; (split; [intro H; contradiction|intros [H _]; exfalso; apply H; auto]).
Qed.
(** The lines are those of the command status with -w. *)
Theorem C124_run_lines : forall s turns a b d d2, a_action a = RunJobs -> a_action b = Status -> a_watch b = true ->
  by_processes (s_has_qsub s) a \/ a_watch a = true ->
  exists d' lines r, main s turns a d = (d', lines, r) /\ main s turns b d2 = (d2, lines, r).
Proof.
  intros s turns a b d d2 A B W C. unfold main, by_processes, chosen_launcher in *. rewrite A, B, W.
  destruct (watch s turns 0) as [l r]. destruct C as [[E|(E & E2)]|E]; rewrite E; try rewrite E2; [| |destruct (a_launcher a) as [[|]|], (s_has_qsub s)];
    do 3 eexists; split; reflexivity.
Qed.

(** ** The action resume is accepted and does nothing: the jobs that were prepared are not run,
    and there is nothing to plot. *)
Theorem C124_resume_refuted : forall s turns a1 a2 a3 d, usable s -> a_action a1 = Prepare -> a_action a2 = Resume -> a_action a3 = Plot ->
  (forall c, a_config a3 = Some c -> s_rc_file s c = Ok tt) ->
  (forall j, In j (jobs (s_labels s) (s_Ks s) (s_n_run s)) ->
     fs_read (d_logs d) (sound_model.path_join (s_expanduser s "~/work/data/results/multimodal/") (j_name j) ++ ".json")%string = None) ->
  exists d1, main s turns a1 d = (d1, [], Ok tt) /\ main s turns a2 d1 = (d1, [], Ok tt) /\ main s turns a3 d1 = (d1, [], Err IOError).
Proof. exact resumed. Qed.
(** ** Python 3: no figure is saved. *)
Theorem C124_python3_refuted : forall s turns a1 a2 a3 d, usable s -> s_py2 s = false -> In 50 (s_Ks s) ->
  a_action a1 = Prepare -> a_action a2 = RunJobs -> a_action a3 = Plot -> (forall c, a_config a3 = Some c -> s_rc_file s c = Ok tt) ->
  exists d1 d2 lines r, main s turns a1 d = (d1, [], Ok tt) /\ main s turns a2 d1 = (d2, lines, r) /\ main s turns a3 d2 = (d2, [], Err TypeError).
Proof. exact session_python3. Qed.
(** ** --no-plot does not prevent the figures from being made, or what they raise. *)
Theorem C124_no_plot_refuted : forall s turns d w l v c p f b b',
  main s turns (Args Plot w l v b c p f) d = main s turns (Args Plot w l v b' c p f) d.
Proof. reflexivity. Qed.

Print Assumptions C124_session.
Print Assumptions C124_frame.
Print Assumptions C124_status.
Print Assumptions C124_watch.
Print Assumptions C124_watch_forever.
Print Assumptions C124_last_line_refuted.
Print Assumptions C124_run_watches.
Print Assumptions C124_run_lines.
Print Assumptions C124_resume_refuted.
Print Assumptions C124_python3_refuted.
Print Assumptions C124_no_plot_refuted.

(** ** Examples: the setting of the example of C100, with a home directory. *)
Definition ex_home (p : string) : string := match p with String "~"%char r => ("/home/u" ++ r)%string | _ => p end.
Definition ex_setting (py2 : bool) : setting :=
  Setting ["cup"%string] [50] 1 (fun s => s) (fun s => s) launcher_props.ex_data launcher_props.ex_rd (rev (jobs ["cup"%string] [50] 1)) (@rev string) ex_home false py2
    2 (fun z => if (z <? 2)%Z then "running" else "done")%string (fun t => if t <? 5 then 1%Z else 2%Z)
    (fun t => if t <? 5 then [("done", "3"); ("running", "10")]%string else [("done", "13")]%string) (fun _ => Ok tt) (fun _ => Ok tt).
Example ex_usable py2 : usable (ex_setting py2).
Proof.
  unfold usable, ex_setting. cbn [s_labels s_Ks s_n_run s_data s_rd s_ord s_config s_order s_names_order].
  split; [exact launcher_props.ex_runnable|]. split; [intros s k; reflexivity|]. split; [auto|]. split; [lia|]. split; [exact launcher_props.ex_order|]. intro l. apply Permutation_rev.
Qed.
Definition ex_plot := Args Plot false None true true None (Some "figs"%string) "pdf".
Example ex_session : exists d1 d2 lines r d3 written (g : figures),
  main (ex_setting true) 9 (Args Prepare false None false false None None "svg") (Disk [] [] []) = (d1, [], Ok tt) /\
  main (ex_setting true) 9 (Args RunJobs false None false false None None "svg") d1 = (d2, lines, r) /\
  main (ex_setting true) 9 ex_plot d2 = (d3, written, Ok tt) /\
  dict_get String.eqb (d_figures d3) "figs/image_feats.pdf"%string = Some (Feats (snd (fst g))).
Proof.
  destruct (C124_session (ex_setting true) 9 (Args Prepare false None false false None None "svg") (Args RunJobs false None false false None None "svg") ex_plot (Disk [] [] []))
    as (d1 & d2 & lines & r & d3 & written & g & E1 & E2 & E3 & _ & F & _); try reflexivity; try (intros; reflexivity).
  - apply ex_usable.
  - now left.
  - exists d1, d2, lines, r, d3, written, g. split; [exact E1|]. split; [exact E2|]. split; [exact E3|]. apply (F "figs"%string "image_feats"%string); [reflexivity|constructor|].
    right. split; [discriminate|]. split; [|reflexivity]. intros (d & E). destruct d as [|a [|b [|c' [|e d]]]]; try discriminate. injection E as _ _ _ _ E. destruct d; discriminate.
Qed.
Example ex_watch : main (ex_setting true) 9 (Args Status true None false false None None "svg") (Disk [] [] []) =
  (Disk [] [] [], ["running (done: 3, running: 10)"; "running (done: 13)"; "done (done: 13)"]%string, Ok tt).
Proof. reflexivity. Qed.
Example ex_resume : exists d1, main (ex_setting true) 9 (Args Prepare false None false false None None "svg") (Disk [] [] []) = (d1, [], Ok tt) /\
  main (ex_setting true) 9 (Args Resume false None false false None None "svg") d1 = (d1, [], Ok tt) /\ main (ex_setting true) 9 ex_plot d1 = (d1, [], Err IOError).
Proof. apply C124_resume_refuted; try reflexivity. apply ex_usable. Qed.
