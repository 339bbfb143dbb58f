(** * The launcher from the parameters of experiments to the figures. *)

From Coq Require Import List ZArith Reals Bool Arith String Ascii QArith Qreals Lia.
Import ListNotations.
From Verif Require Import Py Py_proof nd_model logger_model logger_spec logger_proof logger_load logger_file experiment_model experiment_spec
  figures_model figures_spec figures_proof launcher_model launcher_spec launcher_names launcher_plan launcher_log launcher_run launcher_plot launcher_fail.
From Verif Require serial_model serial_spec sound_model.
Local Open Scope nat_scope.

Lemma f2_map {A B C} (P : A -> B -> Prop) (g : A -> C) (h : B -> C) l l' : Forall2 P l l' -> (forall a b, P a b -> g a = h b) -> map g l = map h l'.
Proof. intros F H. induction F as [|a b l l' X F IH]; cbn; [reflexivity|]. now rewrite (H a b X), IH. Qed.
Lemma job_names labels Ks n : map j_name (jobs labels Ks n) = map pl_name (exps labels Ks n).
Proof. rewrite jobs_eq, map_map. reflexivity. Qed.
Lemma names_once labels Ks n : NoDup (map j_name (jobs labels Ks n)) <-> NoDup Ks \/ n = 0.
Proof. rewrite job_names, names_of_exps. apply names_nodup. Qed.

Section E.
Variable labels : list string.
Variable Ks : list nat.
Variable n_run : nat.
Notation exps := (exps labels Ks n_run).
Notation jobs := (jobs labels Ks n_run).
Variable data : serial_model.loader nd -> loader.
Variable rd : string -> random.
Notation path workdir e := (sound_model.path_join workdir (pl_name e)).

Lemma done_log f workdir e D : In e exps -> done labels Ks n_run data rd e D -> holds f (path workdir e) D -> log_of labels Ks n_run data rd f (path workdir e) e.
Proof.
  intros I (x & p & split & Ra & Xk & Xm & _ & Gv & H2 & H3) Ho. exists x, p, split. split; [exact Ra|]. split; [exact Xk|]. split; [exact Xm|]. intros w W.
  destruct (holds_load f _ D w Ho W) as (w' & El & W' & _ & B & _). exists w', (List.length (w_logs w)). split; [exact El|]. split; [exact W'|].
  assert (Rc : recorded D w' (List.length (w_logs w))) by (right; right; exact B).
  destruct (planned_kind labels Ks n_run e I) as [_ Hk]. split; [|split].
  - destruct (recorded_names D w' _ (x_mods x) Gv Rc) as (v & A & C). eauto.
  - intros K m1 m2 cmp s A1 A2 A3 A4. destruct (H2 ltac:(congruence) m1 m2 cmp s) as (v & S & T).
    + destruct Hk as [[_ L]|[L _]]; [rewrite Xm, L; exact A1|congruence].
    + destruct Hk as [[_ L]|[L _]]; [rewrite Xm, L; exact A2|congruence].
    + destruct Hk as [[_ L]|[L _]]; [|congruence]. rewrite Xm, L. exact A3.
    + exact A4.
    + exists v. split; [exact (recorded_scored D w' _ _ _ S Rc)|exact T].
  - intros K ms1 ms2 s A1 A2. destruct (H3 ltac:(congruence) ms1 ms2 s A1 A2) as (v & S & T). exists v. split; [exact (recorded_scored D w' _ _ _ S Rc)|exact T].
Qed.

Hypothesis Rn : runnable labels Ks n_run data rd.
Variable ord : list string -> list string.
Hypothesis Ho : enumerates ord.
Variable config : string -> string.
Hypothesis Hc : forall a b, config a = config b -> a = b.

Lemma job_log py2 workdir files f e e' : In e exps -> serial_model.load_from_serialized files (config (pl_name e)) = Ok e' -> serial_spec.same_experiment (pl_exper e) e' ->
  exists f' j, In j jobs /\ j_name j = pl_name e /\
    run_job py2 ord config workdir data rd files f j = (f', match pl_kind e with Three => Err (if py2 then ValueError else TypeError) | _ => Ok tt end) /\
    log_of labels Ks n_run data rd f' (path workdir e) e /\
    forall p, p <> path workdir e -> fs_read f' (p ++ ".json")%string = fs_read f (p ++ ".json")%string.
Proof.
  intros I El Sm. destruct (job_ends labels Ks n_run data rd Rn py2 ord config workdir files f e e' Ho I El Sm) as (f' & D & E & Dn & Hd & Oth).
  exists f', (job_of e). split; [rewrite jobs_eq; now apply in_map|]. split; [reflexivity|]. split; [exact E|]. split; [exact (done_log f' workdir e D I Dn Hd)|exact Oth].
Qed.
Lemma in_order e order : In e exps -> In (pl_name e) (map j_name order) -> (forall j, In j order -> In j jobs) -> In (job_of e) order.
Proof.
  intros I X J. apply in_map_iff in X as (j & Ej & X). pose proof (J j X) as Y. rewrite jobs_eq in Y. apply in_map_iff in Y as (e3 & E3 & I3). subst j. 
  replace e with e3; [exact X|]. apply (name_determines labels Ks n_run); auto.
Qed.
Lemma each_job fs0 f0 py2 workdir order : (forall j, In j order -> In j jobs) ->
  exists files, prepare_action labels Ks n_run ord config fs0 = (files, Ok tt) /\
    let f := run_jobs py2 ord config workdir data rd files f0 order in
    (forall e, In e exps -> In (pl_name e) (map j_name order) -> exists D, done labels Ks n_run data rd e D /\ holds f (path workdir e) D) /\
    forall p, (forall j, In j order -> p <> sound_model.path_join workdir (j_name j)) -> fs_read f (p ++ ".json")%string = fs_read f0 (p ++ ".json")%string.
Proof.
  intros J. destruct (configs_prepared ord Ho config Hc labels Ks n_run fs0) as (files & E & L & _). exists files. split; [exact E|].
  destruct (all_jobs labels Ks n_run data rd Rn py2 ord config workdir files order Ho L J f0) as [A B]. cbv zeta. split; [|exact B].
  intros e I X. apply A; [exact I|]. now apply in_order.
Qed.
Hypothesis some : 0 < n_run.
Section All.
Variable order : list job.
Hypothesis all : forall j, In j order <-> In j jobs.
Lemma all_done fs0 f0 py2 workdir : exists files, prepare_action labels Ks n_run ord config fs0 = (files, Ok tt) /\
    let f := run_jobs py2 ord config workdir data rd files f0 order in
    forall e, In e exps -> exists D, done labels Ks n_run data rd e D /\ holds f (path workdir e) D.
Proof.
  destruct (each_job fs0 f0 py2 workdir order) as (files & E & A & _); [apply all|]. exists files. split; [exact E|]. intros f e I. apply A; [exact I|].
  apply in_map_iff. exists (job_of e). split; [reflexivity|]. apply all. rewrite jobs_eq. now apply in_map.
Qed.
Lemma figures_made fs0 f0 py2 workdir w0 : wf_world w0 -> In 50 Ks ->
  exists files w g, prepare_action labels Ks n_run ord config fs0 = (files, Ok tt) /\
    plot_action labels Ks n_run true workdir (run_jobs py2 ord config workdir data rd files f0 order) w0 = (w, Ok g) /\ shown_figures labels Ks n_run data rd g.
Proof.
  intros W K. destruct (all_done fs0 f0 py2 workdir) as (files & E & C). destruct (plotted labels Ks n_run data rd workdir _ some C w0 W K) as (w & g & A & B). exists files, w, g. auto.
Qed.
Lemma figures_not_made fs0 f0 py2 workdir w0 : wf_world w0 ->
  exists files, prepare_action labels Ks n_run ord config fs0 = (files, Ok tt) /\
    let f := run_jobs py2 ord config workdir data rd files f0 order in
    (In 50 Ks -> exists w, plot_action labels Ks n_run false workdir f w0 = (w, Err TypeError)) /\
    (Ks <> [] -> ~ In 50 Ks -> forall b, exists w, plot_action labels Ks n_run b workdir f w0 = (w, Err ValueError)).
Proof.
  intros W. destruct (all_done fs0 f0 py2 workdir) as (files & E & C). exists files. split; [exact E|]. intro f. split.
  - intro K. exact (plot_python3 labels Ks n_run data rd workdir f some C w0 W K).
  - intros N K b. exact (plot_no50 labels Ks n_run data rd workdir f some C b w0 W N K).
Qed.
End All.
(** Some job was not run, and there was no log of it. *)
Lemma not_all_run fs0 f0 py2 workdir order w0 b : (forall j, In j order -> In j jobs) -> (exists j, In j jobs /\ ~ In j order) ->
  (forall j, In j jobs -> fs_read f0 (sound_model.path_join workdir (j_name j) ++ ".json")%string = None) -> wf_world w0 ->
  exists files w, prepare_action labels Ks n_run ord config fs0 = (files, Ok tt) /\
    plot_action labels Ks n_run b workdir (run_jobs py2 ord config workdir data rd files f0 order) w0 = (w, Err IOError).
Proof.
  intros J (j0 & J0 & N0) M W. destruct (each_job fs0 f0 py2 workdir order J) as (files & E & A & B). cbv zeta in A, B. set (f := run_jobs _ _ _ _ _ _ _ _ _) in *.
  assert (X : forall e, In e exps -> ~ In (pl_name e) (map j_name order) -> missing workdir f e).
  { intros e I X. unfold missing. rewrite B; [apply (M (job_of e)); rewrite jobs_eq; now apply in_map|]. intros j Ij Ep. apply X.
    pose proof (J j Ij) as Y. rewrite jobs_eq in Y. apply in_map_iff in Y as (e3 & <- & I3). rewrite (path_inj labels Ks n_run workdir e e3 I I3 Ep). exact (in_map j_name _ _ Ij). }
  assert (Ej : exists e, In e exps /\ j0 = job_of e). { rewrite jobs_eq in J0. apply in_map_iff in J0 as (e & <- & I). eauto. }
  destruct Ej as (e & I & ->).
  destruct (plot_missing labels Ks n_run data rd workdir f some) with (py2 := b) (e := e) (w := w0) as (w & P).
  - intros e1 I1. destruct (in_dec string_dec (pl_name e1) (map j_name order)) as [Y|Y]; [left; now apply A|right; now apply X].
  - exact I.
  - apply X; [exact I|]. intro Y. apply N0. now apply in_order.
  - exact W.
  - exists files, w. auto.
Qed.
End E.
