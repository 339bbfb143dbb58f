(** * Lemmas about the figures that cannot be made. *)

From Coq Require Import List ZArith Reals Bool Arith String Ascii QArith Qreals Lia.
Import ListNotations.
From Verif Require Import Py Py_proof nd_model logger_model logger_spec logger_proof logger_load logger_file experiment_model experiment_spec
  figures_model figures_spec figures_proof figures_draw figures_exp figures_tables launcher_model launcher_spec launcher_names launcher_plan launcher_log launcher_run launcher_plot.
From Verif Require serial_model serial_spec sound_model.
Local Open Scope nat_scope.
Notation three_mods := ["image"; "motion"; "sound"]%string.

(** The computation goes through when [B] is false, and raises IOError when it is true. *)
Definition tells {A} (c : world -> world * result A) (B : Prop) : Prop :=
  ((forall w, wf_world w -> exists w' b, c w = (w', Ok b) /\ wf_world w') /\ ~ B) \/ ((forall w, wf_world w -> exists w', c w = (w', Err IOError)) /\ B).
Lemma tells_iff {A} (c : world -> world * result A) B B' : (B <-> B') -> tells c B -> tells c B'.
Proof. unfold tells. tauto. Qed.
Lemma tells_ret {A C} (c : world -> world * result A) (g : A -> C) B : tells c B -> tells (fun w => wbind (c w) (fun w x => (w, Ok (g x)))) B.
Proof.
  intros [[H N]|[H N]]; [left|right]; (split; [|exact N]); intros w W.
  - destruct (H w W) as (w' & b & -> & W'). cbn [wbind]. eauto.
  - destruct (H w W) as (w' & ->). cbn [wbind]. eauto.
Qed.
Lemma tells_map {A C} (f : world -> A -> world * result C) l (B : A -> Prop) : (forall a, In a l -> tells (fun w => f w a) (B a)) -> tells (wmap f l) (exists a, In a l /\ B a).
Proof.
  induction l as [|a l IH]; intro H; [left; split; [|intros (a & [] & _)]; intros w W; exists w, []; auto|].
  destruct (H a (or_introl eq_refl)) as [[G N]|[G N]].
  - destruct (IH (fun a I => H a (or_intror I))) as [[Gl Nl]|[Gl (b & Ib & Bb)]]; [left|right]; split.
    + intros w W. cbn [wmap]. destruct (G w W) as (w1 & b & -> & W1). cbn [wbind]. destruct (Gl w1 W1) as (w2 & bs & -> & W2). cbn [wbind]. eauto.
    + intros (b & [<-|I] & X); [auto|]. apply Nl. eauto.
    + intros w W. cbn [wmap]. destruct (G w W) as (w1 & c & -> & W1). cbn [wbind]. destruct (Gl w1 W1) as (w2 & ->). cbn [wbind]. eauto.
    + exists b. split; [now right|exact Bb].
  - right. split; [|exists a; split; [now left|exact N]]. intros w W. cbn [wmap]. destruct (G w W) as (w1 & ->). cbn [wbind]. eauto.
Qed.

Section F.
Variable labels : list string.
Variable Ks : list nat.
Variable n_run : nat.
Notation exps := (exps labels Ks n_run).
Variable data : serial_model.loader nd -> loader.
Variable rd : string -> random.
Notation done := (done labels Ks n_run data rd).
Variable workdir : string.
Variable f : fs nd.
Notation path e := (sound_model.path_join workdir (pl_name e)).

Definition there (e : planned) : Prop := exists D, done e D /\ holds f (path e) D.
Definition missing (e : planned) : Prop := fs_read f (path e ++ ".json")%string = None.
Hypothesis some : 0 < n_run.

(** ** A log that is missing *)
Section Missing.
Hypothesis each : forall e, In e exps -> there e \/ missing e.
Definition lost (name : string) : Prop := exists e, In e exps /\ pl_name e = name /\ missing e.
Lemma not_both e : there e -> ~ missing e.
Proof. intros (D & _ & s & E & _) M. unfold missing in M. congruence. Qed.
Lemma tells_job e : In e exps -> tells (load_job labels Ks n_run workdir f (pl_name e)) (lost (pl_name e)).
Proof.
  intro I. destruct (each e I) as [T|M]; [left|right]; split.
  - intros w W. rewrite load_known by exact I. destruct T as (D & _ & Ho). destruct (holds_load _ _ _ w Ho W) as (w2 & -> & W2 & _). eauto.
  - intros (e' & I' & N & M). rewrite (name_determines labels Ks n_run e' e I' I N) in M. exact (not_both e T M).
  - intros w W. rewrite load_known by exact I. unfold load, missing in *. rewrite M. cbn [bind]. eauto.
  - exists e. auto.
Qed.
Lemma tells_merged name kd mods : (forall i, i < n_run -> exists e, In e exps /\ pl_name e = name i /\ pl_kind e = kd /\ serial_model.ex_modalities (pl_exper e) = mods) ->
  tells (load_merged labels Ks n_run workdir f name) (exists i, i < n_run /\ lost (name i)).
Proof.
  intro H. destruct (tells_map (fun w i => load_job labels Ks n_run workdir f (name i) w) (seq 0 n_run) (fun i => lost (name i))) as [[G N]|[G (i & I & L)]].
  - intros i I. apply in_seq in I. destruct (H i) as (e & Ie & <- & _); [lia|]. now apply tells_job.
  - left. split.
    + intros w W. destruct (merged_ok labels Ks n_run data rd workdir f some name kd mods) with (w := w) as (w' & j & E & W' & _); [|exact W|eauto].
      intros i Hi. destruct (H i Hi) as (e & Ie & En & Ek & Em). exists e. repeat (split; [assumption|]). destruct (each e Ie) as [T|M]; [exact T|]. exfalso. apply N. exists i. split; [apply in_seq; lia|]. exists e. auto.
    + intros (i & Hi & L). apply N. exists i. split; [apply in_seq; lia|exact L].
  - right. split; [|exists i; split; [apply in_seq in I; lia|exact L]]. intros w W. unfold load_merged. destruct (G w W) as (w1 & ->). cbn [wbind]. eauto.
Qed.
Lemma tells2 : tells (collect_results labels Ks n_run workdir f) (exists mm, In mm the_pairs /\ exists k, In k Ks /\ exists i, i < n_run /\ lost (jobs_of false mm k i)).
Proof.
  unfold collect_results. apply tells_map. intros mm Im. apply (tells_ret _ (fun ls => (mm, ls))). apply tells_map. intros k Ik.
  apply (tells_merged (jobs_of false mm k) Two [fst mm; snd mm]). intros i Hi. now apply pair_jobs.
Qed.
Lemma tells3 : tells (collect_results3 labels Ks n_run workdir f) (exists k, In k Ks /\ exists i, i < n_run /\ lost (three_name k i)).
Proof.
  unfold collect_results3. apply (tells_ret _ (fun ls => map (fun m => (m, ls)) MOD_PAIRS)). apply tells_map. intros k Ik.
  apply (tells_merged (three_name k) Three three_mods). intros i Hi. now apply three_jobs.
Qed.
Lemma tells_feats : tells (collect_results_image labels Ks n_run workdir f) (exists d, In d feature_sets /\ exists i, i < n_run /\ lost (feats_name d i)).
Proof.
  unfold collect_results_image. apply tells_map. intros d Id. apply (tells_ret _ (fun l => (d, l))).
  apply (tells_merged (feats_name d) Two ["image"; "sound"]%string). intros i Hi. now apply feats_jobs.
Qed.
Lemma plot_missing py2 e w : In e exps -> missing e -> wf_world w -> exists w', plot_action labels Ks n_run py2 workdir f w = (w', Err IOError).
Proof.
  intros Ie Me W. unfold plot_action.
  destruct tells2 as [[G2 N2]|[G2 _]]; [|destruct (G2 w W) as (w1 & ->); cbn [wbind]; eauto]. destruct (G2 w W) as (w1 & l2 & -> & W1). cbn [wbind].
  destruct tells3 as [[G3 N3]|[G3 _]]; [|destruct (G3 w1 W1) as (w2 & ->); cbn [wbind]; eauto]. destruct (G3 w1 W1) as (w2 & l3 & -> & W2). cbn [wbind].
  destruct tells_feats as [[G4 N4]|[G4 _]]; [|destruct (G4 w2 W2) as (w3 & ->); cbn [wbind]; eauto]. exfalso.
  assert (L : lost (pl_name e)) by (exists e; auto). apply in_exps in Ie as [(k & i & Ik & Hi & X)|(d & i & Id & Hi & E)].
  - destruct X as [E|[E|[E|E]]]; rewrite E in L; cbn [pl_name] in L.
    + apply N2. exists ("motion", "sound")%string. split; [cbn; tauto|]. exists k. split; [exact Ik|]. exists i. split; [exact Hi|exact L].
    + apply N2. exists ("image", "sound")%string. split; [cbn; tauto|]. exists k. split; [exact Ik|]. exists i. split; [exact Hi|exact L].
    + apply N2. exists ("image", "motion")%string. split; [cbn; tauto|]. exists k. split; [exact Ik|]. exists i. split; [exact Hi|exact L].
    + apply N3. exists k. split; [exact Ik|]. exists i. split; [exact Hi|exact L].
  - rewrite E in L. apply N4. exists d. split; [exact Id|]. exists i. split; [exact Hi|exact L].
Qed.
End Missing.

(** ** All logs are there *)
Section There.
Hypothesis complete : forall e, In e exps -> exists D, done e D /\ holds f (path e) D.
Lemma collected_all w0 : wf_world w0 -> Ks <> [] -> exists w1 w2 w l2 l3 lf g,
  collect_results labels Ks n_run workdir f w0 = (w1, Ok l2) /\ collect_results3 labels Ks n_run workdir f w1 = (w2, Ok (map (fun m => (m, l3)) the_pairs)) /\
  collect_results_image labels Ks n_run workdir f w2 = (w, Ok lf) /\ plot_2k_graphs w [l2; map (fun m => (m, l3)) the_pairs] Ks "_cosine" = Ok g /\
  Forall2 (logs2 labels Ks n_run data rd w) the_pairs l2 /\ Forall2 (fun k j => merged labels Ks n_run data rd (three_name k) Three three_mods w j) Ks l3.
Proof.
  intros W0 Nk.
  destruct (collected2 labels Ks n_run data rd workdir f some complete w0 W0) as (w1 & l2 & E1 & W1 & G1 & F2).
  destruct (collected3 labels Ks n_run data rd workdir f some complete w1 W1) as (w2 & l3 & E2 & W2 & G2 & F3).
  destruct (collected_feats labels Ks n_run data rd workdir f some complete w2 W2) as (w & lf & E3 & W & G & Ff).
  assert (G' := grows_trans _ _ _ G2 G).
  assert (F2' : Forall2 (logs2 labels Ks n_run data rd w) the_pairs l2).
  { eapply f2_imp; [|exact F2]. intros mm e [E F]. split; [exact E|]. eapply f2_imp; [|exact F]. intros k j M. exact (merged_grows labels Ks n_run data rd some _ _ _ _ _ _ W1 G' M). }
  assert (F3' : Forall2 (fun k j => merged labels Ks n_run data rd (three_name k) Three three_mods w j) Ks l3).
  { eapply f2_imp; [|exact F3]. intros k j M. exact (merged_grows labels Ks n_run data rd some _ _ _ _ _ _ W2 G M). }
  assert (In2 : forall e, In e l2 -> In (fst e) the_pairs /\ logs2 labels Ks n_run data rd w (fst e) e).
  { clear - F2'. assert (X : forall l, incl l the_pairs -> forall l', Forall2 (logs2 labels Ks n_run data rd w) l l' -> forall e, In e l' -> In (fst e) the_pairs /\ logs2 labels Ks n_run data rd w (fst e) e).
    { intros l I l' F. induction F as [|mm e ms es L F IH]; intros z Hz; [destruct Hz|]. destruct Hz as [<-|Hz]; [|apply IH; [intros y Hy; apply I; now right|exact Hz]]. pose proof L as [E _]. rewrite E. split; [apply I; now left|exact L]. }
    exact (X the_pairs (fun x H => H) l2 F2'). }
  destruct (two_graphs w l2 (map (fun m => (m, l3)) the_pairs) [] Ks "_cosine") as (g2 & g3 & Eg & _).
  { intros e I. destruct (In2 e I) as [Im L].
    destruct (curve2 labels Ks n_run data rd some w (fst e) e (fst (fst e)) (snd (fst e)) "_cosine"%string Nk Im L) as (c1 & C1 & _); [left; now destruct (fst e)|].
    destruct (curve2 labels Ks n_run data rd some w (fst e) e (snd (fst e)) (fst (fst e)) "_cosine"%string Nk Im L) as (c2 & C2 & _); [right; now left|]. exists c1, c2. unfold both. auto. }
  { intros e I. apply in_map_iff in I as (mm & <- & I). unfold both. cbn [fst snd].
    destruct (curve3 labels Ks n_run data rd some w mm l3 (fst mm) (snd mm) "_cosine"%string Nk I F3') as (c1 & C1 & _); [left; now destruct mm|].
    destruct (curve3 labels Ks n_run data rd some w mm l3 (snd mm) (fst mm) "_cosine"%string Nk I F3') as (c2 & C2 & _); [right; now left|]. exists c1, c2. auto. }
  exists w1, w2, w, l2, l3, lf. eexists. split; [exact E1|]. split; [exact E2|]. split; [exact E3|]. split; [exact Eg|]. auto.
Qed.
Lemma index_none l k : ~ In k l -> index_of l k = Err ValueError.
Proof.
  intro N. unfold index_of, list_index. assert (X : forall p s, index_from Nat.eqb k l p s = Err ValueError); [|now rewrite X].
  induction l as [|y l IH]; intros p s; cbn [index_from]; [reflexivity|]. destruct (Nat.eqb_spec y k) as [->|E]; [destruct N; now left|]. rewrite andb_false_r. apply IH. intro I. apply N. now right.
Qed.
Lemma plot_no50 py2 w0 : wf_world w0 -> Ks <> [] -> ~ In 50 Ks -> exists w, plot_action labels Ks n_run py2 workdir f w0 = (w, Err ValueError).
Proof.
  intros W0 Nk N. destruct (collected_all w0 W0 Nk) as (w1 & w2 & w & l2 & l3 & lf & g & E1 & E2 & E3 & Eg & _).
  unfold plot_action. rewrite E1. cbn [wbind]. rewrite E2. cbn [wbind]. rewrite E3. cbn [wbind]. rewrite Eg. cbn [bind]. rewrite index_none by exact N. cbn [bind]. eexists. reflexivity.
Qed.
Lemma plot_python3 w0 : wf_world w0 -> In 50 Ks -> exists w, plot_action labels Ks n_run false workdir f w0 = (w, Err TypeError).
Proof.
  intros W0 K50. destruct (collected_all w0 W0) as (w1 & w2 & w & l2 & l3 & lf & g & E1 & E2 & E3 & Eg & F2 & F3); [intro E; rewrite E in K50; destruct K50|].
  unfold plot_action. rewrite E1. cbn [wbind]. rewrite E2. cbn [wbind]. rewrite E3. cbn [wbind]. rewrite Eg. cbn [bind].
  destruct (index_of_ok Ks 50 K50) as (i50 & -> & E50). cbn [bind].
  assert (At2 : exists at50, mapM (fun l : (string * string) * list nat => bind (py_nth (snd l) (Z.of_nat i50)) (fun lg => Ok (fst l, lg))) l2 = Ok at50 /\
     Forall2 (fun mm e => fst e = mm /\ merged labels Ks n_run data rd (jobs_of false mm 50) Two [fst mm; snd mm] w (snd e)) the_pairs at50).
  { clear - F2 E50. induction F2 as [|mm e mms l [E F] F2 (r & Er & Fr)]; [exists []; split; [reflexivity|constructor]|].
    destruct (f2_nth _ _ _ F i50 50 E50) as (j & Ej & M). cbn [mapM]. rewrite experiment_proof.py_nth_nat, Ej. cbn [bind]. rewrite Er. cbn [bind]. eexists. split; [reflexivity|]. constructor; [split; [exact E|exact M]|exact Fr]. }
  destruct At2 as (at50 & -> & Fa). cbn [bind].
  change (dict_get pair_eqb (map (fun m => (m, l3)) the_pairs) ("image", "motion")%string) with (Some l3). cbn [bind].
  destruct (f2_nth _ _ _ F3 i50 50 E50) as (j3 & Ej3 & M3). rewrite experiment_proof.py_nth_nat, Ej3. cbn [bind].
  assert (P : plot_boxes false w at50 j3 = Err TypeError); [|rewrite P; cbn [bind]; eexists; reflexivity].
  unfold the_pairs in Fa. inversion Fa as [|mm e mms es [E M] Fa']; subst mm mms at50. destruct e as [mm lg]. cbn [fst snd] in *. subst mm. unfold plot_boxes. cbn [mapM].
  unfold plot_boxes_one_exp_pairs. cbn [all_pairs flat_map map filter String.eqb Ascii.eqb Bool.eqb negb app].
  rewrite boxes_python3; [reflexivity| |].
  - intros m I. cbn in I. destruct I as [<-|[<-|[]]].
    + destruct (two_scores labels Ks n_run data rd _ _ _ w lg "motion" "sound" "_cosine"%string M) as (xs & Sx & _); [left; reflexivity|cbn; tauto|]. exists xs. exact Sx.
    + destruct (two_scores labels Ks n_run data rd _ _ _ w lg "sound" "motion" "_cosine"%string M) as (xs & Sx & _); [right; left; reflexivity|cbn; tauto|]. exists xs. exact Sx.
  - cbn. eauto.
Qed.
End There.
End F.

(** ** No repetition *)
Lemma plot_no_runs labels Ks py2 workdir f w : Ks <> [] -> exists w', plot_action labels Ks 0 py2 workdir f w = (w', Err ValueError).
Proof. intro N. destruct Ks as [|k Ks]; [destruct N; reflexivity|]. unfold plot_action, collect_results. cbn. eauto. Qed.
