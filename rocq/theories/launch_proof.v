(** * Lemmas about the command line of the launcher. *)

From Coq Require Import List ZArith Reals Bool Arith String Lia Permutation.
Import ListNotations.
From Verif Require Import Py ListUtil nd_model logger_model logger_spec logger_proof experiment_model experiment_spec figures_model figures_spec
  launcher_model launcher_spec launcher_props launch_model launch_spec.
From Verif Require serial_model sound_model.
Open Scope py_scope.
Local Open Scope nat_scope.

(** ** Paths *)
Lemma slash_end s : sound_model.ends_with_slash s = true <-> exists d, s = (d ++ "/")%string.
Proof.
  split.
  - induction s as [|c s IH]; [discriminate|]. destruct s as [|c' s'].
    + cbn. intro E. apply Ascii.eqb_eq in E. subst c. now exists ""%string.
    + intro E. destruct IH as (d & ->); [exact E|]. now exists (String c d).
  - intros (d & ->). induction d as [|c d IH]; [reflexivity|]. cbn. destruct d; [reflexivity|exact IH].
Qed.
Lemma join_inside dir file path : sound_model.starts_with_slash file = false -> (inside dir file path <-> path = sound_model.path_join dir file).
Proof.
  intro F. unfold sound_model.path_join. rewrite F. unfold inside. pose proof (slash_end dir) as S. destruct dir as [|c dir].
  - split; [intros [[_ ->]|[N _]]; [reflexivity|contradiction]|intros ->; left; auto].
  - destruct (sound_model.ends_with_slash (String c dir)).
    + split; [intros [[_ ->]|(_ & N & _)]; [reflexivity|exfalso; apply N, S; reflexivity]|intros ->; left; split; auto; right; now apply S].
    + split; [intros [[[E|E] _]|(_ & _ & ->)]; [discriminate|apply S in E; discriminate|reflexivity]|].
      intros ->. right. split; [discriminate|]. split; auto. intro E. apply S in E. discriminate.
Qed.
Lemma append_cancel a b c : (a ++ b)%string = (a ++ c)%string -> b = c.
Proof. induction a as [|x a IH]; cbn; [auto|]. intro E. injection E as E. auto. Qed.
Lemma join_inj dir x y : sound_model.starts_with_slash x = false -> sound_model.starts_with_slash y = false ->
  sound_model.path_join dir x = sound_model.path_join dir y -> x = y.
Proof.
  intros X Y. unfold sound_model.path_join. rewrite X, Y. destruct (match dir with EmptyString => true | _ => sound_model.ends_with_slash dir end).
  - apply append_cancel.
  - intro E. apply append_cancel in E. cbn in E. now injection E.
Qed.

(** ** The status *)
Lemma listed_join l : listed l (join_with ", " (map (fun x => fst x ++ ": " ++ snd x) l)%string).
Proof.
  induction l as [|[a n] l IH]; [constructor|]. destruct l as [|y l]; [apply listed_one|].
  change (join_with ", " (map (fun x => fst x ++ ": " ++ snd x) ((a, n) :: y :: l))%string)
    with ((a ++ ": " ++ n) ++ ", " ++ join_with ", " (map (fun x => fst x ++ ": " ++ snd x) (y :: l)))%string.
  replace ((a ++ ": " ++ n) ++ ", " ++ join_with ", " (map (fun x => fst x ++ ": " ++ snd x) (y :: l)))%string
    with (a ++ ": " ++ n ++ ", " ++ join_with ", " (map (fun x => fst x ++ ": " ++ snd x) (y :: l)))%string.
  - now apply listed_more.
  - set (t := join_with _ _). clearbody t. clear. assert (A : forall x y z, ((x ++ y) ++ z)%string = (x ++ y ++ z)%string).
    { intros x y z. induction x as [|c x IH]; [reflexivity|]. cbn. now rewrite IH. }
    now rewrite !A.
Qed.

Section Watch.
Context (FAILED : Z) (show : Z -> string) (st : nat -> Z) (counts : nat -> list (string * string)).
Lemma stats_line t : line_at show st counts t (get_stats show st counts t).
Proof. eexists. split; [apply listed_join|reflexivity]. Qed.
Lemma watch_ends n : forall t turns, (forall i, i < n -> (st (t + 3 * i) < FAILED)%Z) -> (FAILED <= st (t + 3 * n)%nat)%Z -> n < turns ->
  exists lines, print_refreshed_stats FAILED show st counts turns t = (lines, Ok tt) /\ length lines = S n /\
    forall i line, nth_error lines i = Some line -> line_at show st counts (t + 3 * i + 1) line.
Proof.
  induction n as [|n IH]; intros t turns L G T; (destruct turns as [|turns]; [lia|]); cbn [print_refreshed_stats].
  - rewrite Nat.mul_0_r, Nat.add_0_r in G. destruct (Z.ltb_spec (st t) FAILED); [lia|]. eexists. split; [reflexivity|]. split; [reflexivity|].
    intros [|i] line E; [|destruct i; discriminate]. injection E as <-. rewrite Nat.mul_0_r, Nat.add_0_r, Nat.add_1_r. apply stats_line.
  - pose proof (L 0 ltac:(lia)) as L0. rewrite Nat.mul_0_r, Nat.add_0_r in L0. destruct (Z.ltb_spec (st t) FAILED); [|lia].
    destruct (IH (t + 3) turns) as (lines & -> & Ln & H').
    + intros i Hi. replace (t + 3 + 3 * i) with (t + 3 * S i) by lia. apply L. lia.
    + replace (t + 3 + 3 * n) with (t + 3 * S n) by lia. exact G.
    + lia.
    + eexists. split; [reflexivity|]. split; [cbn; lia|]. intros [|i] line E.
      * injection E as <-. rewrite Nat.mul_0_r, Nat.add_0_r, Nat.add_1_r. apply stats_line.
      * replace (t + 3 * S i + 1) with (t + 3 + 3 * i + 1) by lia. now apply H'.
Qed.
Lemma watch_forever turns : forall t, (forall i, (st (t + 3 * i) < FAILED)%Z) ->
  exists lines, print_refreshed_stats FAILED show st counts turns t = (lines, Err Timeout) /\ length lines = turns.
Proof.
  induction turns as [|turns IH]; intros t L; cbn [print_refreshed_stats]; [now exists []|].
  pose proof (L 0) as L0. rewrite Nat.mul_0_r, Nat.add_0_r in L0. destruct (Z.ltb_spec (st t) FAILED); [|lia].
  destruct (IH (t + 3)) as (lines & -> & Ln); [intro i; replace (t + 3 + 3 * i) with (t + 3 * S i) by lia; apply L|].
  eexists. split; [reflexivity|]. cbn. lia.
Qed.
Lemma watch_prints turns t : turns <> 0 -> fst (print_refreshed_stats FAILED show st counts turns t) <> [].
Proof. destruct turns; [lia|]. intros _. cbn. destruct (st t <? FAILED)%Z; [destruct (print_refreshed_stats _ _ _ _ turns (t + 3))|]; discriminate. Qed.
End Watch.

(** ** The figures on the disk *)
Section Save.
Context (savefig : string -> result unit).
Lemma name_plain n s : In n ["one_to_one_all_k"; "one_to_one_all"; "image_feats"; "three_modalities"]%string -> sound_model.starts_with_slash (n ++ "." ++ s) = false.
Proof. intros [<-|[<-|[<-|[<-|[]]]]]; reflexivity. Qed.
Lemma file_inj n n' s : (n ++ "." ++ s)%string = (n' ++ "." ++ s)%string -> n = n'.
Proof.
  assert (L : forall x y : string, String.length (x ++ y) = String.length x + String.length y).
  { induction x as [|c x IH]; intro y; [reflexivity|]. cbn. now rewrite IH. }
  revert n'. induction n as [|c n IH]; intros [|c' n'] E; auto.
  - apply (f_equal String.length) in E. rewrite !L in E. cbn in E. lia.
  - apply (f_equal String.length) in E. rewrite !L in E. cbn in E. lia.
  - cbn in E. injection E as -> E. f_equal. now apply IH.
Qed.

Lemma save_ok dest format figs names : forall disk, NoDup names -> (forall n, In n names -> In n ["one_to_one_all_k"; "one_to_one_all"; "image_feats"; "three_modalities"]%string) ->
  (forall n, In n names -> exists f, dict_get String.eqb figs n = Some f) -> (forall n, In n names -> savefig (sound_model.path_join dest (n ++ "." ++ format)) = Ok tt) ->
  exists disk', save_figures savefig dest format figs names disk =
      (disk', map (fun n => "Written: " ++ sound_model.path_join dest (n ++ "." ++ format) ++ ".")%string names, Ok tt) /\
    (forall n, In n names -> dict_get String.eqb disk' (sound_model.path_join dest (n ++ "." ++ format)) = dict_get String.eqb figs n) /\
    forall p, (forall n, In n names -> p <> sound_model.path_join dest (n ++ "." ++ format)) -> dict_get String.eqb disk' p = dict_get String.eqb disk p.
Proof.
  induction names as [|n names IH]; intros disk D K F S; cbn [save_figures].
  - exists disk. split; [reflexivity|]. split; [contradiction|auto].
  - inversion D as [|? ? Nn D']; subst. destruct (F n (or_introl eq_refl)) as (f & Ef). rewrite Ef, (S n (or_introl eq_refl)).
    destruct (IH (dict_set String.eqb disk (sound_model.path_join dest (n ++ "." ++ format)) f) D') as (disk' & -> & G & O);
      [intros; apply K; now right|intros; apply F; now right|intros; apply S; now right|].
    exists disk'. split; [reflexivity|]. split.
    + intros m [<-|Hm]; [|auto]. rewrite O; [rewrite get_set, String.eqb_refl; auto|]. intros m Hm E.
      apply join_inj in E; [|apply name_plain, K; now left|apply name_plain, K; now right]. apply file_inj in E. subst m. contradiction.
    + intros p Hp. rewrite O by (intros m Hm; apply Hp; now right). rewrite get_set. destruct (String.eqb_spec (sound_model.path_join dest (n ++ "." ++ format)) p) as [E|E]; auto.
      exfalso. apply (Hp n (or_introl eq_refl)). auto.
Qed.
Lemma save_frame dest format figs names : forall disk disk' l r, save_figures savefig dest format figs names disk = (disk', l, r) ->
  forall p, (forall n, In n names -> p <> sound_model.path_join dest (n ++ "." ++ format)) -> dict_get String.eqb disk' p = dict_get String.eqb disk p.
Proof.
  induction names as [|n names IH]; intros disk disk' l r E p Hp; cbn [save_figures] in E; [injection E as <- <- <-; auto|].
  destruct (dict_get String.eqb figs n) as [f|]; [|injection E as <- <- <-; auto].
  destruct (savefig _); [|injection E as <- <- <-; auto].
  destruct (save_figures savefig dest format figs names _) as [[d1 l1] r1] eqn:E1. injection E as <- <- <-.
  rewrite (IH _ _ _ _ E1 p) by (intros m Hm; apply Hp; now right). rewrite get_set.
  destruct (String.eqb_spec (sound_model.path_join dest (n ++ "." ++ format)) p) as [Q|Q]; auto. exfalso. apply (Hp n (or_introl eq_refl)). auto.
Qed.
End Save.

(** ** Commands *)
Definition four : list string := ["one_to_one_all_k"; "one_to_one_all"; "image_feats"; "three_modalities"]%string.
Lemma by_name_keys g : map fst (by_name g) = four.
Proof. destruct g as [[[f1 f2] f3] f4]. reflexivity. Qed.
Lemma by_name_get g n f : figure_named g n f -> dict_get String.eqb (by_name g) n = Some f.
Proof. destruct g as [[[f1 f2] f3] f4]. destruct 1; reflexivity. Qed.
Lemma by_name_known g n : In n four -> exists f, figure_named g n f.
Proof. intros [<-|[<-|[<-|[<-|[]]]]]; eexists; constructor. Qed.
Lemma named_known g n f : figure_named g n f -> In n four.
Proof. destruct 1; cbn; auto. Qed.
Lemma four_once : NoDup four.
Proof. unfold four. repeat constructor; cbn; intuition discriminate. Qed.
Definition dest_of (s : setting) (a : args) : string := match a_dest a with None => DEFAULT_FIG_DEST s | Some p => s_expanduser s p end.
Lemma dest_goes s a dir : goes_to (s_expanduser s) a dir <-> dir = dest_of s a.
Proof. unfold goes_to, dest_of, DEFAULT_FIG_DEST. destruct (a_dest a); reflexivity. Qed.
Lemma a_path_join s a p : a_path (s_expanduser s) a p <-> exists n, In n four /\ p = sound_model.path_join (dest_of s a) (n ++ "." ++ a_format a).
Proof.
  unfold a_path. split.
  - intros (dir & n & G & K & I). apply dest_goes in G. subst dir. apply join_inside in I; [|now apply name_plain]. now exists n.
  - intros (n & K & ->). exists (dest_of s a), n. split; [now apply dest_goes|]. split; auto. apply join_inside; [now apply name_plain|reflexivity].
Qed.

Lemma main_frame s turns a d d' l r : (forall l, Permutation l (s_names_order s l)) -> main s turns a d = (d', l, r) ->
  (a_action a <> Prepare -> d_params d' = d_params d) /\ (a_action a <> RunJobs -> d_logs d' = d_logs d) /\
  (a_action a <> Plot \/ a_save a = false -> d_figures d' = d_figures d) /\
  (forall p, ~ a_path (s_expanduser s) a p -> dict_get String.eqb (d_figures d') p = dict_get String.eqb (d_figures d) p).
Proof.
  intros P E. unfold main in E. destruct (a_action a) eqn:EA.
  - destruct (prepare_action _ _ _ _ _ _) as [p0 r0]. injection E as <- <- <-. cbn. split; [congruence|]. auto.
  - destruct (chosen_launcher s a), (a_watch a); try (destruct (watch s turns 0) as [l0 r0]); injection E as <- <- <-; cbn; (split; [auto|]); (split; [congruence|]); auto.
  - injection E as <- <- <-. auto.
  - destruct (match a_config a with None => Ok tt | Some c => s_rc_file s c end); [|injection E as <- <- <-; auto].
    destruct (plot_action _ _ _ _ _ _ _) as [w [g|x]]; [|injection E as <- <- <-; auto].
    destruct (a_save a) eqn:ES; [|injection E as <- <- <-; auto]. cbv zeta in E. fold (dest_of s a) in E.
    destruct (save_figures _ _ _ _ _ _) as [[figs l0] r0] eqn:EF. injection E as <- <- <-. cbn [d_params d_logs d_figures].
    split; auto. split; auto. split; [intros [H|H]; congruence|]. intros p Hp. apply (save_frame _ _ _ _ _ _ _ _ _ EF). intros n Hn Q.
    apply Hp, a_path_join. exists n. split; auto. rewrite by_name_keys in Hn. now apply (Permutation_in n (Permutation_sym (P four))).
  - destruct (a_watch a); [destruct (watch s turns 0) as [l0 r0]|]; injection E as <- <- <-; auto.
Qed.

Lemma main_prepare s turns a d : a_action a = Prepare ->
  main s turns a d = (Disk (fst (prepare_action (s_labels s) (s_Ks s) (s_n_run s) (s_ord s) (s_config s) (d_params d))) (d_logs d) (d_figures d), [],
    snd (prepare_action (s_labels s) (s_Ks s) (s_n_run s) (s_ord s) (s_config s) (d_params d))).
Proof. intro E. unfold main. rewrite E. now destruct (prepare_action _ _ _ _ _ _). Qed.
Lemma main_run s turns a d : a_action a = RunJobs -> exists l r,
  main s turns a d = (Disk (d_params d) (run_jobs (s_py2 s) (s_ord s) (s_config s) (WORKDIR s) (s_data s) (s_rd s) (d_params d) (d_logs d) (s_order s)) (d_figures d), l, r).
Proof.
  intro E. unfold main. rewrite E. destruct (chosen_launcher s a), (a_watch a); try (destruct (watch s turns 0) as [l0 r0]); do 2 eexists; reflexivity.
Qed.




Lemma dot_cancel p q : (p ++ ".")%string = (q ++ ".")%string -> p = q.
Proof.
  revert q. induction p as [|c p IH]; intros [|c' q] Q; auto; cbn in Q; injection Q.
  - intros Q' _. destruct q; discriminate Q'.
  - intros Q' _. destruct p; discriminate Q'.
  - intros Q' ->. f_equal. now apply IH.
Qed.
Lemma session s turns a1 a2 a3 d : usable s -> s_py2 s = true -> In 50 (s_Ks s) ->
  a_action a1 = Prepare -> a_action a2 = RunJobs -> a_action a3 = Plot -> a_save a3 = true ->
  (forall c, a_config a3 = Some c -> s_rc_file s c = Ok tt) -> (forall p, a_path (s_expanduser s) a3 p -> s_savefig s p = Ok tt) ->
  exists d1 d2 lines r d3 written g,
    main s turns a1 d = (d1, [], Ok tt) /\ main s turns a2 d1 = (d2, lines, r) /\ main s turns a3 d2 = (d3, written, Ok tt) /\
    shown_figures (s_labels s) (s_Ks s) (s_n_run s) (s_data s) (s_rd s) g /\
    (forall dir name f path, goes_to (s_expanduser s) a3 dir -> figure_named g name f -> inside dir (name ++ "." ++ a_format a3) path ->
       dict_get String.eqb (d_figures d3) path = Some f) /\
    length written = 4 /\ NoDup written /\
    forall line, In line written <-> exists path, a_path (s_expanduser s) a3 path /\ line = ("Written: " ++ path ++ ".")%string.
Proof.
  intros (R & En & Ci & Nr & Od & Pm) Py K50 A1 A2 A3 Sv Rc Sf.
  destruct (C100_figures _ _ _ _ _ R _ En _ Ci Nr _ Od (d_params d) (d_logs d) (s_py2 s) (WORKDIR s) empty_world empty_wf K50) as (files & w & g & EP & EG & SG).
  rewrite (main_prepare s turns a1 d A1), EP. cbn [fst snd].
  destruct (main_run s turns a2 (Disk files (d_logs d) (d_figures d)) A2) as (lines & r & E2). cbn [d_params d_logs d_figures] in E2.
  set (logs := run_jobs _ _ _ _ _ _ _ _ _) in *.
  destruct (save_ok (s_savefig s) (dest_of s a3) (a_format a3) (by_name g) (s_names_order s four) (d_figures d)) as (figs & ES & GS & FS).
  - apply (Permutation_NoDup (Pm four)), four_once.
  - intros n Hn. now apply (Permutation_in n (Permutation_sym (Pm four))).
  - intros n Hn. apply (Permutation_in n (Permutation_sym (Pm four))) in Hn. destruct (by_name_known g n Hn) as (f & Hf). exists f. now apply by_name_get.
  - intros n Hn. apply Sf, a_path_join. exists n. split; auto. now apply (Permutation_in n (Permutation_sym (Pm four))).
  - do 2 eexists. exists lines, r. do 2 eexists. exists g. split; [reflexivity|]. split; [exact E2|]. split.
    { unfold main. rewrite A3. replace (match a_config a3 with None => Ok tt | Some c => s_rc_file s c end) with (Ok tt) by (destruct (a_config a3) eqn:Ec; [now rewrite (Rc _ eq_refl)|reflexivity]).
      cbn [d_params d_logs d_figures]. rewrite Py, EG, Sv. cbv zeta. fold (dest_of s a3). rewrite by_name_keys, ES. reflexivity. }
    split; [exact SG|]. cbn [d_figures]. split.
    { intros dir name f path G F I. apply dest_goes in G. subst dir. apply join_inside in I; [|apply name_plain; exact (named_known _ _ _ F)]. subst path.
      rewrite GS by (apply (Permutation_in name (Pm four)); exact (named_known _ _ _ F)). now apply by_name_get. }
    split; [rewrite map_length, <- (Permutation_length (Pm four)); reflexivity|]. split.
    { assert (D : NoDup (s_names_order s four)) by apply (Permutation_NoDup (Pm four)), four_once.
      assert (I : forall n, In n (s_names_order s four) -> In n four) by (intros n Hn; now apply (Permutation_in n (Permutation_sym (Pm four)))).
      apply (NoDup_map_inj_in); auto. intros x y Hx Hy Q. pose proof (dot_cancel _ _ (append_cancel _ _ _ Q)) as Q'.
      apply join_inj in Q'; try (apply name_plain; now apply I). now apply file_inj in Q'. }
    intro line. rewrite in_map_iff. split.
    + intros (n & <- & Hn). exists (sound_model.path_join (dest_of s a3) (n ++ "." ++ a_format a3)). split; [|reflexivity]. apply a_path_join. exists n. split; auto.
      now apply (Permutation_in n (Permutation_sym (Pm four))).
    + intros (path & Hp & ->). apply a_path_join in Hp as (n & Hn & ->). exists n. split; [reflexivity|]. now apply (Permutation_in n (Pm four)).
Qed.

Lemma F2_nth_error {A B} (Q : A -> B -> Prop) l l' i a : Forall2 Q l l' -> nth_error l i = Some a ->
  exists b, nth_error l' i = Some b /\ Q a b.
Proof.
  intros F. revert i. induction F as [|x y l l' H F IH]; intros [|i] E; try discriminate; [|now apply IH].
  injection E as <-. now exists y.
Qed.
Lemma jobs_exist s : 0 < s_n_run s -> exists j, In j (jobs (s_labels s) (s_Ks s) (s_n_run s)).
Proof.
  intro N. destruct (C100_plan (s_labels s) (s_Ks s) (s_n_run s)) as (_ & _ & F & J).
  destruct (F ["SURF"%string] 0) as (e & He & _); [now left|exact N|]. apply In_nth_error in He as (i & He).
  destruct (F2_nth_error _ _ _ i e J He) as (j & Hj & _). exists j. now apply nth_error_In in Hj.
Qed.
Lemma resumed s turns a1 a2 a3 d : usable s -> a_action a1 = Prepare -> a_action a2 = Resume -> a_action a3 = Plot ->
  (forall c, a_config a3 = Some c -> s_rc_file s c = Ok tt) ->
  (forall j, In j (jobs (s_labels s) (s_Ks s) (s_n_run s)) -> fs_read (d_logs d) (sound_model.path_join (WORKDIR s) (j_name j) ++ ".json")%string = None) ->
  exists d1, main s turns a1 d = (d1, [], Ok tt) /\ main s turns a2 d1 = (d1, [], Ok tt) /\ main s turns a3 d1 = (d1, [], Err IOError).
Proof.
  intros (R & En & Ci & Nr & _) A1 A2 A3 Rc L. destruct (jobs_exist s Nr) as (j & Hj).
  destruct (C100_missing _ _ _ _ _ R _ En _ Ci Nr (d_params d) (d_logs d) true (WORKDIR s) [] empty_world (s_py2 s)) as (files & w & EP & EG).
  - contradiction.
  - exists j. auto.
  - exact L.
  - exact empty_wf.
  - rewrite (main_prepare s turns a1 d A1), EP. cbn [fst snd]. eexists. split; [reflexivity|]. split; [unfold main; now rewrite A2|].
    unfold main. rewrite A3. replace (match a_config a3 with None => Ok tt | Some c => s_rc_file s c end) with (Ok tt) by (destruct (a_config a3) eqn:Ec; [now rewrite (Rc _ eq_refl)|reflexivity]).
    cbn [d_logs]. cbn in EG. now rewrite EG.
Qed.
Lemma session_python3 s turns a1 a2 a3 d : usable s -> s_py2 s = false -> In 50 (s_Ks s) ->
  a_action a1 = Prepare -> a_action a2 = RunJobs -> a_action a3 = Plot -> (forall c, a_config a3 = Some c -> s_rc_file s c = Ok tt) ->
  exists d1 d2 lines r, main s turns a1 d = (d1, [], Ok tt) /\ main s turns a2 d1 = (d2, lines, r) /\ main s turns a3 d2 = (d2, [], Err TypeError).
Proof.
  intros (R & En & Ci & Nr & Od & Pm) Py K50 A1 A2 A3 Rc.
  destruct (C100_figures_refuted _ _ _ _ _ R _ En _ Ci Nr _ Od (d_params d) (d_logs d) (s_py2 s) (WORKDIR s) empty_world empty_wf) as (files & EP & EG & _).
  destruct (EG K50) as (w & EG').
  rewrite (main_prepare s turns a1 d A1), EP. cbn [fst snd].
  destruct (main_run s turns a2 (Disk files (d_logs d) (d_figures d)) A2) as (lines & r & E2). cbn [d_params d_logs d_figures] in E2.
  do 2 eexists. exists lines, r. split; [reflexivity|]. split; [exact E2|].
  unfold main. rewrite A3. replace (match a_config a3 with None => Ok tt | Some c => s_rc_file s c end) with (Ok tt) by (destruct (a_config a3) eqn:Ec; [now rewrite (Rc _ eq_refl)|reflexivity]).
  cbn [d_logs]. rewrite Py. rewrite Py in EG'. now rewrite EG'.
Qed.
