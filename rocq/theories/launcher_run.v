(** * Lemmas about the jobs. *)

From Coq Require Import List ZArith Reals Bool Arith String Ascii QArith Qreals Lia.
Import ListNotations.
From Verif Require Import Py Py_proof nd_model logger_model logger_spec logger_proof logger_load logger_file experiment_model experiment_spec experiment_save
  figures_model figures_spec figures_proof figures_draw figures_exp figures_tables launcher_model launcher_spec launcher_names launcher_plan launcher_log.
From Verif Require serial_model serial_spec serial_proof sound_model experiment_end.
Local Open Scope nat_scope.

Section R.
Variable labels : list string.
Variable Ks : list nat.
Variable n_run : nat.
Notation exps := (exps labels Ks n_run).
Notation jobs := (jobs labels Ks n_run).
Variable data : serial_model.loader nd -> loader.
Variable rd : string -> random.

Lemma made e e' : In e exps -> serial_spec.same_experiment (pl_exper e) e' ->
  exists x k, experiment_of data (pl_kind e) e' = Ok x /\ serial_model.ex_k (pl_exper e) = VInt (Z.of_nat k) /\
    x = Exp (pl_kind e) (serial_model.ex_modalities (pl_exper e)) (map data (serial_model.ex_loaders e')) k None 50 50 true Single false.
Proof.
  intros I S. apply planned_expected in I.
  assert (P : exists feats mods k, parameters_for labels feats mods k (pl_exper e)).
  { destruct I as [(mods & k & i & _ & _ & _ & _ & P)|(feats & i & _ & _ & _ & _ & P)]; eauto. }
  destruct P as (feats & mods & k & _ & _ & Ek & Ec & E1 & E2 & E3 & E4 & E5). pose proof (serial_proof.same_native _ _ S) as (N1 & N2 & N3 & N4 & N5 & N6 & N7).
  rewrite Ek in N1. rewrite Ec in N2. rewrite E1 in N3. rewrite E2 in N4. rewrite E3 in N5. rewrite E4 in N6. rewrite E5 in N7. destruct S as (Sm & _).
  unfold experiment_of. rewrite N1, N2, N3, N4, N5, N6, N7 by constructor. cbn [mode_of String.eqb Ascii.eqb Bool.eqb bind].
  eexists _, k. split; [reflexivity|]. split; [exact Ek|]. rewrite Sm, Nat2Z.id. reflexivity.
Qed.
Lemma planned_kind e : In e exps -> (forall m, In m (serial_model.ex_modalities (pl_exper e)) -> known m) /\
  (pl_kind e = Two /\ length (serial_model.ex_modalities (pl_exper e)) = 2 \/ pl_kind e = Three /\ length (serial_model.ex_modalities (pl_exper e)) = 3).
Proof.
  intro I. apply in_exps in I as [(k & i & _ & _ & [-> | [-> | [-> | ->]]])|(d & i & _ & _ & ->)]; cbn; (split; [unfold known; cbn; intros m H; repeat (destruct H as [<-|H]; [tauto|]); destruct H|tauto]).
Qed.

(** What is known of the log of a job that ended. *)
Definition done (e : planned) (D : world) : Prop :=
  exists x p split, ran labels Ks n_run data rd (pl_name e) x p split /\ x_kind x = pl_kind e /\ x_mods x = serial_model.ex_modalities (pl_exper e) /\
    run_of D (fun k => In k (run_keys x)) /\ get_value D 0 "modalities" = Ok (VList (map VStr (x_mods x))) /\
    (x_kind x = Two -> forall m1 m2 cmp s, m1 < length (x_mods x) -> m2 < length (x_mods x) ->
       match cmp with None => True | Some c => c < length (x_mods x) end -> In s suffixes ->
       exists v, scored D 0 (score_key (x_mods x) m1 m2 cmp s) [v] /\ two_score x p m1 m2 cmp s split v) /\
    (x_kind x = Three -> forall ms1 ms2 s, In (ms1, ms2) (tested_combinations 3) -> In s suffixes ->
       exists v, scored D 0 (three_key (x_mods x) ms1 ms2 s) [v] /\ three_score x p ms1 ms2 s split v).

Hypothesis Rn : runnable labels Ks n_run data rd.
Lemma one_split m n (l : list (list nat * list nat)) : m = Single -> good_splits m n l -> exists s, l = [s].
Proof. intros -> (H & _). cbn [number_of_runs] in H. destruct l as [|s [|t l]]; cbn [List.length] in H; try lia. eauto. Qed.
Lemma single_run (P : list nat * list nat -> R -> Prop) (D : world) key split : all_runs D key P [split] -> exists v, scored D 0 key [v] /\ P split v.
Proof. intros (xs & S & F). inversion F as [|? v ? xs' H F']; subst. inversion F'; subst. eauto. Qed.

Lemma job_ends py2 ord config workdir files f e e' : enumerates ord -> In e exps ->
  serial_model.load_from_serialized files (config (pl_name e)) = Ok e' -> serial_spec.same_experiment (pl_exper e) e' ->
  exists f' D, run_job py2 ord config workdir data rd files f (job_of e) = (f', match pl_kind e with Three => Err (if py2 then ValueError else TypeError) | _ => Ok tt end) /\
    done e D /\ holds f' (sound_model.path_join workdir (pl_name e)) D /\
    forall p, p <> sound_model.path_join workdir (pl_name e) -> fs_read f' (p ++ ".json")%string = fs_read f (p ++ ".json")%string.
Proof.
  intros HO I El Sm. destruct (made e e' I Sm) as (x & k & Ex & _ & Xe). destruct (Rn e e' x I Sm Ex) as (So & Le & En). destruct (planned_kind e I) as [Kn Hk].
  assert (Xk : x_kind x = pl_kind e) by now rewrite Xe. assert (Xm : x_mods x = serial_model.ex_modalities (pl_exper e)) by now rewrite Xe. assert (Xs : x_mode x = Single) by now rewrite Xe.
  clear Xe. rewrite <- Xm in Kn, Hk. rewrite <- Xk in Hk.
  set (path := sound_model.path_join workdir (pl_name e)). set (r := rd (pl_name e)) in *.
  destruct (run_clean r x (Some path) So Le En) as (p & splits & w & Ep & Eg & Ns & Er & G & H2 & H3); eauto using all_clean.
  { destruct Hk as [[-> _]|[-> _]]; discriminate. } { destruct Hk as [[-> _]|[_ H]]; [discriminate|auto]. }
  destruct (experiment_end.run_succeeds r x (Some path) So Le En) as (p' & splits' & w' & Ep' & Eg' & _ & Gs & Er' & _ & Rs).
  { destruct Hk as [[-> _]|[-> _]]; discriminate. } { intros m Im. apply known_clean, Kn, Im. } { destruct Hk as [[-> _]|[_ H]]; [discriminate|lia]. }
  assert (p' = p) as -> by congruence. assert (splits' = splits) as -> by congruence. assert (w' = w) as -> by congruence. clear Ep' Eg' Er'.
  destruct (one_split _ _ _ Xs Gs) as [split ->].
  destruct (ended_keys r x (Some path) w p [split] Er Ns Rs) as (l & Ll & Lf & W & St & Kl).
  assert (L0 : nth_error (w_logs w) 0 = Some l) by now rewrite Ll.
  destruct (saved_holds ord w l path f HO W L0 Lf St) as (f' & Es & Ho & Oth).
  exists f', w. split; [|split; [|split; [exact Ho|exact Oth]]].
  - unfold run_job, job_of. cbn [j_name j_script]. rewrite El. cbn [bind].
    assert (script_kind (script_of (pl_kind e)) = pl_kind e) as -> by (rewrite <- Xk; destruct Hk as [[-> _]|[-> _]]; reflexivity). rewrite Ex.
    unfold run. fold path. fold r. rewrite Er, Es. rewrite <- Xk. destruct Hk as [[Ek L]|[Ek L]]; rewrite Ek; cbn [script_of].
    + destruct (two_table r x (Some path) So Le En Ek (all_clean _ Kn)) as (p2 & s2 & w2 & _ & _ & Er2 & rows & Et & _); [lia|]. assert (w2 = w) as -> by congruence. now rewrite Et.
    + destruct (three_table r x (Some path) py2 So Le En Ek (all_clean _ Kn) L) as (w2 & Er2 & Et). assert (w2 = w) as -> by congruence. now rewrite Et.
  - exists x, p, split. split; [exists e, e'; auto 10|]. split; [exact Xk|]. split; [exact Xm|]. split; [exists l; auto|]. split; [exact G|]. split.
    + intros Ek m1 m2 cmp s A B C X. exact (single_run _ _ _ _ (H2 Ek m1 m2 cmp s A B C X)).
    + intros Ek ms1 ms2 s A X. exact (single_run _ _ _ _ (H3 Ek ms1 ms2 s A X)).
Qed.

(** All jobs, in any order. *)
Lemma path_inj workdir e e' : In e exps -> In e' exps -> sound_model.path_join workdir (pl_name e) = sound_model.path_join workdir (pl_name e') -> e = e'.
Proof.
  intros I I' E. apply (name_determines labels Ks n_run); auto.
  assert (N : forall e, In e exps -> sound_model.starts_with_slash (pl_name e) = false).
  { clear. intros e I. apply in_exps in I as [(k & i & _ & _ & [-> | [-> | [-> | ->]]])|(d & i & _ & _ & ->)]; reflexivity. }
  unfold sound_model.path_join in E. rewrite (N e I), (N e' I') in E. destruct (match workdir with ""%string => true | _ => sound_model.ends_with_slash workdir end).
  - exact (str_app_inj_l _ _ _ E).
  - apply str_app_inj_l in E. now injection E.
Qed.
Lemma all_jobs py2 ord config workdir files order : enumerates ord ->
  (forall e, In e exps -> exists e', serial_model.load_from_serialized files (config (pl_name e)) = Ok e' /\ serial_spec.same_experiment (pl_exper e) e') ->
  (forall j, In j order -> In j jobs) -> forall f,
  let f' := run_jobs py2 ord config workdir data rd files f order in
  (forall e, In e exps -> In (job_of e) order -> exists D, done e D /\ holds f' (sound_model.path_join workdir (pl_name e)) D) /\
  forall p, (forall j, In j order -> p <> sound_model.path_join workdir (j_name j)) -> fs_read f' (p ++ ".json")%string = fs_read f (p ++ ".json")%string.
Proof.
  intros HO L. induction order as [|j order IH]; intros J f; cbn [run_jobs fold_left].
  - split; [intros e _ []|reflexivity].
  - pose proof (J j (or_introl eq_refl)) as Ij. rewrite jobs_eq in Ij. apply in_map_iff in Ij as (e & <- & I). destruct (L e I) as (e' & El & Sm).
    destruct (job_ends py2 ord config workdir files f e e' HO I El Sm) as (f1 & D & E1 & Dn & Ho & Oth). unfold run_jobs. cbn [fold_left]. rewrite E1. cbn [fst].
    destruct (IH (fun j H => J j (or_intror H)) f1) as [A B]. split.
    + intros e2 I2 [E|H]; [|now apply A]. assert (e2 = e) as ->. { apply (name_determines labels Ks n_run); auto. now injection E. }
      destruct (in_dec string_dec (pl_name e) (map j_name order)) as [X|X].
      * apply A; [exact I|]. apply in_map_iff in X as (j & Ej & X). pose proof (J j (or_intror X)) as Y. rewrite jobs_eq in Y. apply in_map_iff in Y as (e3 & E3 & I3).
        assert (e3 = e); [|subst; exact X]. apply (name_determines labels Ks n_run); auto. rewrite <- Ej, <- E3. reflexivity.
      * exists D. split; [exact Dn|]. eapply holds_read; [|exact Ho]. apply B. intros j H E2. apply X. pose proof (J j (or_intror H)) as Y. rewrite jobs_eq in Y. apply in_map_iff in Y as (e3 & E3 & I3).
        assert (e3 = e). { apply (path_inj workdir); auto. rewrite E2, <- E3. reflexivity. } subst e3. apply in_map_iff. exists j. rewrite <- E3 at 1. auto.
    + intros p H. unfold run_jobs in B. rewrite B by (intros j Hj; apply H; now right). apply Oth. exact (H _ (or_introl eq_refl)).
Qed.
End R.
