(** * Lemmas: data that cannot be stacked. *)

From Coq Require Import List ZArith Reals Bool Arith String Lia Lra.
Import ListNotations.
From Verif Require Import Py nd_model nd_spec sparse_model nmf_model nmf_spec learner_model learner_spec learner_proof.
Local Open Scope R_scope.

Lemma hstack_rows bs a b : In a bs -> In b bs -> rows_of a <> rows_of b -> safe_hstack bs = Err ValueError.
Proof.
  intros Ha Hb N. assert (B : forall n, same_rows n bs = false).
  { intro n. destruct (same_rows n bs) eqn:E; auto. exfalso. unfold same_rows in E. rewrite forallb_forall in E.
    pose proof (E a Ha) as Ea. pose proof (E b Hb) as Eb. apply andb_true_iff in Ea, Eb. destruct Ea as [_ Ea], Eb as [_ Eb].
    apply Nat.eqb_eq in Ea, Eb. congruence. }
  unfold safe_hstack, sp_hstack, np_hstack. destruct bs as [|x bs]; [destruct Ha|]. rewrite B. now destruct (existsb _ _).
Qed.
Lemma in_combine_map {A B C} (f : A -> C) (l : list A) (d : list B) b : List.length d = List.length l -> In b d ->
  exists c, In (b, c) (combine d (map f l)).
Proof.
  revert l. induction d as [|x d IH]; intros [|y l] L H; try discriminate; [destruct H|]. cbn. destruct H as [->|H]; [eauto|].
  destruct (IH l ltac:(cbn in L; lia) H) as [c Hc]. eauto.
Qed.
Lemma stack_rows l ms data n n' m m' a b : well_formed l -> Forall (fun m => In m (mods l)) ms -> List.length data = List.length ms ->
  In a data -> In b data -> fits n m a -> fits n' m' b -> n <> n' -> stack_data l ms data = Err ValueError.
Proof.
  intros W K L Ha Hb Fa Fb N. unfold stack_data. rewrite (coefs_mapM l W ms K). cbn [bind].
  assert (R : forall x k q, In x data -> fits k q x -> exists y, In y (map (fun p => mscale (snd p) (fst p)) (combine data (map (coef_of l) ms))) /\ rows_of y = k).
  { intros x k q Hx Fx. destruct (in_combine_map (coef_of l) ms data x L Hx) as [c Hc]. exists (mscale c x). split.
    - apply in_map_iff. exists (x, c). auto.
    - destruct (mscale_fits c k q x Fx) as [F _]. apply (fits_rows _ _ _ F). }
  destruct (R a n m Ha Fa) as (ya & Ia & Ra), (R b n' m' Hb Fb) as (yb & Ib & Rb). apply (hstack_rows _ ya yb); auto. congruence.
Qed.
Lemma stack_none l data : stack_data l [] data = Err ValueError /\ get_stacked_dicos l [] = Err ValueError.
Proof. split; [unfold stack_data; cbn; now destruct data|reflexivity]. Qed.
