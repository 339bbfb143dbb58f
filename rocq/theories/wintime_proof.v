(** * Lemmas about relative and absolute times. *)

From Coq Require Import List ZArith QArith Bool Lia Lqa.
Import ListNotations.
From Verif Require Import Py window_model window_spec window_proof window_concat winnest_model winnest_spec winnest_trees wintime_model wintime_spec.
Local Open Scope Q_scope.

Section Times.
Context {O A P : Type}.
Notation tree := (tree O A P).

Lemma built_times (w : tree) : built w -> exists s e, t_start w = Ok s /\ t_end w = Ok e.
Proof. intros B. apply built_chained in B as [F _]. exists (ts w), (te w). split; [now apply t_start_ok|now apply t_end_ok]. Qed.
Lemma move_start_leaf (l : leaf O A P) d : w_start (move l d) == w_start l + d.
Proof. destruct l; cbn; reflexivity. Qed.
Lemma move_end_leaf (l : leaf O A P) d : w_end (move l d) == w_end l + d.
Proof. destruct l; cbn; ring. Qed.
Lemma moved_times (w : tree) d : built w -> exists s e s' e', t_start w = Ok s /\ t_end w = Ok e /\
  t_start (t_move w d) = Ok s' /\ t_end (t_move w d) = Ok e' /\ s' == s + d /\ e' == e + d.
Proof.
  intros B. apply built_chained in B as [F _]. exists (ts w), (te w), (ts (t_move w d)), (te (t_move w d)).
  split; [now apply t_start_ok|]. split; [now apply t_end_ok|].
  split; [now apply t_start_ok, move_filled|]. split; [now apply t_end_ok, move_filled|].
  pose proof (filled_leaves w F) as N. unfold ts, te. rewrite move_leaves. split.
  - destruct (t_leaves w) as [|l ls]; [contradiction|]. cbn. apply move_start_leaf.
  - destruct (snoc_case _ N) as (pre & l & E). rewrite E, map_app. cbn [map]. unfold last_of. rewrite !rev_app_distr. cbn. apply move_end_leaf.
Qed.
End Times.
