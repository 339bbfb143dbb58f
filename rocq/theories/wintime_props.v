(** * Properties of relative and absolute times of windows (C134). *)

From Coq Require Import List ZArith QArith Bool Lia Lqa.
Import ListNotations.
From Verif Require Import Py window_model window_spec window_proof winnest_model winnest_spec winnest_props wintime_model wintime_spec wintime_proof.
Local Open Scope Q_scope.

(** Relative times count from the start of the window, so the conversions are inverse of
    each other. *)
Theorem C134_inverse : forall (O A P : Type) (w : tree O A P) (t : Q), built w ->
  exists s a r a' r', t_start w = Ok s /\
    absolute_to_relative_time w t = Ok r /\ after s t r /\ relative_to_absolute_time w r = Ok a /\ a == t /\
    relative_to_absolute_time w t = Ok a' /\ after s a' t /\ absolute_to_relative_time w a' = Ok r' /\ r' == t.
Proof.
  intros O A P w t B. destruct (built_times w B) as (s & e & S & _). unfold absolute_to_relative_time, relative_to_absolute_time, after.
  rewrite S. cbn [bind]. exists s, (s + (t - s)), (t - s), (s + t), (s + t - s). repeat split; ring.
Qed.
Print Assumptions C134_inverse.

(** The start is at 0, the end at the duration and the mean time at half of it; the times
    of the window are those from 0 to the duration. *)
Theorem C134_inside : forall (O A P : Type) (w : tree O A P) (t : Q), built w ->
  exists s e dur m rs re rm r, t_start w = Ok s /\ t_end w = Ok e /\ t_duration w = Ok dur /\ t_mean_time w = Ok m /\
    absolute_to_relative_time w s = Ok rs /\ rs == 0 /\ absolute_to_relative_time w e = Ok re /\ re == dur /\
    absolute_to_relative_time w m = Ok rm /\ rm + rm == dur /\
    absolute_to_relative_time w t = Ok r /\ (within 0 dur r -> t_check_time w t = Ok tt) /\
    (~ within 0 dur r -> t_check_time w t = Err TimeOutOfBound).
Proof.
  intros O A P w t B. destruct (built_times w B) as (s & e & S & E).
  unfold absolute_to_relative_time, t_duration, t_mean_time, t_check_time. rewrite S, E. cbn [bind].
  exists s, e, (e - s), ((1 # 2) * (e + s)), (s - s), (e - s), ((1 # 2) * (e + s) - s), (t - s).
  repeat (split; [reflexivity|]). split; [ring|]. split; [reflexivity|]. split; [reflexivity|]. split; [reflexivity|].
  split; [ring|]. split; [reflexivity|]. unfold within. split.
  - intros (L & H). apply check_time_ok. split; lra.
  - intros N. apply check_time_err. split; [reflexivity|]. intros (L & H). apply N. split; lra.
Qed.
Print Assumptions C134_inside.

(** Moving a window shifts its absolute times and keeps its relative times. *)
Theorem C134_move : forall (O A P : Type) (w : tree O A P) (d t : Q), built w ->
  exists a a' r r' dur dur' m m', relative_to_absolute_time w t = Ok a /\ relative_to_absolute_time (t_move w d) t = Ok a' /\ a' == a + d /\
    absolute_to_relative_time w t = Ok r /\ absolute_to_relative_time (t_move w d) (t + d) = Ok r' /\ r' == r /\
    t_duration w = Ok dur /\ t_duration (t_move w d) = Ok dur' /\ dur' == dur /\
    t_mean_time w = Ok m /\ t_mean_time (t_move w d) = Ok m' /\ m' == m + d /\
    t_check_time (t_move w d) (t + d) = t_check_time w t.
Proof.
  intros O A P w d t B. destruct (moved_times w d B) as (s & e & s' & e' & S & E & S' & E' & HS & HE).
  unfold relative_to_absolute_time, absolute_to_relative_time, t_duration, t_mean_time, t_check_time. rewrite S, E, S', E'. cbn [bind].
  exists (s + t), (s' + t), (t - s), (t + d - s'), (e - s), (e' - s'), ((1 # 2) * (e + s)), ((1 # 2) * (e' + s')).
  repeat (split; [first [reflexivity | rewrite ?HS, ?HE; ring]|]).
  destruct (check_time_case s e t) as [[-> W]|[-> W]].
  - apply check_time_ok. destruct W. split; lra.
  - apply check_time_err. split; [reflexivity|]. intros (L & H). apply W. split; lra.
Qed.
Print Assumptions C134_move.

(** ** Example: the window of C128, moved by 5. *)
Example ex_times : built nest /\ absolute_to_relative_time (t_move nest 5) 6 = Ok 1 /\ t_check_time nest 2 = Ok tt /\ t_check_time nest 7 = Err TimeOutOfBound.
Proof. split; [exact ex_built|]. repeat split. Qed.
