(** * Comparison of rows and the dictionary of a run in experiment.py. *)

From Coq Require Import List ZArith Reals Bool Arith String Permutation Sorted Lia Lra.
Import ListNotations.
From Verif Require Import Py Py_proof ListUtil pairing_model pairing_spec pairing_proof evaluation_model evaluation_spec evaluation_proof
  utils_model utils_spec utils_proof logger_model logger_spec logger_proof nd_model nd_spec nd_proof sparse_model metrics_model metrics_spec metrics_proof metrics_more
  nmf_model nmf_spec nmf_laws learner_model learner_spec learner_proof
  experiment_model experiment_spec experiment_proof experiment_coefs.
From Coq Require Import QArith Qreals.
Notation Q := QArith_base.Q.
Open Scope py_scope.
Local Open Scope nat_scope.
Notation length := List.length.
Notation val := (logger_model.val nd).
Notation world := (logger_model.world nd).

(** ** Nearest examples. *)
Lemma all_rev_kl reco ex n m d eps : shape reco = [n; d] -> shape ex = [m; d] ->
  exists r, all_distances_nd reco ex (fun a b z => generalized_KL b a eps (Some z)) = Ok r /\ shape r = [n; m] /\
    forall i j, i < n -> j < m -> el r [i; j] = KL eps (row ex j) (row reco i).
Proof.
  intros Sr Se. destruct (expand_views reco ex n m d Sr Se) as (a & b & Ha & Hb & Sa & Sb & B & L). unfold all_distances_nd.
  rewrite Sr, Se, Ha, Hb. cbn [bind].
  assert (B' : bcast (shape b) (shape a) = Ok [n; m; d]).
  { rewrite Sa, Sb. unfold bcast. cbn. rewrite Nat.eqb_refl. cbn. destruct m as [|[|m]]; cbn; auto; destruct n as [|[|n]]; cbn; auto. }
  destruct (gKL_inner b a eps (Some (-1)%Z) _ B') as (s & -> & Ss & Ls).
  pose proof (sum_axis_some s (-1)) as H. rewrite Ss in H. cbn [length] in H. change (axis_number 3 (-1)) with (Some 2) in H.
  cbn beta iota in H. destruct H as (r & Hr & S & Lr). exists r. split; auto. split; auto. intros i j Hi Hj.
  rewrite Lr. destruct (L i j Hi Hj) as [<- <-]. rewrite KL_kl_fun. f_equal. apply lane_map2; auto; cbn; lia.
Qed.
Lemma measure_value f s reco ex n m d : In (f, s) measures -> shape reco = [n; d] -> shape ex = [m; d] ->
  exists r, all_distances_nd reco ex f = Ok r /\ shape r = [n; m] /\
    forall i j, i < n -> j < m -> el r [i; j] = comparison s (row reco i) (row ex j).
Proof.
  intros I Sr Se. cbn in I. destruct I as [E|[E|[E|[E|[]]]]]; injection E as <- <-.
  - destruct (all_kl reco ex n m d EPSILON Sr Se) as (r & H & S & L). exists r. split; auto. revert H. unfold all_distances_nd. rewrite Sr, Se.
    destruct (expand_dims reco 1); cbn [bind]; [|discriminate]. destruct (expand_dims ex 0); cbn [bind]; [|discriminate].
    intro H. unfold kl_measure. rewrite kl_div_plain, H. reflexivity.
  - destruct (all_rev_kl reco ex n m d EPSILON Sr Se) as (r & H & S & L). exists r. split; auto. revert H. unfold all_distances_nd. rewrite Sr, Se.
    destruct (expand_dims reco 1); cbn [bind]; [|discriminate]. destruct (expand_dims ex 0); cbn [bind]; [|discriminate].
    intro H. unfold rev_kl_measure, rev_kl_div. rewrite kl_div_plain, H. reflexivity.
  - exact (all_frobenius reco ex n m d Sr Se).
  - exact (all_cosine reco ex n m d Sr Se).
Qed.
Lemma Rlt_bool_iff a b : Rlt_bool a b = true <-> (a < b)%R.
Proof. unfold Rlt_bool. destruct (Rlt_dec a b); split; auto; discriminate. Qed.
Lemma Rlt_strict_weak : strict_weak (fun a b => Rlt_bool a b = true).
Proof.
  split; [intros x H; apply Rlt_bool_iff in H; lra|]. split; intros x y z; rewrite !Rlt_bool_iff; [lra|]. intro. destruct (Rlt_dec x y); auto. right. lra.
Qed.
Lemma argmin_R l : l <> [] -> exists j, argmin Rlt_bool l = Ok j /\ first_min Rlt l j.
Proof.
  intro H. destruct (argmin_spec Rlt_bool Rlt_strict_weak l H) as (j & E & x & A & B & C). exists j. split; auto. exists x. split; auto. split.
  - intros k y Ey. rewrite <- Rlt_bool_iff. eauto.
  - intros k y Hk Ey. apply Rlt_bool_iff. eauto.
Qed.

Lemma classify_value test ex labels f s n m d : In (f, s) measures -> shape (mvalue test) = [n; d] -> shape (mvalue ex) = [m; d] -> length labels = m -> 1 <= m ->
  exists found, classify_matrix test ex labels f = Ok found /\ nearest (comparison s) (mvalue test) (mvalue ex) labels found.
Proof.
  intros I St Se Lm Hm. destruct (measure_value f s _ _ n m d I St Se) as (r & Hr & Sr & L). unfold classify_matrix. rewrite Hr. cbn [bind].
  unfold dists_to_found_labels, argmin_rows, dists_of. rewrite Sr. cbn [d_cols d_rows nth]. destruct (Nat.eqb_spec m 0); [lia|].
  unfold nearest. rewrite St, Se. cbn [nth].
  assert (H : forall is, (forall i, In i is -> i < n) -> exists found, bind (mapM (argmin Rlt_bool) (map (fun i => map (fun j => el r [i; j]) (seq 0 m)) is)) (fun ms => mapM (lookup labels) ms) = Ok found /\
     Forall2 (fun i l => exists j, first_min Rlt (map (fun e => comparison s (row (mvalue test) i) (row (mvalue ex) e)) (seq 0 m)) j /\ nth_error labels j = Some l) is found).
  { clear I. induction is as [|i is IH]; intro Hi; cbn [map mapM bind].
    - exists []. split; [reflexivity|constructor].
    - destruct (argmin_R (map (fun j => el r [i; j]) (seq 0 m))) as (j & Ej & Hj); [destruct m; [lia|discriminate]|].
      rewrite Ej. cbn [bind]. destruct IH as (found & E & F); [intros; apply Hi; now right|].
      destruct (mapM (argmin Rlt_bool) _) as [ms|e]; [|discriminate]. cbn [bind] in E |- *. cbn [mapM].
      replace (map (fun j => el r [i; j]) (seq 0 m)) with (map (fun e => comparison s (row (mvalue test) i) (row (mvalue ex) e)) (seq 0 m)) in Hj.
      2:{ apply map_ext_in. intros e Ie. apply in_seq in Ie. symmetry. apply L; [apply Hi; now left|lia]. }
      assert (Hl : exists l, nth_error labels j = Some l).
      { destruct Hj as (v & Hv & _). assert (j < length labels); [|destruct (nth_error labels j) eqn:X; [eauto|apply nth_error_None in X; lia]].
        rewrite Lm. replace m with (length (map (fun e => comparison s (row (mvalue test) i) (row (mvalue ex) e)) (seq 0 m))) by (now rewrite map_length, seq_length).
        apply nth_error_Some. congruence. }
      destruct Hl as [l Hl]. unfold lookup at 1. rewrite Hl. cbn [bind]. rewrite E. cbn [bind]. exists (l :: found). split; [reflexivity|].
      constructor; eauto. }
  destruct (H (seq 0 n)) as (found & E & F); [intros i Hi; apply in_seq in Hi; lia|]. exists found. split; [exact E|].
  split; [now rewrite <- (Forall2_len _ _ _ F), seq_length|]. intros i l El.
  assert (Hi : i < n). { rewrite <- (seq_length n 0), (Forall2_len _ _ _ F). apply nth_error_Some. congruence. }
  assert (Ei : nth_error (seq 0 n) i = Some i). { rewrite (nth_error_nth' _ 0) by (rewrite seq_length; auto). now rewrite seq_nth. }
  exact (F2_at _ _ _ i i l F Ei El).
Qed.
Lemma nearest_length dist test ex labels found n d : nearest dist test ex labels found -> shape test = [n; d] -> length found = n.
Proof. intros [L _] S. now rewrite L, S. Qed.

Lemma score_value' truth found : truth <> [] -> length found = length truth -> is_score truth found (VScore (found_labels_to_score Nat.eqb truth found)).
Proof.
  intros Ne L. destruct (score_spec Nat.eqb truth found Nat.eqb_eq Ne L) as (q & -> & E & B & _). exists q. split; auto.
Qed.

(** ** The dictionary of the current run. *)
Definition current (w : world) (m : nat) (d : list (string * val)) : Prop :=
  exists l r, nth_error (w_logs w) 0 = Some l /\ length (lg_exps l) = S m /\ nth_error (lg_exps l) m = Some r /\ nth_error (w_runs w) r = Some d.

Lemma store_current w m d k v : current w m d ->
  (In k (map fst d) -> store w 0 k v = (w, Err ValueError)) /\
  (~ In k (map fst d) -> exists w', store w 0 k v = (w', Ok tt) /\ current w' m (d ++ [(k, v)])).
Proof.
  intros (l & r & El & Ll & Er & Ed). unfold store, get_logger. rewrite El. cbn [bind]. rewrite py_nth_last, Ll. cbn [Nat.sub]. rewrite Nat.sub_0_r, Er.
  unfold get_run. cbn [bind]. rewrite Ed. cbn [bind]. split; intro H.
  - destruct (dict_get String.eqb d k) eqn:E; [reflexivity|]. apply get_none in E. tauto.
  - apply get_none in H. rewrite H. eexists. split; [reflexivity|].
    rewrite set_fresh by (now apply get_none).
    exists (mkLogger (lg_glob l) (lg_exps l) (set_add (lg_exp_keys l) k) (lg_result_keys l) (lg_filename l) (lg_exp_results l)), r.
    cbn [put_run put_logger w_logs w_runs lg_exps]. split; [eapply nth_error_set_same; eauto|]. split; auto. split; auto. eapply nth_error_set_same; eauto.
Qed.
Lemma store_result_current w m d k v : current w m d ->
  (In k (map fst d) -> store_result w 0 k v = (w, Err ValueError)) /\
  (~ In k (map fst d) -> exists w', store_result w 0 k v = (w', Ok tt) /\ current w' m (d ++ [(k, v)])).
Proof.
  intro C. destruct (store_current w m d k v C) as [A B]. unfold store_result. split; intro H.
  - now rewrite (A H).
  - destruct (B H) as (w' & E & C'). rewrite E. destruct C' as (l & r & El & Ll & Er & Ed). unfold get_logger. rewrite El. eexists. split; [reflexivity|].
    eexists _, r. unfold put_logger. cbn [w_logs w_runs]. split; [eapply nth_error_set_same; eauto|]. cbn [lg_exps]. auto.
Qed.
