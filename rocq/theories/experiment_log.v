(** * What run of experiment.py writes into the logger. *)

From Coq Require Import List ZArith Reals Bool Arith String Permutation Sorted Lia Lra.
Import ListNotations.
From Verif Require Import Py Py_proof ListUtil pairing_model pairing_spec pairing_proof evaluation_model evaluation_spec evaluation_proof
  utils_model utils_spec utils_proof logger_model logger_spec logger_proof nd_model nd_spec nd_proof sparse_model metrics_model
  nmf_model nmf_spec learner_model learner_spec learner_proof
  experiment_model experiment_spec experiment_proof experiment_coefs experiment_eval.
From Coq Require Import QArith Qreals.
Notation Q := QArith_base.Q.
Open Scope py_scope.
Local Open Scope nat_scope.
Notation length := List.length.
Notation val := (logger_model.val nd).
Notation world := (logger_model.world nd).

(** ** Whatever happens. *)

(** Runs keep their values, their number does not change, global values do not change. *)
Definition keeps (w w' : world) : Prop :=
  extends w w' /\ runs_of w' 0 = runs_of w 0 /\ forall k, global_at w' 0 k = global_at w 0 k.
Lemma keeps_refl w : keeps w w.
Proof. split; [apply extends_refl|auto]. Qed.
Lemma keeps_trans a b c : keeps a b -> keeps b c -> keeps a c.
Proof. intros (A & B & C) (A' & B' & C'). split; [eapply extends_trans; eauto|]. split; [congruence|]. intro k. now rewrite C', C. Qed.

Lemma logs_set_0 (l : list (logger nd)) a b : nth_error l 0 = Some a -> nth_error (list_set l 0 b) 0 = Some b.
Proof. destruct l; [discriminate|reflexivity]. Qed.
Lemma keeps_store w k v : keeps w (fst (store w 0 k v)).
Proof.
  split; [exact (exec_extends w (OStore 0 k v))|].
  destruct (store_cases w 0 k v) as [(l & r & d & El & _ & _ & _ & ->)|(e & ->)]; [|split; reflexivity]. cbn [fst]. unfold runs_of, global_at. cbn [w_logs].
  rewrite (logs_set_0 _ _ _ El), El. split; reflexivity.
Qed.
Lemma keeps_store_result w k v : keeps w (fst (store_result w 0 k v)).
Proof.
  split; [exact (exec_extends w (OStoreResult 0 k v))|].
  destruct (store_result_cases w 0 k v) as [(l & r & d & El & _ & _ & _ & ->)|(e & ->)]; [|split; reflexivity]. cbn [fst]. unfold runs_of, global_at. cbn [w_logs].
  rewrite (logs_set_0 _ _ _ El), El. split; reflexivity.
Qed.
Lemma keeps_wbind {A B} (s : world * result A) (f : world -> A -> world * result B) w : keeps w (fst s) -> (forall w' a, keeps w' (fst (f w' a))) -> keeps w (fst (wbind s f)).
Proof. destruct s as [w' [a|e]]; cbn; auto. intros H K. exact (keeps_trans _ _ _ H (K w' a)). Qed.
Lemma keeps_lift {A} w (r : result A) : keeps w (fst (lift w r)).
Proof. apply keeps_refl. Qed.
Lemma keeps_wfold {A} (f : world -> A -> world * result unit) l : (forall w a, keeps w (fst (f w a))) -> forall w, keeps w (fst (wfold f l w)).
Proof. intro H. induction l as [|a l IH]; intro w; cbn [wfold]; [apply keeps_refl|]. apply keeps_wbind; [apply H|]. intros w' _. apply IH. Qed.
Lemma keeps_two_step x a b le tl w c ms : keeps w (fst (two_step x a b le tl w c ms)).
Proof.
  destruct c as [[m1 m2] cmp]. unfold two_step. apply keeps_wbind; [apply keeps_lift|]. intros w' found.
  apply keeps_wbind; [apply keeps_store_result|]. intros w2 _. apply keeps_store_result.
Qed.
Lemma keeps_three_step x a b le tl w c ms : keeps w (fst (three_step x a b le tl w c ms)).
Proof. unfold three_step. apply keeps_wbind; [apply keeps_lift|]. intros w' found. apply keeps_store_result. Qed.
Lemma keeps_evaluate rnd x p l dt tl w : keeps w (fst (evaluate rnd x p l dt tl w)).
Proof.
  unfold evaluate. destruct (x_kind x); [unfold two_evaluate|unfold three_evaluate|apply keeps_refl].
  - apply keeps_wbind; [apply keeps_lift|]. intros w1 t1. apply keeps_wbind; [apply keeps_lift|]. intros w2 t2. apply keeps_wfold. intros. apply keeps_two_step.
  - apply keeps_wbind; [apply keeps_lift|]. intros w1 t1. apply keeps_wbind; [apply keeps_lift|]. intros w2 t2. apply keeps_wfold. intros. apply keeps_three_step.
Qed.

(** A logger with [m] runs. *)
Definition ready (w : world) (m : nat) : Prop := runs_of w 0 = Some m.
Lemma new_run_current w m : ready w m -> exists w', new_run w 0 = (w', Ok tt) /\ current w' m [] /\ extends w w' /\ forall k, global_at w' 0 k = global_at w 0 k.
Proof.
  unfold ready, runs_of. intro H. destruct (nth_error (w_logs w) 0) as [l|] eqn:E; [|discriminate]. cbn in H. injection H as H.
  pose proof (exec_extends w (ONewRun 0)) as X. cbn [exec] in X. unfold new_run, get_logger in *. rewrite E in *. cbn [fst] in X.
  eexists. split; [reflexivity|]. split.
  - eexists _, (length (w_runs w)). cbn [w_logs w_runs]. split; [eapply logs_set_0; eauto|]. cbn [lg_exps]. split; [rewrite app_length; cbn; lia|]. split.
    + rewrite nth_error_app2 by lia. now rewrite H, Nat.sub_diag.
    + rewrite nth_error_app2 by lia. now rewrite Nat.sub_diag.
  - split; [exact X|]. intro k. unfold global_at. cbn [w_logs]. rewrite (logs_set_0 _ _ _ E), E. reflexivity.
Qed.
Lemma current_ready w m d : current w m d -> ready w (S m).
Proof. intros (l & r & E & L & _). unfold ready, runs_of. rewrite E. cbn. congruence. Qed.
Lemma current_value w m d k : current w m d -> value_at w 0 m k = dict_get String.eqb d k.
Proof. intros (l & r & E & L & Er & Ed). unfold value_at. now rewrite E, Er, Ed. Qed.
Lemma keeps_ready w w' m : keeps w w' -> ready w m -> ready w' m.
Proof. intros (_ & E & _) H. unfold ready in *. congruence. Qed.

Lemma one_run_logs rnd x p w m tr te : ready w m ->
  exists w', fst (perform_one_run rnd x p w (tr, te)) = w' /\ ready w' (S m) /\ extends w w' /\ (forall k, global_at w' 0 k = global_at w 0 k) /\
    value_at w' 0 m "train" = Some (VNats tr) /\ value_at w' 0 m "test" = Some (VNats te).
Proof.
  intro R. eexists. split; [reflexivity|]. unfold perform_one_run. destruct (new_run_current w m R) as (w1 & -> & C1 & X1 & G1). cbn [wbind].
  destruct (store_current w1 m [] "train" (VNats tr) C1) as [_ S1]. destruct S1 as (w2 & E2 & C2); [cbn; auto|].
  pose proof (keeps_store w1 "train" (VNats tr)) as K2. rewrite E2 in *. cbn [wbind fst] in *.
  destruct (store_current w2 m _ "test" (VNats te) C2) as [_ S2]. destruct S2 as (w3 & E3 & C3); [cbn; intros [H|[]]; discriminate|].
  pose proof (keeps_store w2 "test" (VNats te)) as K3. rewrite E3 in *. cbn [wbind fst] in *.
  match goal with |- context [wbind ?a ?b] => set (s := wbind a b) end.
  assert (K : keeps w3 (fst s)).
  { unfold s. apply keeps_wbind; [apply keeps_lift|]. intros w4 dt. apply keeps_wbind; [apply keeps_lift|]. intros w5 de. apply keeps_wbind; [apply keeps_lift|]. intros w6 tl.
    destruct (train (rnd 0) 0 (new_learner x p) dt (x_iter_train x)) as [l r]. apply keeps_wbind; [apply keeps_lift|]. intros w7 _.
    apply keeps_wbind; [apply keeps_lift|]. intros w8 d. apply keeps_wbind; [apply keeps_store|]. intros w9 _. apply keeps_evaluate. }
  split; [eapply keeps_ready; [exact K|]; eapply current_ready; eauto|].
  split; [apply extends_trans with w1; auto; apply extends_trans with w2; [apply K2|]; apply extends_trans with w3; [apply K3|apply K]|].
  split; [intro k; destruct K as (_ & _ & ->), K3 as (_ & _ & ->), K2 as (_ & _ & ->); auto|].
  split; (eapply extends_value; [apply K|]); rewrite (current_value _ _ _ _ C3); reflexivity.
Qed.

(** The runs that were logged, also when one of them raised. *)
Lemma loop_logs rd x p splits : forall i w m, ready w m ->
  exists n, n <= length splits /\ let w' := fst (run_loop rd x p i splits w) in
    ready w' (m + n) /\ extends w w' /\ (forall k, global_at w' 0 k = global_at w 0 k) /\
    (forall q, q < n -> exists tr te, nth_error splits q = Some (tr, te) /\
       value_at w' 0 (m + q) "train" = Some (VNats tr) /\ value_at w' 0 (m + q) "test" = Some (VNats te)) /\
    (snd (run_loop rd x p i splits w) = Ok tt -> n = length splits).
Proof.
  induction splits as [|[tr te] splits IH]; intros i w m R; cbn [run_loop].
  - exists 0. cbn. rewrite Nat.add_0_r. split; auto. split; auto. split; [apply extends_refl|]. split; auto. split; [lia|auto].
  - destruct (one_run_logs (r_draws rd i) x p w m tr te R) as (w1 & E1 & R1 & X1 & G1 & A & B).
    destruct (perform_one_run (r_draws rd i) x p w (tr, te)) as [w1' [u|e]]; cbn [fst] in E1; subst w1'; cbn [wbind fst snd].
    + destruct (IH (S i) w1 (S m) R1) as (n & Ln & R2 & X2 & G2 & V & D). exists (S n). cbn [length]. split; [lia|].
      split; [now replace (m + S n) with (S m + n) by lia|]. split; [eapply extends_trans; eauto|]. split; [intro k; now rewrite G2, G1|]. split.
      * intros [|q] Hq.
        -- exists tr, te. rewrite Nat.add_0_r. split; auto. split; (eapply extends_value; [exact X2|]); auto.
        -- replace (m + S q) with (S m + q) by lia. cbn [nth_error]. apply V. lia.
      * intro O. now rewrite (D O).
    + exists 1. cbn [length]. split; [lia|]. split; [now rewrite Nat.add_1_r|]. split; auto. split; auto. split; [|discriminate].
      intros q Hq. replace q with 0 by lia. rewrite Nat.add_0_r. exists tr, te. auto.
Qed.

(** ** Global values. *)
Lemma store_global_ready w m k v : ready w m -> exists w', store_global w 0 k v = (w', Ok tt) /\ ready w' m /\
  (forall i p k', value_at w' i p k' = value_at w i p k') /\ forall k', global_at w' 0 k' = if String.eqb k k' then Some v else global_at w 0 k'.
Proof.
  unfold ready, runs_of. intro H. destruct (nth_error (w_logs w) 0) as [l|] eqn:E; [|discriminate]. unfold store_global, get_logger. rewrite E.
  eexists. split; [reflexivity|]. unfold put_logger. cbn [w_logs w_runs]. rewrite (logs_set_0 _ _ _ E). cbn [option_map lg_exps]. split; auto. split.
  - intros i p k'. unfold value_at. cbn [w_logs w_runs]. destruct i as [|i]; [now rewrite (logs_set_0 _ _ _ E), E|]. destruct (w_logs w); auto.
  - intro k'. unfold global_at. cbn [w_logs]. rewrite (logs_set_0 _ _ _ E), E. cbn [lg_glob]. apply get_set.
Qed.
Lemma store_globals_ready kvs : forall w m, ready w m -> exists w', store_globals w kvs = (w', Ok tt) /\ ready w' m /\
  (forall i p k', value_at w' i p k' = value_at w i p k') /\
  (NoDup (map fst kvs) -> forall k v, In (k, v) kvs -> global_at w' 0 k = Some v) /\
  (forall k, ~ In k (map fst kvs) -> global_at w' 0 k = global_at w 0 k).
Proof.
  unfold store_globals. induction kvs as [|[k0 v0] kvs IH]; intros w m R; cbn [wfold fst snd].
  - exists w. split; auto. split; auto. split; auto. split; [intros _ k v []|auto].
  - destruct (store_global_ready w m k0 v0 R) as (w1 & -> & R1 & V1 & G1). cbn [wbind]. destruct (IH w1 m R1) as (w' & E & R' & V' & G' & H').
    exists w'. split; auto. split; auto. split; [intros; now rewrite V', V1|]. split.
    + intro N. inversion N as [|? ? Ni N']; subst. intros k v [I|I]; [|now apply G'].
      injection I as <- <-. rewrite H', G1, String.eqb_refl; auto.
    + intros k Nk. cbn in Nk. rewrite H', G1 by tauto. destruct (String.eqb_spec k0 k) as [->|]; tauto.
Qed.

Lemma parameters_nodup x : NoDup (map fst (parameters x)).
Proof. cbn. repeat (constructor; [cbn; intuition discriminate|]). constructor. Qed.
Lemma globals_nodup p : NoDup (map fst (globals p)).
Proof. cbn. repeat (constructor; [cbn; intuition discriminate|]). constructor. Qed.

(** The state before the loop. *)
Lemma run_start rd x f p : prepare rd x = Ok p ->
  exists w, ready w 0 /\
    run_world rd x f = (log w, splits <- lift w (p_generator p) ;; log w, _ <- run_loop rd x p 0 splits w ;; store_global w 0 "end_time" (VStr (r_end rd))) /\
    (forall k v, In (k, v) (parameters x ++ globals p) -> global_at w 0 k = Some v).
Proof.
  intro E. unfold run_world. set (w0 := mkWorld [] _ : world). assert (R0 : ready w0 0) by reflexivity.
  destruct (store_globals_ready (parameters x) w0 0 R0) as (w1 & -> & R1 & _ & G1 & _). cbn [wbind]. unfold lift at 1. rewrite E. cbn [wbind].
  destruct (store_globals_ready (globals p) w1 0 R1) as (w2 & -> & R2 & _ & G2 & H2). cbn [wbind].
  destruct (store_global_ready w2 0 "start_time" (VStr (r_start rd)) R2) as (w3 & -> & R3 & _ & G3). cbn [wbind]. exists w3. split; auto. split; auto.
  intros k v I. apply in_app_or in I. rewrite G3.
  assert (Nk : String.eqb "start_time" k = false).
  { destruct (String.eqb_spec "start_time" k) as [<-|]; auto. exfalso. destruct I as [I|I]; cbn in I; intuition discriminate. }
  rewrite Nk. destruct I as [I|I]; [|apply G2; auto; apply globals_nodup]. rewrite H2; [apply G1; auto; apply parameters_nodup|].
  intro J. cbn in J. destruct J as [<-|[<-|[<-|[]]]]; cbn in I; intuition discriminate.
Qed.

(** C34. *)
Lemma logged_runs rd x f p splits w r : prepare rd x = Ok p -> p_generator p = Ok splits -> run_world rd x f = (w, r) ->
  exists n, runs_of w 0 = Some n /\ n <= length splits /\ (r = Ok tt -> n = length splits) /\
    (forall q, q < n -> exists tr te, nth_error splits q = Some (tr, te) /\
       value_at w 0 q "train" = Some (VNats tr) /\ value_at w 0 q "test" = Some (VNats te)) /\
    (forall k v, In (k, v) (parameters x ++ globals p) -> global_at w 0 k = Some v).
Proof.
  intros Ep Eg. destruct (run_start rd x f p Ep) as (w0 & R0 & -> & G0). rewrite Eg. cbn [lift wbind].
  destruct (loop_logs rd x p splits 0 w0 0 R0) as (n & Ln & R & X & G & V & D). cbn zeta in *.
  destruct (run_loop rd x p 0 splits w0) as [w1 [u|e]]; cbn [fst snd wbind] in *.
  - destruct (store_global_ready w1 (0 + n) "end_time" (VStr (r_end rd)) R) as (w2 & -> & R2 & V2 & G2). intro H. injection H as <- <-.
    exists n. split; auto. split; auto. split; [destruct u; auto|]. split.
    + intros q Hq. rewrite !V2. apply V. auto.
    + intros k v I. rewrite G2. assert (Nk : String.eqb "end_time" k = false).
      { destruct (String.eqb_spec "end_time" k) as [<-|]; auto. exfalso. cbn in I. intuition discriminate. }
      rewrite Nk, G. auto.
  - intro H. injection H as <- <-. exists n. split; auto. split; auto. split; [discriminate|]. split; auto. intros k v I. rewrite G. auto.
Qed.
Lemma logged_splits rd x f p w r : legal x rd -> prepare rd x = Ok p -> run_world rd x f = (w, r) ->
  (Z.of_nat (length (p_labels p)) <= 2 ^ 51)%Z -> match x_mode x with Ratio q => (0 < q <= 1)%Q | _ => True end ->
  (forall e, p_generator p = Err e -> r = Err e /\ runs_of w 0 = Some 0) /\
  (forall l, p_generator p = Ok l -> good_splits (x_mode x) (length (p_labels p)) l /\
  exists n, runs_of w 0 = Some n /\ n <= length l /\ (r = Ok tt -> n = length l) /\
    forall q, q < n -> exists tr te, nth_error l q = Some (tr, te) /\
       value_at w 0 q "train" = Some (VNats tr) /\ value_at w 0 q "test" = Some (VNats te)).
Proof.
  intros G Ep Er Hn Hm. destruct (prepare_inv _ _ _ Ep) as [B]. split.
  - intros e Ee. destruct (run_start rd x f p Ep) as (w0 & R0 & E & _). rewrite Er, Ee in E. cbn in E. injection E as -> ->. auto.
  - intros l El. split.
    + destruct G as (_ & _ & Ps & _). exact (generator_good rd _ _ Ps Hn Hm _ _ (pb_gen _ _ _ B) El).
    + destruct (logged_runs rd x f p l w r Ep El Er) as (n & A1 & A2 & A3 & A4 & _). eauto.
Qed.
