(** * Proofs on what one call of the logger leaves as it was. *)

From Coq Require Import List ZArith Arith Bool QArith String Lia.
Import ListNotations.
From Verif Require Import Py Py_proof logger_model logger_spec logger_frame_spec logger_proof.
Local Open Scope nat_scope.

Section Frame.
Context {Arr : Type}.
Notation val := (val Arr).
Notation world := (world Arr).
Implicit Types (w : world) (v : val).

(** A heap where logger [i] was replaced by [l2], with the same runs. *)
Lemma logs_seen w i l l2 runs j : nth_error (w_logs w) i = Some l ->
  lg_glob l2 = lg_glob l -> lg_exps l2 = lg_exps l ->
  let w' := mkWorld runs (list_set (w_logs w) i l2) in
  option_map lg_exps (nth_error (w_logs w') j) = option_map lg_exps (nth_error (w_logs w) j) /\
  option_map lg_glob (nth_error (w_logs w') j) = option_map lg_glob (nth_error (w_logs w) j).
Proof.
  intros H G E. cbn [w_logs]. destruct (Nat.eq_dec j i) as [->|N].
  - rewrite (nth_error_set_same _ _ _ _ H), H. cbn. rewrite G, E. auto.
  - rewrite nth_error_set_other by assumption. auto.
Qed.

Lemma value_by_exps w i p k : value_at w i p k =
  match option_map lg_exps (nth_error (w_logs w) i) with
  | None => None
  | Some rs => match nth_error rs p with
               | None => None
               | Some r => match nth_error (w_runs w) r with
                           | None => None | Some d => dict_get String.eqb d k end
               end
  end.
Proof. unfold value_at. destruct (nth_error (w_logs w) i); reflexivity. Qed.

Lemma stored_in w i l l2 r d k v : nth_error (w_logs w) i = Some l ->
  nth_error (lg_exps l) (List.length (lg_exps l) - 1) = Some r ->
  nth_error (w_runs w) r = Some d ->
  lg_glob l2 = lg_glob l -> lg_exps l2 = lg_exps l ->
  stored w (mkWorld (list_set (w_runs w) r (dict_set String.eqb d k v))
                    (list_set (w_logs w) i l2)) i (List.length (lg_exps l) - 1) k v.
Proof.
  intros Hl Hr Hd G E. set (w' := mkWorld _ _).
  assert (S : forall j, option_map lg_exps (nth_error (w_logs w') j) = option_map lg_exps (nth_error (w_logs w) j))
    by (intros j; apply (logs_seen w i l l2 _ j Hl G E)).
  split; [|split; [|split; [|split]]].
  - intros j q (l0 & m & r0 & A & B & C & D). rewrite A in Hl. injection Hl as ->.
    rewrite B in Hr. injection Hr as ->.
    rewrite value_by_exps, S, C. cbn [option_map]. rewrite D. cbn [w_runs w'].
    rewrite (nth_error_set_same _ _ _ _ Hd), get_set, String.eqb_refl. reflexivity.
  - intros j q N. rewrite !value_by_exps, S.
    destruct (nth_error (w_logs w) j) as [m|] eqn:C; [|reflexivity]. cbn [option_map].
    destruct (nth_error (lg_exps m) q) as [r0|] eqn:D; [|reflexivity]. cbn [w_runs w'].
    rewrite nth_error_set_other; [reflexivity|]. intros ->. apply N.
    exists l, m, r. auto.
  - intros j q k' N. rewrite !value_by_exps, S.
    destruct (nth_error (w_logs w) j) as [m|] eqn:C; [|reflexivity]. cbn [option_map].
    destruct (nth_error (lg_exps m) q) as [r0|] eqn:D; [|reflexivity]. cbn [w_runs w'].
    destruct (Nat.eq_dec r0 r) as [->|M].
    + rewrite (nth_error_set_same _ _ _ _ Hd), Hd, get_set.
      destruct (String.eqb_spec k k'); congruence.
    + rewrite nth_error_set_other by assumption. reflexivity.
  - intros j k'. unfold global_at.
    destruct (logs_seen w i l l2 (list_set (w_runs w) r (dict_set String.eqb d k v)) j Hl G E) as [_ X].
    fold w' in X. destruct (nth_error (w_logs w') j), (nth_error (w_logs w) j); cbn in X; congruence.
  - intros j. unfold runs_of. specialize (S j).
    destruct (nth_error (w_logs w') j), (nth_error (w_logs w) j); cbn in S |- *; congruence.
Qed.

Lemma registers_in w i l l2 runs more results : nth_error (w_logs w) i = Some l ->
  lg_filename l2 = lg_filename l ->
  (forall k, In k (lg_exp_keys l2) <-> In k (lg_exp_keys l) \/ In k more) ->
  (forall k, In k (lg_result_keys l2) <-> In k (lg_result_keys l) \/ In k results) ->
  registers w (mkWorld runs (list_set (w_logs w) i l2)) i more results.
Proof.
  intros H F K1 K2. split; [apply list_set_length|]. intros j m m'. cbn [w_logs].
  destruct (Nat.eq_dec j i) as [->|N].
  - rewrite (nth_error_set_same _ _ _ _ H), H. intros [= <-] [= <-].
    split; [exact F|]. split; intros k; [rewrite K1|rewrite K2]; tauto.
  - rewrite nth_error_set_other by assumption. intros A B. rewrite A in B. injection B as <-.
    split; [reflexivity|]. split; intros k; tauto.
Qed.

Theorem store_frame w i k v w' : store w i k v = (w', Ok tt) ->
  exists n, runs_of w i = Some (S n) /\ stored w w' i n k v /\ registers w w' i [k] [].
Proof.
  intros H. destruct (store_cases w i k v) as [(l & r & d & A & B & C & D & E)|[e E]];
    rewrite E in H; [injection H as <-|discriminate H].
  assert (N : List.length (lg_exps l) <> 0).
  { intros Z. rewrite Z in B. destruct (lg_exps l); [destruct (0 - 1); discriminate B|discriminate Z]. }
  exists (List.length (lg_exps l) - 1). split; [|split].
  - unfold runs_of. rewrite A. cbn. f_equal. lia.
  - apply stored_in; auto.
  - apply (registers_in w i l); auto; intros x; cbn.
    + rewrite in_set_add. intuition auto.
    + tauto.
Qed.

Theorem store_result_frame w i k v w' : store_result w i k v = (w', Ok tt) ->
  exists n, runs_of w i = Some (S n) /\ stored w w' i n k v /\ registers w w' i [k] [k].
Proof.
  unfold store_result. intros H.
  destruct (store_cases w i k v) as [(l & r & d & A & B & C & D & E)|[e E]]; rewrite E in H; [|discriminate H].
  unfold get_logger in H. cbn [w_logs] in H. rewrite (nth_error_set_same _ _ _ _ A) in H.
  injection H as <-. unfold put_logger. cbn [w_runs w_logs lg_glob lg_exps lg_exp_keys lg_result_keys lg_filename lg_exp_results].
  rewrite list_set_twice.
  assert (N : List.length (lg_exps l) <> 0).
  { intros Z. rewrite Z in B. destruct (lg_exps l); [destruct (0 - 1); discriminate B|discriminate Z]. }
  exists (List.length (lg_exps l) - 1). split; [|split].
  - unfold runs_of. rewrite A. cbn. f_equal. lia.
  - apply stored_in; auto.
  - apply (registers_in w i l); auto; intros x; cbn; rewrite in_set_add; intuition auto.
Qed.

Theorem new_run_frame w i l : wf_world w -> nth_error (w_logs w) i = Some l ->
  let n := List.length (lg_exps l) in
  exists w', new_run w i = (w', Ok tt) /\
    runs_of w' i = Some (S n) /\ (forall j, j <> i -> runs_of w' j = runs_of w j) /\
    (forall j q k, value_at w' j q k = value_at w j q k) /\
    (forall j q, same_run w' i n j q -> j = i /\ q = n) /\
    (forall j k, global_at w' j k = global_at w j k) /\ registers w w' i [] [].
Proof.
  intros [W1 W2] H n. unfold new_run, get_logger. rewrite H. eexists. split; [reflexivity|].
  set (l2 := mkLogger _ _ _ _ _ _). set (w' := mkWorld _ _).
  assert (Hi : nth_error (w_logs w') i = Some l2) by exact (nth_error_set_same _ _ _ _ H).
  assert (Hj : forall j, j <> i -> nth_error (w_logs w') j = nth_error (w_logs w) j)
    by (intros j N; exact (nth_error_set_other _ _ _ _ N)).
  assert (R : forall j m, nth_error (w_logs w) j = Some m -> forall q r, nth_error (lg_exps m) q = Some r ->
    r < List.length (w_runs w)).
  { intros j m Hm q r Hq. apply (proj2 (W1 j m Hm)). exact (nth_error_In _ _ Hq). }
  assert (X : forall r, r < List.length (w_runs w) -> nth_error (w_runs w') r = nth_error (w_runs w) r).
  { intros r L. cbn [w_runs w']. apply nth_error_app1. exact L. }
  split; [|split; [|split; [|split; [|split]]]].
  - unfold runs_of. rewrite Hi. cbn [option_map lg_exps l2]. rewrite app_length. cbn. f_equal. fold n. lia.
  - intros j N. unfold runs_of. rewrite Hj by assumption. reflexivity.
  - intros j q k. unfold value_at. destruct (Nat.eq_dec j i) as [->|N].
    + rewrite Hi, H. cbn [lg_exps l2]. rewrite nth_error_snoc.
      destruct (Nat.eqb_spec q (List.length (lg_exps l))) as [->|M].
      * rewrite (proj2 (nth_error_None (lg_exps l) _)) by lia.
        cbn [w_runs w']. rewrite nth_error_snoc, Nat.eqb_refl. reflexivity.
      * destruct (nth_error (lg_exps l) q) as [r|] eqn:Q; [|reflexivity].
        rewrite X by (eapply R; eassumption). reflexivity.
    + rewrite Hj by assumption. destruct (nth_error (w_logs w) j) as [m|] eqn:M; [|reflexivity].
      destruct (nth_error (lg_exps m) q) as [r|] eqn:Q; [|reflexivity].
      rewrite X by (eapply R; eassumption). reflexivity.
  - intros j q (a & m & r & A & B & C & D). rewrite Hi in A. injection A as <-.
    cbn [lg_exps l2] in B. rewrite nth_error_snoc in B. unfold n in B. rewrite Nat.eqb_refl in B.
    injection B as <-. destruct (Nat.eq_dec j i) as [->|N].
    + split; [reflexivity|]. rewrite Hi in C. injection C as <-. cbn [lg_exps l2] in D.
      rewrite nth_error_snoc in D. destruct (Nat.eqb_spec q (List.length (lg_exps l))) as [Q|M]; [exact Q|].
      specialize (R i l H q _ D). lia.
    + rewrite Hj in C by assumption. specialize (R j m C q _ D). lia.
  - intros j k. unfold global_at. destruct (Nat.eq_dec j i) as [->|N].
    + rewrite Hi, H. reflexivity.
    + rewrite Hj by assumption. reflexivity.
  - apply (registers_in w i l); auto; intros x; cbn; tauto.
Qed.

End Frame.
