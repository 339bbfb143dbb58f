(** * Proofs about the logger. *)

From Coq Require Import List ZArith Arith Bool QArith String Ascii Lia.
From Coq Require Import DecimalString Decimal DecimalNat.
Import ListNotations.
From Verif Require Import Py Py_proof ListUtil logger_model logger_spec.
Local Open Scope nat_scope.

(** ** Dictionaries with string keys. *)
Section Dict.
Context {V : Type}.
Notation get := (dict_get (V:=V) String.eqb).
Notation set := (dict_set (V:=V) String.eqb).

Lemma get_set d k v k' : get (set d k v) k' = if String.eqb k k' then Some v else get d k'.
Proof.
  induction d as [|[a x] d IH]; cbn [dict_set dict_get].
  - reflexivity.
  - destruct (String.eqb_spec a k) as [->|n]; cbn [dict_get].
    + destruct (String.eqb k k'); reflexivity.
    + rewrite IH. destruct (String.eqb_spec a k') as [->|n'];
        destruct (String.eqb_spec k k'); try congruence; reflexivity.
Qed.

Lemma get_none d k : get d k = None <-> ~ In k (map fst d).
Proof.
  induction d as [|[a x] d IH]; cbn [dict_get map fst In]; [tauto|].
  destruct (String.eqb_spec a k); [split; [congruence|tauto]|].
  rewrite IH. tauto.
Qed.

Lemma get_in d k v : get d k = Some v -> In (k, v) d.
Proof.
  induction d as [|[a x] d IH]; cbn [dict_get]; [discriminate|].
  destruct (String.eqb_spec a k) as [->|n]; [intros [= ->]; left; reflexivity|].
  right; auto.
Qed.

Lemma get_in_iff d k v : NoDup (map fst d) -> (get d k = Some v <-> In (k, v) d).
Proof.
  intros ND. split; [apply get_in|]. induction d as [|[a x] d IH]; [intros []|].
  cbn [map fst] in ND. inversion ND; subst.
  intros [[= -> ->]|H]; cbn [dict_get].
  - rewrite String.eqb_refl. reflexivity.
  - destruct (String.eqb_spec a k) as [->|n]; [|auto].
    exfalso. apply H1. apply in_map_iff. exists (k, v). auto.
Qed.

Lemma set_fresh d k v : ~ In k (map fst d) -> set d k v = d ++ [(k, v)].
Proof.
  induction d as [|[a x] d IH]; cbn [dict_set map fst In app]; [reflexivity|].
  intros H. destruct (String.eqb_spec a k); [tauto|]. rewrite IH by tauto. reflexivity.
Qed.

Lemma set_keys d k v : get d k <> None -> map fst (set d k v) = map fst d.
Proof.
  induction d as [|[a x] d IH]; cbn [dict_set dict_get map fst]; [congruence|].
  destruct (String.eqb_spec a k); [reflexivity|]. intros H. cbn [map fst]. rewrite IH; auto.
Qed.

Lemma set_keys_nodup d k v : NoDup (map fst d) -> NoDup (map fst (set d k v)).
Proof.
  intros ND. destruct (get d k) as [x|] eqn:E.
  - rewrite set_keys; congruence.
  - apply get_none in E. rewrite set_fresh, map_app by assumption.
    apply NoDup_app_intro; [assumption|constructor; [intros []|constructor]|].
    intros x Hx [<-|[]]. exact (E Hx).
Qed.
End Dict.

Lemma set_mem_in k s : set_mem k s = true <-> In k s.
Proof.
  unfold set_mem. rewrite existsb_exists. split.
  - intros (x & H & E). apply String.eqb_eq in E. congruence.
  - intros H. exists k. split; [assumption|apply String.eqb_refl].
Qed.
Lemma in_set_add s k x : In x (set_add s k) <-> In x s \/ x = k.
Proof.
  unfold set_add. destruct (set_mem k s) eqn:E.
  - apply set_mem_in in E. split; [tauto|intros [H| ->]; assumption].
  - rewrite in_app_iff. cbn [In]. split; intros [H|H]; auto.
    destruct H as [H|[]]; auto.
Qed.
Lemma in_set_of_list l x : In x (set_of_list l) <-> In x l.
Proof.
  unfold set_of_list.
  assert (G : forall l0 acc, In x (fold_left set_add l0 acc) <-> In x acc \/ In x l0).
  { induction l0 as [|a l0 IH]; intros acc; cbn [fold_left In]; [tauto|].
    rewrite IH, in_set_add. split.
    - intros [[H|H]|H]; auto.
    - intros [H|[H|H]]; auto. }
  rewrite G. cbn [In]. tauto.
Qed.
Lemma set_eqb_iff a b : set_eqb a b = true <-> (forall k, In k a <-> In k b).
Proof.
  unfold set_eqb. rewrite andb_true_iff, !forallb_forall. split.
  - intros [H1 H2] k. split; intros H.
    + apply set_mem_in. auto.
    + apply set_mem_in. auto.
  - intros H. split; intros x Hx; apply set_mem_in; apply H; assumption.
Qed.

Lemma py_nth_last {A} (l : list A) : py_nth l (-1) =
  match nth_error l (List.length l - 1) with Some x => Ok x | None => Err IndexError end.
Proof.
  unfold py_nth, norm_index, bind. destruct l as [|a l]; [reflexivity|].
  cbn [List.length]. rewrite Nat2Z.inj_succ.
  assert (E1 : ((0 <=? -1) && (-1 <? Z.succ (Z.of_nat (List.length l))) = false)%Z) by reflexivity.
  rewrite E1.
  assert (E2 : ((- Z.succ (Z.of_nat (List.length l)) <=? -1) && (-1 <? 0) = true)%Z).
  { apply andb_true_iff. split; [apply Z.leb_le; lia|reflexivity]. }
  rewrite E2.
  replace (Z.to_nat (-1 + Z.succ (Z.of_nat (List.length l)))) with (S (List.length l) - 1) by lia.
  reflexivity.
Qed.

(** ** Call histories. *)
Section Histories.
Context {Arr : Type}.
Notation val := (val Arr).
Notation world := (world Arr).
Implicit Types (w : world) (v : val).

Lemma get_logger_ok w i l : get_logger w i = Ok l <-> nth_error (w_logs w) i = Some l.
Proof. unfold get_logger. destruct (nth_error (w_logs w) i); split; congruence. Qed.
Lemma get_run_ok w r d : get_run w r = Ok d <-> nth_error (w_runs w) r = Some d.
Proof. unfold get_run. destruct (nth_error (w_runs w) r); split; congruence. Qed.

(** Case analysis of [store]. *)
Lemma store_cases w i k v :
  (exists l r d, nth_error (w_logs w) i = Some l /\
     nth_error (lg_exps l) (List.length (lg_exps l) - 1) = Some r /\
     nth_error (w_runs w) r = Some d /\ dict_get String.eqb d k = None /\
     store w i k v =
       (mkWorld (list_set (w_runs w) r (dict_set String.eqb d k v))
          (list_set (w_logs w) i (mkLogger (lg_glob l) (lg_exps l) (set_add (lg_exp_keys l) k)
               (lg_result_keys l) (lg_filename l) (lg_exp_results l))), Ok tt)) \/
  (exists e, store w i k v = (w, Err e)).
Proof.
  unfold store.
  unfold bind, get_logger.
  destruct (nth_error (w_logs w) i) as [l|] eqn:El; [|right; eauto].
  rewrite py_nth_last.
  destruct (nth_error (lg_exps l) (List.length (lg_exps l) - 1)) as [r|] eqn:Er; [|right; eauto].
  unfold get_run. destruct (nth_error (w_runs w) r) as [d|] eqn:Ed; [|right; eauto].
  destruct (dict_get String.eqb d k) eqn:Ek; [right; eauto|].
  left. exists l, r, d. repeat split; auto.
Qed.

Lemma list_set_twice {A} (l : list A) i x y : list_set (list_set l i x) i y = list_set l i y.
Proof. revert i; induction l as [|a l IH]; intros [|i]; simpl; [reflexivity..|]. rewrite IH. reflexivity. Qed.

Lemma nth_error_set_same {A} (l : list A) i x y : nth_error l i = Some y ->
  nth_error (list_set l i x) i = Some x.
Proof.
  intros H. rewrite nth_error_list_set, Nat.eqb_refl.
  destruct (Nat.ltb_spec i (List.length l)); [reflexivity|].
  apply nth_error_None in H0. congruence.
Qed.
Lemma nth_error_set_other {A} (l : list A) i j x : j <> i ->
  nth_error (list_set l i x) j = nth_error l j.
Proof. intros H. rewrite nth_error_list_set. destruct (Nat.eqb_spec j i); congruence. Qed.
Lemma nth_error_snoc {A} (l : list A) x i :
  nth_error (l ++ [x]) i = if i =? List.length l then Some x else nth_error l i.
Proof.
  destruct (Nat.eqb_spec i (List.length l)) as [->|n].
  - rewrite nth_error_app2, Nat.sub_diag by lia. reflexivity.
  - destruct (Nat.lt_ge_cases i (List.length l)).
    + apply nth_error_app1; assumption.
    + rewrite nth_error_app2 by lia.
      rewrite (proj2 (nth_error_None l i)) by lia.
      destruct (i - List.length l) as [|q] eqn:E; [lia|]. destruct q; reflexivity.
Qed.

Inductive step (w : world) : world -> Prop :=
| st_same : step w w
| st_new f : step w (mkWorld (w_runs w) (w_logs w ++ [mkLogger [] [] [] [] f None]))
| st_run i l : nth_error (w_logs w) i = Some l ->
    step w (mkWorld (w_runs w ++ [[]])
      (list_set (w_logs w) i (mkLogger (lg_glob l) (lg_exps l ++ [List.length (w_runs w)])
         (lg_exp_keys l) (lg_result_keys l) (lg_filename l) (lg_exp_results l))))
| st_glob i l k v : nth_error (w_logs w) i = Some l ->
    step w (mkWorld (w_runs w)
      (list_set (w_logs w) i (mkLogger (dict_set String.eqb (lg_glob l) k v) (lg_exps l)
         (lg_exp_keys l) (lg_result_keys l) (lg_filename l) (lg_exp_results l))))
| st_put i l r d k v rk : nth_error (w_logs w) i = Some l ->
    nth_error (lg_exps l) (List.length (lg_exps l) - 1) = Some r ->
    nth_error (w_runs w) r = Some d -> dict_get String.eqb d k = None ->
    rk = lg_result_keys l \/ rk = set_add (lg_result_keys l) k ->
    step w (mkWorld (list_set (w_runs w) r (dict_set String.eqb d k v))
      (list_set (w_logs w) i (mkLogger (lg_glob l) (lg_exps l) (set_add (lg_exp_keys l) k)
         rk (lg_filename l) (lg_exp_results l)))).

Inductive merge_step (w : world) : world -> Prop :=
| ms_append i j a b : nth_error (w_logs w) i = Some a -> nth_error (w_logs w) j = Some b ->
    (forall k, In k (lg_exp_keys a) <-> In k (lg_exp_keys b)) ->
    merge_step w (mkWorld (w_runs w)
      (list_set (w_logs w) i (mkLogger (lg_glob a) (lg_exps a ++ lg_exps b) (lg_exp_keys a)
         (lg_result_keys a) (lg_filename a) (lg_exp_results a)))).

Definition no_append (o : op Arr) : Prop := match o with OAppend _ _ => False | _ => True end.

Lemma store_result_cases w i k v :
  (exists l r d, nth_error (w_logs w) i = Some l /\
     nth_error (lg_exps l) (List.length (lg_exps l) - 1) = Some r /\
     nth_error (w_runs w) r = Some d /\ dict_get String.eqb d k = None /\
     store_result w i k v =
       (mkWorld (list_set (w_runs w) r (dict_set String.eqb d k v))
          (list_set (w_logs w) i (mkLogger (lg_glob l) (lg_exps l) (set_add (lg_exp_keys l) k)
               (set_add (lg_result_keys l) k) (lg_filename l) (lg_exp_results l))), Ok tt)) \/
  (exists e, store_result w i k v = (w, Err e)).
Proof.
  unfold store_result.
  destruct (store_cases w i k v) as [(l & r & d & Hl & Hr & Hd & Hk & ->)|(e & ->)]; [|right; eauto].
  left. exists l, r, d. repeat split; auto.
  unfold get_logger. cbn [w_logs w_runs]. rewrite (nth_error_set_same _ _ _ _ Hl).
  unfold put_logger. cbn [w_logs w_runs lg_glob lg_exps lg_exp_keys lg_result_keys lg_filename lg_exp_results].
  rewrite list_set_twice. reflexivity.
Qed.

Lemma append_cases w i j :
  (exists a b, nth_error (w_logs w) i = Some a /\ nth_error (w_logs w) j = Some b /\
     (forall k, In k (lg_exp_keys a) <-> In k (lg_exp_keys b)) /\
     append_exps_from_other w i j = (mkWorld (w_runs w)
      (list_set (w_logs w) i (mkLogger (lg_glob a) (lg_exps a ++ lg_exps b) (lg_exp_keys a)
         (lg_result_keys a) (lg_filename a) (lg_exp_results a))), Ok tt)) \/
  (exists a b, nth_error (w_logs w) i = Some a /\ nth_error (w_logs w) j = Some b /\
     ~ (forall k, In k (lg_exp_keys a) <-> In k (lg_exp_keys b)) /\
     append_exps_from_other w i j = (w, Err AssertionError)) \/
  ((nth_error (w_logs w) i = None \/ nth_error (w_logs w) j = None) /\
   append_exps_from_other w i j = (w, Err AttributeError)).
Proof.
  unfold append_exps_from_other, get_logger, bind.
  destruct (nth_error (w_logs w) i) as [a|] eqn:Ea; [|right; right; auto].
  destruct (nth_error (w_logs w) j) as [b|] eqn:Eb; [|right; right; auto].
  destruct (set_eqb (lg_exp_keys a) (lg_exp_keys b)) eqn:E.
  - left. pose proof (proj1 (set_eqb_iff _ _) E) as E'. exists a, b. split; [auto|]. split; [auto|]. auto.
  - right; left. exists a, b. repeat split; auto. intros H. apply set_eqb_iff in H. congruence.
Qed.

Lemma exec_step w o : no_append o -> step w (exec w o).
Proof.
  destruct o as [f|i|i k v|i k v|i k v|i j]; cbn [no_append exec]; intros H; try contradiction.
  - apply st_new.
  - unfold new_run, get_logger. destruct (nth_error (w_logs w) i) as [l|] eqn:E; [|constructor].
    apply st_run. assumption.
  - destruct (store_cases w i k v) as [(l & r & d & Hl & Hr & Hd & Hk & ->)|(e & ->)]; [|constructor].
    apply st_put; auto.
  - destruct (store_result_cases w i k v) as [(l & r & d & Hl & Hr & Hd & Hk & ->)|(e & ->)]; [|constructor].
    apply st_put; auto.
  - unfold store_global, get_logger. destruct (nth_error (w_logs w) i) as [l|] eqn:E; [|constructor].
    apply st_glob. assumption.
Qed.
Lemma exec_append w i j : exec w (OAppend i j) = w \/ merge_step w (exec w (OAppend i j)).
Proof.
  cbn [exec].
  destruct (append_cases w i j) as [(a & b & Ha & Hb & Hk & ->)|[(a & b & Ha & Hb & Hk & ->)|[_ ->]]]; auto.
  right. eapply ms_append; eauto.
Qed.
Lemma exec_cases w o : step w (exec w o) \/ merge_step w (exec w o).
Proof.
  destruct o as [f|i|i k v|i k v|i k v|i j]; try (left; apply exec_step; exact I).
  destruct (exec_append w i j) as [E|E]; [|auto]. left. rewrite E. constructor.
Qed.

(** What is logged stays: runs only gain keys, loggers only gain runs. *)
Definition extends (w w' : world) : Prop :=
  (forall r d, nth_error (w_runs w) r = Some d ->
     exists d', nth_error (w_runs w') r = Some d' /\
       forall k v, dict_get String.eqb d k = Some v -> dict_get String.eqb d' k = Some v) /\
  (forall i l, nth_error (w_logs w) i = Some l ->
     exists l' ext, nth_error (w_logs w') i = Some l' /\ lg_exps l' = lg_exps l ++ ext).

Lemma extends_refl w : extends w w.
Proof.
  split; [eauto|]. intros i l H. exists l, []. rewrite app_nil_r. auto.
Qed.
Lemma extends_trans w1 w2 w3 : extends w1 w2 -> extends w2 w3 -> extends w1 w3.
Proof.
  intros [A1 B1] [A2 B2]. split.
  - intros r d H. destruct (A1 _ _ H) as (d' & H' & K). destruct (A2 _ _ H') as (d2 & H2 & K2). eauto.
  - intros i l H. destruct (B1 _ _ H) as (l' & e & H' & K). destruct (B2 _ _ H') as (l2 & e2 & H2 & K2).
    exists l2, (e ++ e2). rewrite app_assoc, <- K. auto.
Qed.

Lemma extends_logs w rs i l l' ext :
  (forall r d, nth_error (w_runs w) r = Some d -> exists d', nth_error rs r = Some d' /\
       forall k v, dict_get String.eqb d k = Some v -> dict_get String.eqb d' k = Some v) ->
  nth_error (w_logs w) i = Some l -> lg_exps l' = lg_exps l ++ ext ->
  extends w (mkWorld rs (list_set (w_logs w) i l')).
Proof.
  intros Hr Hl He. split; [exact Hr|]. cbn [w_logs]. intros j m Hm.
  destruct (Nat.eq_dec j i) as [->|n].
  - rewrite (nth_error_set_same _ _ _ _ Hl). replace m with l by congruence. eauto.
  - rewrite nth_error_set_other by assumption. exists m, []. rewrite app_nil_r. auto.
Qed.

Lemma step_extends w w' : step w w' -> extends w w'.
Proof.
  destruct 1 as [|f|i l Hl|i l k v Hl|i l r d k v rk Hl Hr Hd Hk Hrk].
  - apply extends_refl.
  - split; cbn [w_runs w_logs]; [eauto|]. intros i l H. exists l, [].
    rewrite app_nil_r. split; [|reflexivity].
    rewrite nth_error_app1; [assumption|]. apply nth_error_Some. congruence.
  - apply (extends_logs _ _ _ l _ [List.length (w_runs w)]); auto.
    intros r d H. exists d. split; [|auto]. rewrite nth_error_app1; [assumption|].
    apply nth_error_Some. congruence.
  - apply (extends_logs _ _ _ l _ []); eauto. rewrite app_nil_r. reflexivity.
  - apply (extends_logs _ _ _ l _ []); auto; [|rewrite app_nil_r; reflexivity].
    intros r' d' H. destruct (Nat.eq_dec r' r) as [->|n].
    + rewrite (nth_error_set_same _ _ _ _ Hd). eexists; split; [reflexivity|].
      intros k' v' H'. rewrite get_set. destruct (String.eqb_spec k k') as [->|n]; congruence.
    + rewrite nth_error_set_other by assumption. eauto.
Qed.
Lemma merge_step_extends w w' : merge_step w w' -> extends w w'.
Proof.
  destruct 1 as [i j a b Ha Hb Hk]. apply (extends_logs _ _ _ a _ (lg_exps b)); eauto.
Qed.
Lemma exec_extends w o : extends w (exec w o).
Proof. destruct (exec_cases w o); [apply step_extends|apply merge_step_extends]; assumption. Qed.
Lemma exec_all_extends h : forall w, extends w (exec_all w h).
Proof.
  induction h as [|o h IH]; intros w; [apply extends_refl|].
  apply (extends_trans _ (exec w o)); [apply exec_extends|apply IH].
Qed.

Lemma extends_value w w' i p k v : extends w w' ->
  value_at w i p k = Some v -> value_at w' i p k = Some v.
Proof.
  intros [A B]. unfold value_at.
  destruct (nth_error (w_logs w) i) as [l|] eqn:El; [|discriminate].
  destruct (B _ _ El) as (l' & ext & -> & ->).
  destruct (nth_error (lg_exps l) p) as [r|] eqn:Er; [|discriminate].
  rewrite nth_error_app1 by (apply nth_error_Some; congruence). rewrite Er.
  destruct (nth_error (w_runs w) r) as [d|] eqn:Ed; [|discriminate].
  destruct (A _ _ Ed) as (d' & -> & K). auto.
Qed.

Lemma write_once w h i p k v :
  value_at w i p k = Some v -> value_at (exec_all w h) i p k = Some v.
Proof. apply extends_value, exec_all_extends. Qed.

(** Well-formedness. *)
Lemma wf_put_logger w rs i l l' : wf_world w -> nth_error (w_logs w) i = Some l ->
  NoDup (map fst (lg_glob l')) ->
  (forall r, In r (lg_exps l') -> r < List.length rs) ->
  List.length (w_runs w) <= List.length rs ->
  (forall r d, nth_error rs r = Some d -> NoDup (map fst d)) ->
  wf_world (mkWorld rs (list_set (w_logs w) i l')).
Proof.
  intros [W1 W2] Hl Hg He Hn Hd. split; [|exact Hd]. cbn [w_logs w_runs]. intros j m Hm.
  destruct (Nat.eq_dec j i) as [->|n].
  - rewrite (nth_error_set_same _ _ _ _ Hl) in Hm. injection Hm as <-. auto.
  - rewrite nth_error_set_other in Hm by assumption. destruct (W1 _ _ Hm) as [A B].
    split; [assumption|]. intros r Hr. exact (Nat.lt_le_trans _ _ _ (B r Hr) Hn).
Qed.

Lemma step_wf w w' : wf_world w -> step w w' -> wf_world w'.
Proof.
  intros W S. pose proof W as [W1 W2]. destruct S as [|f|i l Hl|i l k v Hl|i l r d k v rk Hl Hr Hd Hk Hrk].
  - assumption.
  - split; cbn [w_runs w_logs]; [|assumption]. intros i l.
    rewrite nth_error_snoc. destruct (Nat.eqb_spec i (List.length (w_logs w))).
    + intros [= <-]. split; [constructor|]. intros r [].
    + apply W1.
  - destruct (W1 _ _ Hl) as [A B]. apply (wf_put_logger w _ _ l); auto; cbn [lg_glob lg_exps].
    + intros r Hr. rewrite app_length. cbn [List.length]. apply in_app_or in Hr. destruct Hr as [H|[H|[]]]; [apply B in H|]; lia.
    + rewrite app_length. apply Nat.le_add_r.
    + intros r d. rewrite nth_error_snoc. destruct (r =? _); [|apply W2].
      intros [= <-]. constructor.
  - destruct (W1 _ _ Hl) as [A B]. apply (wf_put_logger w _ _ l); auto; cbn [lg_glob lg_exps]; auto.
    apply set_keys_nodup. assumption.
  - destruct (W1 _ _ Hl) as [A B]. apply (wf_put_logger w _ _ l); auto; cbn [lg_glob lg_exps]; auto.
    + intros q Hq. rewrite list_set_length. auto.
    + rewrite list_set_length. reflexivity.
    + intros q dq. destruct (Nat.eq_dec q r) as [->|n].
      * rewrite (nth_error_set_same _ _ _ _ Hd). intros [= <-]. apply set_keys_nodup. eauto.
      * rewrite nth_error_set_other by assumption. apply W2.
Qed.
Lemma merge_step_wf w w' : wf_world w -> merge_step w w' -> wf_world w'.
Proof.
  intros W S. pose proof W as [W1 W2]. destruct S as [i j a b Ha Hb Hk].
  destruct (W1 _ _ Ha) as [A B]. destruct (W1 _ _ Hb) as [A' B'].
  apply (wf_put_logger w _ _ a); auto; cbn [lg_glob lg_exps].
  intros r Hr. apply in_app_or in Hr. destruct Hr; auto.
Qed.
Lemma exec_wf w o : wf_world w -> wf_world (exec w o).
Proof. intros W. destruct (exec_cases w o); [eapply step_wf|eapply merge_step_wf]; eauto. Qed.
Lemma exec_all_wf h : forall w, wf_world w -> wf_world (exec_all w h).
Proof. induction h as [|o h IH]; intros w W; [assumption|]. apply IH, exec_wf, W. Qed.
Lemma empty_wf : wf_world (@empty_world Arr).
Proof. split; intros i l H; destruct i; discriminate. Qed.

(** ** Key sets. *)
Lemma value_at_iff w i l k : wf_world w -> nth_error (w_logs w) i = Some l ->
  ((exists p v, value_at w i p k = Some v) <->
   exists r d v, In r (lg_exps l) /\ nth_error (w_runs w) r = Some d /\
     dict_get String.eqb d k = Some v).
Proof.
  intros W Hl. unfold value_at. rewrite Hl. split.
  - intros (p & v & H). destruct (nth_error (lg_exps l) p) as [r|] eqn:Er; [|discriminate].
    destruct (nth_error (w_runs w) r) as [d|] eqn:Ed; [|discriminate].
    exists r, d, v. split; [eapply nth_error_In; eauto|auto].
  - intros (r & d & v & Hr & Hd & Hv). apply In_nth_error in Hr. destruct Hr as (p & Hp).
    exists p, v. rewrite Hp, Hd. assumption.
Qed.

(** exp_keys never claims a key that no run has, results are among the keys. *)
Definition keys_sound (w : world) : Prop :=
  forall i l, nth_error (w_logs w) i = Some l ->
  (forall k, In k (lg_result_keys l) -> In k (lg_exp_keys l)) /\
  (forall k, In k (lg_exp_keys l) ->
     exists r d v, In r (lg_exps l) /\ nth_error (w_runs w) r = Some d /\
       dict_get String.eqb d k = Some v).

Lemma nth_last_in {A} (l : list A) i x : nth_error l i = Some x -> In x l.
Proof. apply nth_error_In. Qed.

Lemma step_sound w w' : keys_sound w -> step w w' -> keys_sound w'.
Proof.
  intros K S. pose proof (step_extends _ _ S) as [X _].
  assert (G : forall i l, nth_error (w_logs w) i = Some l ->
     forall k, In k (lg_exp_keys l) -> exists r d v, In r (lg_exps l) /\
       nth_error (w_runs w') r = Some d /\ dict_get String.eqb d k = Some v).
  { intros i l Hl k Hk. destruct (proj2 (K i l Hl) k Hk) as (r & d & v & A & B & C).
    destruct (X _ _ B) as (d' & B' & C'). exists r, d', v. auto. }
  intros j m. destruct S as [|f|i l Hl|i l k v Hl|i l r d k v rk Hl Hr Hd Hk Hrk]; cbn [w_logs] in *.
  - apply K.
  - rewrite nth_error_snoc. destruct (j =? _).
    + intros [= <-]. split; intros k [].
    + intros Hm. split; [apply (K j m Hm)|apply (G j m Hm)].
  - destruct (Nat.eq_dec j i) as [->|n].
    + rewrite (nth_error_set_same _ _ _ _ Hl). intros [= <-]. cbn [lg_exps lg_exp_keys lg_result_keys].
      split; [apply (K i l Hl)|]. intros k' Hk'.
      destruct (G i l Hl k' Hk') as (r & d & v & A & B & C). exists r, d, v.
      split; [apply in_or_app; auto|auto].
    + rewrite nth_error_set_other by assumption. intros Hm. split; [apply (K j m Hm)|apply (G j m Hm)].
  - destruct (Nat.eq_dec j i) as [->|n].
    + rewrite (nth_error_set_same _ _ _ _ Hl). intros [= <-]. split; [apply (K i l Hl)|apply (G i l Hl)].
    + rewrite nth_error_set_other by assumption. intros Hm. split; [apply (K j m Hm)|apply (G j m Hm)].
  - destruct (Nat.eq_dec j i) as [->|n].
    + rewrite (nth_error_set_same _ _ _ _ Hl). intros [= <-]. cbn [lg_exps lg_exp_keys lg_result_keys].
      split.
      * intros k' Hk'. apply in_set_add. destruct Hrk as [-> | ->].
        -- left. apply (K i l Hl). assumption.
        -- apply in_set_add in Hk'. destruct Hk' as [H|H]; [left; apply (K i l Hl); assumption|auto].
      * intros k' Hk'. apply in_set_add in Hk'. destruct Hk' as [H| ->]; [apply (G i l Hl); assumption|].
        exists r, (dict_set String.eqb d k v), v. split; [eapply nth_last_in; eauto|].
        cbn [w_runs]. rewrite (nth_error_set_same _ _ _ _ Hd). split; [reflexivity|].
        rewrite get_set, String.eqb_refl. reflexivity.
    + rewrite nth_error_set_other by assumption. intros Hm. split; [apply (K j m Hm)|apply (G j m Hm)].
Qed.
Lemma merge_step_sound w w' : keys_sound w -> merge_step w w' -> keys_sound w'.
Proof.
  intros K [i j a b Ha Hb Hk] m l. cbn [w_logs w_runs].
  destruct (Nat.eq_dec m i) as [->|n].
  - rewrite (nth_error_set_same _ _ _ _ Ha). intros [= <-]. cbn [lg_exps lg_exp_keys lg_result_keys w_runs].
    split; [apply (K i a Ha)|]. intros k H. destruct (proj2 (K i a Ha) k H) as (r & d & v & A & B & C).
    exists r, d, v. split; [apply in_or_app; auto|auto].
  - rewrite nth_error_set_other by assumption. apply K.
Qed.

(** Without merging, runs belong to one logger and exp_keys is complete. *)
Definition owned (w : world) : Prop :=
  forall i j l m r, nth_error (w_logs w) i = Some l -> nth_error (w_logs w) j = Some m ->
    In r (lg_exps l) -> In r (lg_exps m) -> i = j.
Definition keys_complete (w : world) : Prop :=
  forall i l, nth_error (w_logs w) i = Some l ->
  forall k r d v, In r (lg_exps l) -> nth_error (w_runs w) r = Some d ->
    dict_get String.eqb d k = Some v -> In k (lg_exp_keys l).

Lemma step_owned w w' : wf_world w -> owned w -> step w w' -> owned w'.
Proof.
  intros [W1 W2] O S a b x y q. destruct S as [|f|i l Hl|i l k v Hl|i l r d k v rk Hl Hr Hd Hk Hrk]; cbn [w_logs].
  - apply O.
  - rewrite !nth_error_snoc.
    destruct (Nat.eqb_spec a (List.length (w_logs w))); destruct (Nat.eqb_spec b (List.length (w_logs w)));
      try congruence; intros Hx Hy.
    + injection Hx as <-. intros [].
    + injection Hy as <-. intros _ [].
    + revert Hx Hy. apply O.
  - destruct (Nat.eq_dec a i) as [->|na]; destruct (Nat.eq_dec b i) as [->|nb]; try congruence.
    + rewrite (nth_error_set_same _ _ _ _ Hl), nth_error_set_other by assumption.
      intros [= <-] Hy. cbn [lg_exps]. rewrite in_app_iff. intros [H|[<-|[]]] H'.
      * eapply O; eauto.
      * apply (W1 _ _ Hy) in H'. lia.
    + rewrite (nth_error_set_same _ _ _ _ Hl), nth_error_set_other by assumption.
      intros Hx [= <-]. cbn [lg_exps]. rewrite in_app_iff. intros H' [H|[<-|[]]].
      * eapply O; eauto.
      * apply (W1 _ _ Hx) in H'. lia.
    + rewrite !nth_error_set_other by assumption. apply O.
  - destruct (Nat.eq_dec a i) as [->|na]; destruct (Nat.eq_dec b i) as [->|nb]; try congruence.
    + rewrite (nth_error_set_same _ _ _ _ Hl), nth_error_set_other by assumption.
      intros [= <-]. exact (O i b l y q Hl).
    + rewrite (nth_error_set_same _ _ _ _ Hl), nth_error_set_other by assumption.
      intros Hx [= <-]. exact (O a i x l q Hx Hl).
    + rewrite !nth_error_set_other by assumption. apply O.
  - destruct (Nat.eq_dec a i) as [->|na]; destruct (Nat.eq_dec b i) as [->|nb]; try congruence.
    + rewrite (nth_error_set_same _ _ _ _ Hl), nth_error_set_other by assumption.
      intros [= <-]. exact (O i b l y q Hl).
    + rewrite (nth_error_set_same _ _ _ _ Hl), nth_error_set_other by assumption.
      intros Hx [= <-]. exact (O a i x l q Hx Hl).
    + rewrite !nth_error_set_other by assumption. apply O.
Qed.

Lemma step_complete w w' : wf_world w -> owned w -> keys_complete w -> step w w' -> keys_complete w'.
Proof.
  intros [W1 W2] O K S j m. destruct S as [|f|i l Hl|i l k v Hl|i l r d k v rk Hl Hr Hd Hk Hrk]; cbn [w_logs w_runs].
  - apply K.
  - rewrite nth_error_snoc. destruct (j =? _).
    + intros [= <-] k r d v [].
    + apply K.
  - assert (G : forall x, nth_error (w_logs w) j = Some x -> forall k r d v, In r (lg_exps x) ->
        nth_error (w_runs w ++ [[]]) r = Some d -> dict_get String.eqb d k = Some v -> In k (lg_exp_keys x)).
    { intros x Hx k r d v Hr. rewrite nth_error_snoc. destruct (r =? _).
      - intros [= <-]. discriminate.
      - revert Hr. apply (K _ _ Hx). }
    destruct (Nat.eq_dec j i) as [->|n].
    + rewrite (nth_error_set_same _ _ _ _ Hl). intros [= <-] k r d v. cbn [lg_exps lg_exp_keys].
      rewrite in_app_iff. intros [H|[<-|[]]]; [apply (G _ Hl); assumption|].
      rewrite nth_error_snoc, Nat.eqb_refl. intros [= <-]. discriminate.
    + rewrite nth_error_set_other by assumption. intros Hm. exact (G _ Hm).
  - destruct (Nat.eq_dec j i) as [->|n].
    + rewrite (nth_error_set_same _ _ _ _ Hl). intros [= <-]. apply (K _ _ Hl).
    + rewrite nth_error_set_other by assumption. apply K.
  - destruct (Nat.eq_dec j i) as [->|n].
    + rewrite (nth_error_set_same _ _ _ _ Hl). intros [= <-] k' q dq v' Hq. cbn [lg_exps lg_exp_keys] in *.
      rewrite in_set_add. destruct (Nat.eq_dec q r) as [->|nq].
      * rewrite (nth_error_set_same _ _ _ _ Hd). intros [= <-]. rewrite get_set.
        destruct (String.eqb_spec k k') as [->|nk]; [auto|]. left. eapply (K _ _ Hl); eauto.
      * rewrite nth_error_set_other by assumption. intros H1 H2. left. eapply (K _ _ Hl); eauto.
    + rewrite nth_error_set_other by assumption. intros Hm k' q dq v' Hq.
      destruct (Nat.eq_dec q r) as [->|nq].
      * exfalso. apply n. eapply O; eauto. eapply nth_last_in; eauto.
      * rewrite nth_error_set_other by assumption. eapply (K _ _ Hm); eauto.
Qed.

Lemma exec_sound w o : keys_sound w -> keys_sound (exec w o).
Proof. intros W. destruct (exec_cases w o); [eapply step_sound|eapply merge_step_sound]; eauto. Qed.
Lemma exec_all_sound h : forall w, keys_sound w -> keys_sound (exec_all w h).
Proof. induction h as [|o h IH]; intros w W; [assumption|]. apply IH, exec_sound, W. Qed.
Lemma exec_all_complete h : Forall no_append h -> forall w, wf_world w -> owned w -> keys_complete w ->
  keys_complete (exec_all w h).
Proof.
  induction 1 as [|o h Ho Hh IH]; intros w W O K; [assumption|].
  pose proof (exec_step w o Ho) as S. apply IH.
  - eapply step_wf; eauto.
  - eapply step_owned; eauto.
  - eapply step_complete; eauto.
Qed.

Lemma key_sets_exact h i l : Forall no_append h ->
  nth_error (w_logs (exec_all empty_world h)) i = Some l ->
  (forall k, In k (lg_exp_keys l) <-> exists p v, value_at (exec_all empty_world h) i p k = Some v) /\
  (forall k, In k (lg_result_keys l) -> In k (lg_exp_keys l)).
Proof.
  intros Hh Hl. set (w := exec_all empty_world h) in *.
  assert (W : wf_world w) by apply exec_all_wf, empty_wf.
  assert (S : keys_sound w).
  { apply exec_all_sound. intros j m H. destruct j; discriminate. }
  assert (C : keys_complete w).
  { apply exec_all_complete; auto using empty_wf.
    - intros a b x y r H. destruct a; discriminate.
    - intros j m H. destruct j; discriminate. }
  split; [|apply (S _ _ Hl)]. intros k. rewrite (value_at_iff _ _ _ _ W Hl). split.
  - apply (S _ _ Hl).
  - intros (r & d & v & A & B & D). eapply (C _ _ Hl); eauto.
Qed.
Lemma key_sets_sound h i l k :
  nth_error (w_logs (exec_all empty_world h)) i = Some l ->
  (In k (lg_exp_keys l) -> exists p v, value_at (exec_all empty_world h) i p k = Some v).
Proof.
  intros Hl Hk. set (w := exec_all empty_world h) in *.
  assert (W : wf_world w) by apply exec_all_wf, empty_wf.
  assert (S : keys_sound w).
  { apply exec_all_sound. intros j m H. destruct j; discriminate. }
  rewrite (value_at_iff _ _ _ _ W Hl). apply (S _ _ Hl). assumption.
Qed.

End Histories.
