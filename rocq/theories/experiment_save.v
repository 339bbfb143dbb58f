(** * The log of an experiment can be saved. *)

From Coq Require Import List ZArith Reals Bool Arith String Lia.
Import ListNotations.
From Verif Require Import Py Py_proof logger_model logger_spec logger_proof logger_load nd_model utils_model evaluation_model
  metrics_model nmf_model learner_model experiment_model experiment_spec experiment_proof experiment_log experiment_end.
From Coq Require Import QArith Qreals.
Open Scope py_scope.
Local Open Scope nat_scope.
Notation length := List.length.
Notation val := (logger_model.val nd).
Notation world := (logger_model.world nd).

(** ** Values *)
Definition self (v : val) : Prop := json_image v v.
Lemma images_self l : (forall v, In v l -> self v) -> images l l.
Proof. induction l as [|v l IH]; intro H; constructor; [apply H; now left|]. apply IH. intros u I. apply H. now right. Qed.
Lemma list_self l : (forall v, In v l -> self v) -> self (VList l).
Proof. intro H. constructor. now apply images_self. Qed.
Lemma map_self {A} (f : A -> val) l : (forall a, self (f a)) -> self (VList (map f l)).
Proof. intro H. apply list_self. intros v I. apply in_map_iff in I as (a & <- & _). apply H. Qed.
Lemma tuple_image (l : list val) : (forall v, In v l -> exists v', json_image v v') -> exists v' : val, json_image (VTuple l) v'.
Proof.
  intro H. assert (X : exists l', images l l').
  { induction l as [|v l IH]; [exists []; constructor|]. destruct (H v (or_introl eq_refl)) as (v' & J). destruct IH as (l' & I); [intros u I; apply H; now right|].
    exists (v' :: l'). now constructor. }
  destruct X as (l' & I). exists (VList l'). now constructor.
Qed.
Lemma list_image (l : list val) : (forall v, In v l -> exists v', json_image v v') -> exists v' : val, json_image (VList l) v'.
Proof. intro H. destruct (tuple_image l H) as (v' & J). inversion J as [| | | | | |? ? I |]; subst. eexists. constructor. exact I. Qed.
Lemma self_storable v : self v -> storable v.
Proof. intro H. exists v. now constructor. Qed.
Lemma image_storable v : (exists v', json_image v v') -> @storable nd v.
Proof. intros (v' & H). exists v'. now constructor. Qed.
Lemma nats_storable l : storable (VNats l).
Proof. apply self_storable, map_self. intro. constructor. Qed.
Lemma score_storable s : storable (VScore s).
Proof. apply self_storable. destruct s; constructor. Qed.
Lemma parameters_storable x k v : In (k, v) (parameters x) -> storable v.
Proof.
  intro I. apply self_storable. cbn in I. repeat (destruct I as [I|I]; [injection I as _ <-|]); try constructor; try contradiction.
  - apply images_self. intros v I. apply in_map_iff in I as (s & <- & _). constructor.
  - destruct (x_coefs x) as [cs|]; [apply map_self; intro; constructor|constructor].
  - destruct (x_mode x); constructor.
Qed.
Lemma globals_storable p k v : In (k, v) (globals p) -> storable v.
Proof.
  intro I. cbn in I. repeat (destruct I as [I|I]; [injection I as _ <-|]); [| | |contradiction].
  - apply image_storable, tuple_image. intros v I. apply in_map_iff in I as (l & <- & _). eexists. apply map_self. intro. constructor.
  - apply image_storable, list_image. intros v I. apply in_map_iff in I as (t & <- & _). apply tuple_image. intros u I. apply in_map_iff in I as (i & <- & _). eexists. constructor.
  - apply nats_storable.
Qed.

(** ** The calls of methods of the logger that an experiment makes. *)
Section Calls.
Variable x : experiment.
Definition allowed (o : op nd) : Prop :=
  match o with
  | ONewRun i => i = 0
  | OStore i k v | OStoreResult i k v => i = 0 /\ In k (run_keys x) /\ storable v
  | OStoreGlobal i k v => i = 0 /\ storable v
  | _ => False
  end.
Definition calls (w w' : world) : Prop := exists h, Forall allowed h /\ w' = exec_all w h.
Lemma calls_refl w : calls w w.
Proof. exists []. split; [constructor|reflexivity]. Qed.
Lemma calls_trans a b c : calls a b -> calls b c -> calls a c.
Proof. intros (h & F & ->) (h' & F' & ->). exists (h ++ h'). split; [now apply Forall_app|]. unfold exec_all. now rewrite fold_left_app. Qed.
Lemma calls_one w o : allowed o -> calls w (exec w o).
Proof. intro H. exists [o]. split; [now constructor|reflexivity]. Qed.
Lemma calls_bind {A B} (s : world * result A) (f : world -> A -> world * result B) w : calls w (fst s) -> (forall w' a, calls w' (fst (f w' a))) -> calls w (fst (wbind s f)).
Proof. destruct s as [w' [a|e]]; cbn; auto. intros H K. exact (calls_trans _ _ _ H (K w' a)). Qed.
Lemma calls_lift {A} w (r : result A) : calls w (fst (lift w r)).
Proof. apply calls_refl. Qed.
Lemma calls_fold {A} (f : world -> A -> world * result unit) l : (forall w a, In a l -> calls w (fst (f w a))) -> forall w, calls w (fst (wfold f l w)).
Proof.
  induction l as [|a l IH]; intros H w; cbn [wfold]; [apply calls_refl|]. apply calls_bind; [apply H; now left|]. intros w' _. apply IH. intros. apply H. now right.
Qed.
Lemma calls_store w k v : In k (run_keys x) -> storable v -> calls w (fst (store w 0 k v)).
Proof. intros I S. apply (calls_one w (OStore 0 k v)). cbn. auto. Qed.
Lemma calls_result w k v : In k (run_keys x) -> storable v -> calls w (fst (store_result w 0 k v)).
Proof. intros I S. apply (calls_one w (OStoreResult 0 k v)). cbn. auto. Qed.

Lemma measures_suffix ms : In ms measures -> In (snd ms) suffixes.
Proof. intro I. cbn in I |- *. repeat (destruct I as [<-|I]; [cbn; tauto|]). destruct I. Qed.
Lemma calls_evaluate rnd p l dt tl w : calls w (fst (evaluate rnd x p l dt tl w)).
Proof.
  unfold evaluate. destruct (x_kind x) eqn:K; [unfold two_evaluate|unfold three_evaluate|apply calls_refl].
  - apply calls_bind; [apply calls_lift|]. intros w1 t1. apply calls_bind; [apply calls_lift|]. intros w2 t2. apply calls_fold. intros w3 [[[m1 m2] cmp] ms] I.
    apply in_prod_iff in I as [I1 I2]. apply measures_suffix in I2. cbn [fst snd]. unfold two_step.
    assert (J : forall k, In k [found_key (x_mods x) m1 m2 cmp (snd ms); score_key (x_mods x) m1 m2 cmp (snd ms)] -> In k (run_keys x)).
    { intros k J. unfold run_keys. apply in_or_app. right. rewrite K. unfold two_keys. apply in_flat_map. exists ((m1, m2, cmp), snd ms). split; [now apply in_prod|exact J]. }
    apply calls_bind; [apply calls_lift|]. intros w4 found. apply calls_bind; [apply calls_result; [apply J; now left|apply nats_storable]|]. intros w5 _.
    apply calls_result; [apply J; right; now left|apply score_storable].
  - apply calls_bind; [apply calls_lift|]. intros w1 t1. apply calls_bind; [apply calls_lift|]. intros w2 t2. apply calls_fold. intros w3 [c ms] I.
    apply in_prod_iff in I as [I1 I2]. apply measures_suffix in I2. cbn [fst snd]. unfold three_step. apply calls_bind; [apply calls_lift|]. intros w4 found.
    apply calls_result; [|apply score_storable]. unfold run_keys. apply in_or_app. right. rewrite K. unfold three_keys. apply in_map_iff. exists (c, snd ms). split; [reflexivity|now apply in_prod].
Qed.
Lemma calls_one_run rnd p w split : calls w (fst (perform_one_run rnd x p w split)).
Proof.
  destruct split as [tr te]. unfold perform_one_run. apply calls_bind; [apply (calls_one w (ONewRun 0)); reflexivity|]. intros w1 _.
  apply calls_bind; [apply calls_store; [now left|apply nats_storable]|]. intros w2 _. apply calls_bind; [apply calls_store; [right; now left|apply nats_storable]|]. intros w3 _.
  apply calls_bind; [apply calls_lift|]. intros w4 dt. apply calls_bind; [apply calls_lift|]. intros w5 de. apply calls_bind; [apply calls_lift|]. intros w6 tl.
  destruct (train (rnd 0) 0 (new_learner x p) dt (x_iter_train x)) as [l r]. apply calls_bind; [apply calls_lift|]. intros w7 _.
  apply calls_bind; [apply calls_lift|]. intros w8 d. apply calls_bind; [apply calls_store; [do 2 right; now left|]|].
  - exists (VArr d). constructor.
  - intros w9 _. apply calls_evaluate.
Qed.
Lemma calls_loop rd p splits : forall i w, calls w (fst (run_loop rd x p i splits w)).
Proof. induction splits as [|s splits IH]; intros i w; cbn [run_loop]; [apply calls_refl|]. apply calls_bind; [apply calls_one_run|]. intros w' _. apply IH. Qed.
Lemma calls_globals kvs : (forall k v, In (k, v) kvs -> storable v) -> forall w, calls w (fst (store_globals w kvs)).
Proof. intros H w. unfold store_globals. apply calls_fold. intros w' [k v] I. apply (calls_one w' (OStoreGlobal 0 k v)). cbn. split; [reflexivity|exact (H k v I)]. Qed.
Lemma calls_run rd f : calls (mkWorld [] [mkLogger [] [] [] [] f None]) (fst (run_world rd x f)).
Proof.
  unfold run_world. apply calls_bind; [apply calls_globals; apply parameters_storable|]. intros w1 _. apply calls_bind; [apply calls_lift|]. intros w2 p.
  apply calls_bind; [apply calls_globals; apply globals_storable|]. intros w3 _.
  apply calls_bind; [apply (calls_one w3 (OStoreGlobal 0 _ _)); split; [reflexivity|apply self_storable; constructor]|]. intros w4 _.
  apply calls_bind; [apply calls_lift|]. intros w5 splits. apply calls_bind; [apply calls_loop|]. intros w6 _.
  apply (calls_one w6 (OStoreGlobal 0 _ _)). split; [reflexivity|apply self_storable; constructor].
Qed.

(** ** What holds after any such calls. *)
Definition kept (f : option string) (w : world) : Prop :=
  (exists l, w_logs w = [l] /\ lg_filename l = f /\ (forall k, In k (lg_exp_keys l) -> In k (run_keys x)) /\
     forall k v, In (k, v) (lg_glob l) -> storable v) /\
  forall r d k v, nth_error (w_runs w) r = Some d -> In (k, v) d -> storable v.
Lemma in_dict_set (d : dict nd) k v k' v' : In (k', v') (dict_set String.eqb d k v) -> In (k', v') d \/ (k' = k /\ v' = v).
Proof.
  induction d as [|[a b] d IH]; cbn [dict_set]; [intros [I|[]]; injection I as <- <-; auto|].
  destruct (String.eqb_spec a k) as [->|]; intros [I|I]; cbn; auto; [injection I as <- <-; auto|]. destruct (IH I); auto.
Qed.
Lemma kept_put f w l r d k v rk er : nth_error (w_logs w) 0 = Some l -> nth_error (w_runs w) r = Some d -> In k (run_keys x) -> storable v -> kept f w ->
  kept f (mkWorld (list_set (w_runs w) r (dict_set String.eqb d k v)) (list_set (w_logs w) 0 (mkLogger (lg_glob l) (lg_exps l) (set_add (lg_exp_keys l) k) rk (lg_filename l) er))).
Proof.
  intros El Ed I S ((l0 & L & F & Ks & G) & R). assert (l0 = l) as -> by (rewrite L in El; cbn in El; congruence). split; cbn [w_logs w_runs].
  - rewrite L. eexists. split; [reflexivity|]. cbn [lg_filename lg_exp_keys lg_glob]. split; [exact F|]. split; [|exact G]. intros k'. unfold set_add. destruct (set_mem k (lg_exp_keys l)); [apply Ks|].
    intro J. apply in_app_or in J as [J|[<-|[]]]; auto.
  - intros q dq k' v' E. destruct (Nat.eq_dec q r) as [->|nq].
    + rewrite (nth_error_set_same _ _ _ _ Ed) in E. injection E as <-. intro J. apply in_dict_set in J as [J|[-> ->]]; [exact (R r d k' v' Ed J)|exact S].
    + rewrite nth_error_set_other in E by assumption. exact (R q dq k' v' E).
Qed.
Lemma kept_exec f w o : allowed o -> kept f w -> kept f (exec w o).
Proof.
  intros A K. destruct o as [g|i|i k v|i k v|i k v|i j]; cbn [allowed] in A; try contradiction; cbn [exec].
  - subst i. pose proof K as ((l & L & F & Ks & G) & R). unfold new_run, get_logger. rewrite L. cbn [nth_error fst list_set]. split; cbn [w_logs w_runs].
    + eexists. split; [reflexivity|]. cbn. auto.
    + intros r d k v E J. destruct (nth_error (w_runs w) r) as [d'|] eqn:Er.
      * rewrite nth_error_app1 in E by (apply nth_error_Some; congruence). exact (R r d k v E J).
      * apply nth_error_None in Er. rewrite nth_error_app2 in E by exact Er. destruct (r - length (w_runs w)) as [|n]; cbn in E; [injection E as <-; destruct J|destruct n; discriminate].
  - destruct A as (-> & I & S). destruct (store_cases w 0 k v) as [(l & r & d & El & Er & Ed & N & ->)|(e & ->)]; [|exact K]. now apply kept_put.
  - destruct A as (-> & I & S). destruct (store_result_cases w 0 k v) as [(l & r & d & El & Er & Ed & N & ->)|(e & ->)]; [|exact K]. now apply kept_put.
  - destruct A as (-> & S). pose proof K as ((l & L & F & Ks & G) & R). unfold store_global, get_logger. rewrite L. cbn [nth_error fst put_logger]. split; cbn [put_logger w_logs w_runs]; [|exact R].
    rewrite L. eexists. split; [reflexivity|]. cbn [lg_filename lg_exp_keys lg_glob]. split; [exact F|]. split; [exact Ks|]. intros k' v' J. apply in_dict_set in J as [J|[_ ->]]; eauto.
Qed.
Lemma kept_all f h : Forall allowed h -> forall w, kept f w -> kept f (exec_all w h).
Proof. induction 1 as [|o h A F IH]; intros w K; [exact K|]. apply IH, kept_exec; assumption. Qed.

Lemma run_kept rd f : kept f (fst (run_world rd x f)).
Proof.
  destruct (calls_run rd f) as (h & F & ->). apply kept_all; [exact F|]. split; cbn [w_logs w_runs].
  - eexists. split; [reflexivity|]. cbn. split; [reflexivity|]. split; intros; contradiction.
  - intros [|r]; discriminate.
Qed.
Lemma run_reached rd f : exists h, Forall (@no_append nd) h /\ fst (run_world rd x f) = exec_all empty_world h.
Proof.
  destruct (calls_run rd f) as (h & F & ->). exists (ONew f :: h). split; [|reflexivity]. constructor; [exact I|].
  eapply Forall_impl; [|exact F]. intros [] A; cbn in *; auto.
Qed.
End Calls.

Lemma dict_get_in (d : dict nd) k v : dict_get String.eqb d k = Some v -> In (k, v) d.
Proof.
  induction d as [|[a b] d IH]; cbn [dict_get]; [discriminate|]. destruct (String.eqb_spec a k) as [->|]; [intros [= <-]; now left|]. intro E. right. auto.
Qed.

(** The logger of an experiment, whatever its end: it has the given name, all its values
    can be saved, and its set of keys is that of the values in its runs. *)
Lemma run_saveable rd x f w r : run_world rd x f = (w, r) ->
  exists l, w_logs w = [l] /\ lg_filename l = f /\ wf_world w /\ all_storable w 0 /\
    (forall k, In k (lg_exp_keys l) <-> exists q v, value_at w 0 q k = Some v) /\ (forall k, In k (lg_exp_keys l) -> In k (run_keys x)).
Proof.
  intro E. assert (w = fst (run_world rd x f)) as Ew by now rewrite E. destruct (run_kept x rd f) as ((l & L & F & Ks & G) & R). rewrite <- Ew in *. exists l. split; [exact L|]. split; [exact F|].
  destruct (run_reached x rd f) as (h & Nh & Eh). rewrite <- Ew in Eh.
  assert (W : wf_world w) by (rewrite Eh; apply exec_all_wf, empty_wf). split; [exact W|]. split; [|split; [|exact Ks]].
  - split.
    + intros k v. unfold global_at. rewrite L. cbn. intro H. apply (G k v). now apply dict_get_in.
    + intros p k v. unfold value_at. rewrite L. cbn [nth_error]. destruct (nth_error (lg_exps l) p) as [q|]; [|discriminate]. destruct (nth_error (w_runs w) q) as [d|] eqn:Ed; [|discriminate].
      intro H. apply (R q d k v Ed). now apply dict_get_in.
  - pose proof (key_sets_exact h 0 l Nh) as H. rewrite <- Eh in H. rewrite L in H. destruct (H eq_refl) as [K _]. exact K.
Qed.

(** All the keys of an experiment that ended. *)
Lemma in_two_combinations n m1 m2 cmp : In (m1, m2, cmp) (two_combinations n) -> m1 < n /\ m2 < n /\ match cmp with None => True | Some c => c < n end.
Proof.
  unfold two_combinations. intro I. apply in_flat_map in I as (a & Ia & I). apply in_flat_map in I as (b & Ib & I). apply in_map_iff in I as (c & [= <- <- <-] & I).
  apply in_seq in Ia, Ib. split; [lia|]. split; [lia|]. destruct I as [<-|I]; [exact Logic.I|]. apply in_map_iff in I as (d & <- & I). apply in_seq in I. lia.
Qed.
Lemma results_keys x p tr te get k : run_results x p tr te get -> In k (run_keys x) -> exists v, get k = Some v.
Proof.
  intros (l & d & truth & A & B & _ & C & _ & H) I. unfold run_keys in I. apply in_app_or in I as [I|I].
  - destruct I as [<-|[<-|[<-|[]]]]; eauto.
  - destruct (x_kind x) eqn:K; [| |destruct I].
    + unfold two_keys in I. apply in_flat_map in I as ([[[m1 m2] cmp] s] & J & I). apply in_prod_iff in J as [J1 J2]. apply in_two_combinations in J1 as (H1 & H2 & H3). cbn [fst snd] in I.
      destruct (H m1 m2 cmp s H1 H2 H3 J2) as (a & b & found & v & _ & _ & _ & _ & F & S). destruct I as [<-|[<-|[]]]; eauto.
    + unfold three_keys in I. apply in_map_iff in I as ([[ms1 ms2] s] & <- & J). apply in_prod_iff in J as [J1 J2]. cbn [fst snd]. destruct (H ms1 ms2 s J1 J2) as (a & b & found & v & _ & _ & _ & _ & S). eauto.
Qed.
Lemma ended_keys rd x f w p splits : run_world rd x f = (w, Ok tt) -> splits <> [] ->
  (forall q tr te, nth_error splits q = Some (tr, te) -> run_results x p tr te (value_at w 0 q)) ->
  exists l, w_logs w = [l] /\ lg_filename l = f /\ wf_world w /\ all_storable w 0 /\ forall k, In k (lg_exp_keys l) <-> In k (run_keys x).
Proof.
  intros E N H. destruct (run_saveable rd x f w _ E) as (l & L & F & W & S & K & K2). exists l. do 4 (split; [assumption|]). intro k. split; [apply K2|]. intro I. apply K.
  destruct splits as [|[tr te] splits]; [congruence|]. destruct (results_keys x p tr te _ k (H 0 tr te eq_refl) I) as (v & V). eauto.
Qed.

Lemma run_saved ord rd x path f : enumerates ord -> sound x -> legal x rd -> enough x rd -> x_kind x <> Base ->
  (forall m, In m (x_mods x) -> clean m) -> (x_kind x = Three -> 3 <= List.length (x_mods x)) -> ~ has_suffix path ".npz" ->
  exists p splits w f', prepare rd x = Ok p /\ p_generator p = Ok splits /\ splits <> [] /\ run ord rd x (Some path) f = (w, f', Ok tt) /\
    (forall q tr te, nth_error splits q = Some (tr, te) -> run_results x p tr te (value_at w 0 q)) /\
    forall w2 sf, wf_world w2 -> exists w2' j, load w2 f' path sf true = (w2', Ok j) /\ same_contents w 0 w2' j.
Proof.
  intros HO So Le En Kb Cl K3 Np. destruct (experiment_end.run_succeeds rd x (Some path) So Le En Kb Cl K3) as (p & splits & w & Ep & Eg & Ns & _ & Er & _ & Rs).
  destruct (run_saveable rd x (Some path) w _ Er) as (l & L & F & W & St & _). assert (L0 : nth_error (w_logs w) 0 = Some l) by now rewrite L.
  destruct (logger_load.roundtrip ord w 0 l path f empty_world true HO W (empty_wf) L0 F Np St) as (f' & w1 & l1 & Es & _).
  exists p, splits, w, f'. split; [exact Ep|]. split; [exact Eg|]. split; [exact Ns|]. split; [unfold run; rewrite Er, Es; reflexivity|]. split; [exact Rs|].
  intros w2 sf W2. destruct (logger_load.roundtrip ord w 0 l path f w2 sf HO W W2 L0 F Np St) as (f2 & w2' & l2 & Es2 & El & _ & Sm & _).
  assert (f2 = f') as -> by congruence. eauto.
Qed.
