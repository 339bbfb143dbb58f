(** * The names of the global values of an experiment. *)

From Coq Require Import List ZArith Bool Arith String Lia.
Import ListNotations.
From Verif Require Import Py Py_proof logger_model logger_spec nd_model experiment_model experiment_spec experiment_proof experiment_log.
Open Scope py_scope.
Local Open Scope nat_scope.

Section Keys.
Variable P : string -> Prop.
Hypothesis Parameters : forall x k, In k (map fst (parameters x)) -> P k.
Hypothesis Globals : forall p k, In k (map fst (globals p)) -> P k.
Hypothesis Start : P "start_time".
Hypothesis End : P "end_time".
Definition only (w : world) : Prop := forall k v, global_at w 0 k = Some v -> P k.

Lemma only_store w m k v : ready w m -> P k -> only w -> exists w', store_global w 0 k v = (w', Ok tt) /\ ready w' m /\ only w'.
Proof.
  intros R H O. destruct (store_global_ready w m k v R) as (w' & E & R' & _ & G). exists w'. split; auto. split; auto.
  intros k' v'. rewrite G. destruct (String.eqb_spec k k') as [<-|]; [auto|apply O].
Qed.
Lemma only_stores w m kvs : ready w m -> (forall k, In k (map fst kvs) -> P k) -> only w -> exists w', store_globals w kvs = (w', Ok tt) /\ ready w' m /\ only w'.
Proof.
  intros R H O. destruct (store_globals_ready kvs w m R) as (w' & E & R' & _ & _ & G). exists w'. split; auto. split; auto.
  intros k v Ek. destruct (in_dec string_dec k (map fst kvs)) as [I|N]; [auto|]. rewrite G in Ek by exact N. exact (O k v Ek).
Qed.
Lemma only_run rd x f : only (fst (run_world rd x f)).
Proof.
  unfold run_world. set (w0 := mkWorld [] _ : world). assert (R0 : ready w0 0) by reflexivity. assert (O0 : only w0) by (intros k v; discriminate).
  destruct (only_stores w0 0 (parameters x) R0 (Parameters x) O0) as (w1 & -> & R1 & O1). cbn [wbind].
  destruct (prepare rd x) as [p|e]; cbn [lift wbind]; [|exact O1].
  destruct (only_stores w1 0 (globals p) R1 (Globals p) O1) as (w2 & -> & R2 & O2). cbn [wbind].
  destruct (only_store w2 0 "start_time" (VStr (r_start rd)) R2 Start O2) as (w3 & -> & R3 & O3). cbn [wbind].
  destruct (p_generator p) as [splits|e]; cbn [lift wbind]; [|exact O3].
  destruct (loop_logs rd x p splits 0 w3 0 R3) as (n & _ & R & _ & G & _). cbn zeta in *.
  assert (O4 : only (fst (run_loop rd x p 0 splits w3))) by (intros k v; rewrite G; apply O3).
  destruct (run_loop rd x p 0 splits w3) as [w4 [[]|e]]; cbn [wbind fst] in *; [|exact O4].
  destruct (only_store w4 (0 + n) "end_time" (VStr (r_end rd)) R End O4) as (w5 & -> & R5 & O5). exact O5.
Qed.
End Keys.

Lemma run_keys rd x f w r : run_world rd x f = (w, r) -> forall k v, global_at w 0 k = Some v ->
  In k ["modalities"; "k"; "coefs"; "iter_train"; "iter_test"; "shuffle_labels"; "run_mode"; "debug";
        "label_pairing"; "sample_pairing"; "examples"; "start_time"; "end_time"]%string.
Proof.
  intro E. assert (w = fst (run_world rd x f)) as -> by now rewrite E. apply only_run.
  - intros x' k. cbn. intuition.
  - intros p k. cbn. intuition.
  - cbn. intuition.
  - cbn. intuition.
Qed.
Lemma has_logger rd x f w r : run_world rd x f = (w, r) -> exists l, nth_error (w_logs w) 0 = Some l.
Proof.
  unfold run_world. set (w0 := mkWorld [] _ : world). assert (R0 : ready w0 0) by reflexivity.
  assert (RL : forall w m, ready w m -> exists l, nth_error (w_logs w) 0 = Some l) by (intros w' m; unfold ready, runs_of; destruct (nth_error (w_logs w') 0); [eauto|discriminate]).
  destruct (store_globals_ready (parameters x) w0 0 R0) as (w1 & -> & R1 & _). cbn [wbind].
  destruct (prepare rd x) as [p|e]; cbn [lift wbind]; [|intros [= <- _]; eauto].
  destruct (store_globals_ready (globals p) w1 0 R1) as (w2 & -> & R2 & _). cbn [wbind].
  destruct (store_global_ready w2 0 "start_time" (VStr (r_start rd)) R2) as (w3 & -> & R3 & _). cbn [wbind].
  destruct (p_generator p) as [splits|e]; cbn [lift wbind]; [|intros [= <- _]; eauto].
  destruct (loop_logs rd x p splits 0 w3 0 R3) as (n & _ & R & _). cbn zeta in *.
  destruct (run_loop rd x p 0 splits w3) as [w4 [[]|e]]; cbn [wbind fst] in *; [|intros [= <- _]; eauto].
  destruct (store_global_ready w4 (0 + n) "end_time" (VStr (r_end rd)) R) as (w5 & -> & R5 & _). intros [= <- _]; eauto.
Qed.
Lemma get_value_none (w : world) i l k : nth_error (w_logs w) i = Some l -> global_at w i k = None -> get_value w i k = Err KeyError.
Proof. unfold global_at, get_value, get_logger. intros -> E. cbn [bind]. now rewrite E. Qed.
Lemma get_value_some (w : world) i k v : global_at w i k = Some v <-> get_value w i k = Ok v.
Proof.
  unfold global_at, get_value, get_logger. destruct (nth_error (w_logs w) i) as [l|]; cbn [bind]; [|split; discriminate].
  destruct (dict_get String.eqb (lg_glob l) k); split; congruence.
Qed.
Lemma other_key rd x f w r k : run_world rd x f = (w, r) ->
  ~ In k ["modalities"; "k"; "coefs"; "iter_train"; "iter_test"; "shuffle_labels"; "run_mode"; "debug";
        "label_pairing"; "sample_pairing"; "examples"; "start_time"; "end_time"]%string ->
  get_value w 0 k = Err KeyError /\ forall w' j, same_contents w 0 w' j -> get_value w' j k = Err KeyError.
Proof.
  intros E N. assert (G : global_at w 0 k = None). { destruct (global_at w 0 k) as [v|] eqn:G; auto. destruct (N (run_keys rd x f w r E k v G)). }
  destruct (has_logger rd x f w r E) as (l & El). split; [exact (get_value_none w 0 l k El G)|].
  intros w' j (l1 & l' & _ & El' & _ & H & _). apply (get_value_none w' j l' k El'). specialize (H k). rewrite G in H. destruct (global_at w' j k); [destruct H|reflexivity].
Qed.
Lemma hyphens rd x f w r k : run_world rd x f = (w, r) -> k = "label-pairing"%string \/ k = "sample-pairing"%string ->
  get_value w 0 k = Err KeyError /\ forall w' j, same_contents w 0 w' j -> get_value w' j k = Err KeyError.
Proof. intros E H. apply (other_key rd x f w r k E). destruct H as [-> | ->]; cbn; intuition discriminate. Qed.
Lemma written rd x f w r p splits : run_world rd x f = (w, r) -> prepare rd x = Ok p -> p_generator p = Ok splits ->
  forall k v, In (k, v) (parameters x ++ globals p)%list ->
    get_value w 0 k = Ok v /\ forall w' j, same_contents w 0 w' j -> exists v', get_value w' j k = Ok v' /\ restored v v'.
Proof.
  intros E Ep Eg k v I. destruct (logged_runs rd x f p splits w r Ep Eg E) as (n & _ & _ & _ & _ & G). specialize (G k v I).
  split; [now apply get_value_some|]. intros w' j (l1 & l' & _ & _ & _ & H & _). specialize (H k). rewrite G in H. destruct (global_at w' j k) as [v'|] eqn:E'; [|destruct H].
  exists v'. split; [now apply get_value_some|exact H].
Qed.
Lemma written_some rd x f w r p splits : run_world rd x f = (w, r) -> prepare rd x = Ok p -> p_generator p = Ok splits ->
  forall k v, In (k, v)
    [("modalities"%string, VList (map (@VStr nd) (x_mods x)));
     ("label_pairing"%string, VTuple (map (fun l => VList (map (@VStr nd) l)) (p_names p)));
     ("sample_pairing"%string, VList (map (fun t => VTuple (map (fun i => VInt (Z.of_nat i)) t)) (p_pairing p)));
     ("examples"%string, VList (map (fun i => VInt (Z.of_nat i)) (p_examples p)))] ->
    get_value w 0 k = Ok v /\ forall w' j, same_contents w 0 w' j -> exists v', get_value w' j k = Ok v' /\ restored v v'.
Proof.
  intros E Ep Eg k v I. apply (written rd x f w r p splits E Ep Eg k v). destruct I as [<-|[<-|[<-|[<-|[]]]]].
  - left. reflexivity.
  - do 8 right. left. reflexivity.
  - do 9 right. left. reflexivity.
  - do 10 right. left. reflexivity.
Qed.
