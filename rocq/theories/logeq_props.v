(** * Properties of Logger.__eq__ (multimodal/lib/logger.py:25-32). *)

From Coq Require Import List ZArith Bool QArith String Lia Arith.
Import ListNotations.
From Verif Require Import Py logger_model logger_spec logeq_model logeq_spec logeq_proof logeq_logs logeq_load.
From Verif Require logger_props.
Open Scope py_scope.
Local Open Scope nat_scope.
Local Open Scope string_scope.

(** C121: on logs without arrays the comparison always ends, and is true exactly when the logs have the same
    file name, the same contents and the same sets of keys. *)
Theorem C121_equal : forall (Arr : Type) (foreign : val Arr -> val Arr -> result bool) (w : world Arr) i j a b,
  wf_world w -> nth_error (w_logs w) i = Some a -> nth_error (w_logs w) j = Some b ->
  all_values plain w i -> all_values plain w j ->
  exists e, logger_eq foreign w i j = Ok e /\ (e = true <-> same_logs w i j).
Proof. intros Arr. exact (@logger_eq_ok Arr). Qed.
Print Assumptions C121_equal.

(** A log is equal to itself, with arrays or without. *)
Theorem C121_self : forall (Arr : Type) (foreign : val Arr -> val Arr -> result bool) (w : world Arr) i a,
  nth_error (w_logs w) i = Some a -> logger_eq foreign w i i = Ok true.
Proof. intros Arr. exact (@logger_eq_refl Arr). Qed.
Print Assumptions C121_self.

Theorem C121_symmetric : forall (Arr : Type) (foreign : val Arr -> val Arr -> result bool) (w : world Arr) i j,
  wf_world w -> all_values plain w i -> all_values plain w j ->
  logger_eq foreign w i j = Ok true -> logger_eq foreign w j i = Ok true.
Proof. intros Arr. exact (@logger_eq_sym Arr). Qed.
Print Assumptions C121_symmetric.

Theorem C121_transitive : forall (Arr : Type) (foreign : val Arr -> val Arr -> result bool) (w : world Arr) i j k,
  wf_world w -> all_values plain w i -> all_values plain w j -> all_values plain w k ->
  logger_eq foreign w i j = Ok true -> logger_eq foreign w j k = Ok true -> logger_eq foreign w i k = Ok true.
Proof. intros Arr. exact (@logger_eq_trans Arr). Qed.
Print Assumptions C121_transitive.

(** A log without arrays, saved and loaded again, is equal to the log in memory exactly when it was loaded with
    set_filename, has no result keys, no tuples and no dictionary with keys other than strings. *)
Theorem C121_loaded : forall (Arr : Type) (foreign : val Arr -> val Arr -> result bool) ord (w w' : world Arr) i j l f fl fl' (sf : bool),
  enumerates ord -> wf_world w -> nth_error (w_logs w) i = Some l -> lg_filename l = Some f -> ~ has_suffix f ".npz" ->
  all_storable w i -> all_values plain w i ->
  save ord w i fl = (fl', Ok tt) -> load w fl' f sf true = (w', Ok j) ->
  exists e, logger_eq foreign w' i j = Ok e /\ (e = true <-> sf = true /\ lg_result_keys l = [] /\ all_values json_like w i).
Proof. intros Arr. exact (@loaded_eq Arr). Qed.
Print Assumptions C121_loaded.

(** A log with an array, all other values of which come back unchanged: the comparison with the loaded log ends
    with the exception numpy gives for the comparison of two arrays inside of dictionaries. *)
Theorem C121_arrays : forall (Arr : Type) (foreign : val Arr -> val Arr -> result bool) ord (w w' : world Arr) i j l f fl fl' e,
  enumerates ord -> wf_world w -> nth_error (w_logs w) i = Some l -> lg_filename l = Some f -> ~ has_suffix f ".npz" ->
  all_storable w i -> all_values (fun v => is_array v \/ json_like v) w i -> has_array w i ->
  all_values (fun v => is_array v -> foreign v v = Err e) w i ->
  save ord w i fl = (fl', Ok tt) -> load w fl' f true true = (w', Ok j) ->
  logger_eq foreign w' i j = Err e.
Proof. intros Arr. exact (@loaded_arrays Arr). Qed.
Print Assumptions C121_arrays.

(** ** Examples *)
Definition numpy_eq (a b : val nat) : result bool := match a, b with VArr _, VArr _ => Err ValueError | _, _ => Ok false end.
Definition set1 (i : nat) (x : val nat) : list (op nat) :=
  [ONew (Some "log"); OStoreGlobal i "n" x; OStoreGlobal i "names" (VDict [(KStr "a", VInt 1); (KStr "b", VFloat (1 # 2))]); ONewRun i; OStore i "t" (VList [VInt 3; VNone])].
(** Two logs written in different orders with True for 1. *)
Definition h2 : list (op nat) := (set1 0 (VInt 1) ++
  [ONew (Some "log"); OStoreGlobal 1 "names" (VDict [(KStr "b", VFloat (2 # 4)); (KStr "a", VInt 1)]); OStoreGlobal 1 "n" (VBool true); ONewRun 1; OStore 1 "t" (VList [VInt 3; VNone])])%list.
Definition w2 := exec_all empty_world h2.
Definition w2_nf := Eval vm_compute in w2.
Lemma w2_eq : w2 = w2_nf. Proof. vm_compute. reflexivity. Qed.
Lemma nodup2 (a b : key) : as_int a <> as_int b -> forall x y : val nat, NoDup (map (fun kv => as_int (fst kv)) [(a, x); (b, y)]).
Proof. intros H x y. cbn. constructor; [intros [E|[]]; congruence|]. constructor; [intros []|constructor]. Qed.
Ltac cases := repeat match goal with |- context [String.eqb ?a ?k] => destruct (String.eqb a k) end; try discriminate.
Ltac pl := repeat match goal with
  | |- plain (VList _) => apply pl_list; intros ? ?
  | |- plain (VTuple _) => apply pl_tuple; intros ? ?
  | |- plain (VDict _) => apply pl_dict; [apply nodup2; discriminate|intros ? ? ?]
  | H : In _ (_ :: _) |- _ => destruct H as [H|H]; [try (injection H as <- <-); try subst|]
  | H : In _ [] |- _ => destruct H
  | |- plain _ => constructor
  end.
Lemma w2_plain : all_values plain w2 0 /\ all_values plain w2 1.
Proof.
  rewrite w2_eq. split; split; try (intros k v; unfold global_at; cbn -[String.eqb]; cases; intros [= <-]; pl);
    intros [|p] k v; unfold value_at; cbn -[String.eqb]; try (destruct p; discriminate); cases; intros [= <-]; pl.
Qed.
Example ex_equal_hyps : wf_world w2 /\ all_values plain w2 0 /\ all_values plain w2 1 /\ runs_of w2 0 = Some 1 /\ runs_of w2 1 = Some 1.
Proof. split; [exact (logger_props.C29_reachable_wf nat h2)|]. split; [apply w2_plain|]. split; [apply w2_plain|]. split; reflexivity. Qed.
Example ex_equal : logger_eq numpy_eq w2 0 1 = Ok true /\ logger_eq numpy_eq w2 1 0 = Ok true.
Proof. split; vm_compute; reflexivity. Qed.
(** So these logs have the same contents. *)
Example ex_same : same_logs w2 0 1.
Proof.
  destruct (C121_equal nat numpy_eq w2 0 1 _ _ (logger_props.C29_reachable_wf nat h2) eq_refl eq_refl (proj1 w2_plain) (proj2 w2_plain)) as (e & E & H).
  apply H. assert (logger_eq numpy_eq w2 0 1 = Ok true) by (vm_compute; reflexivity). congruence.
Qed.
(** Saved and loaded: equal with set_filename only. *)
Definition f2 := fst (save logger_props.id_ord w2 0 []).
Example ex_loaded : snd (save logger_props.id_ord w2 0 []) = Ok tt /\
  logger_eq numpy_eq (fst (load w2 f2 "log" true true)) 0 2 = Ok true /\ logger_eq numpy_eq (fst (load w2 f2 "log" false true)) 0 2 = Ok false.
Proof. vm_compute. repeat split. Qed.
Lemma w2_storable : all_storable w2 0.
Proof.
  rewrite w2_eq. split.
  - intros k v. unfold global_at. cbn -[String.eqb]. cases; intros [= <-]; eexists; apply re_json.
    + constructor.
    + apply ji_dict; [constructor; [constructor|constructor|constructor; [constructor|constructor|constructor]]|]. cbn. constructor; [intros [E|[]]; congruence|]. constructor; [intros []|constructor].
  - intros [|p] k v; unfold value_at; cbn -[String.eqb]; [|destruct p; discriminate]. cases. intros [= <-]. eexists. apply re_json, ji_list. constructor; [constructor|]. constructor; [constructor|constructor].
Qed.
Example ex_loaded_hyps : wf_world w2 /\ ~ has_suffix "log" ".npz" /\ all_storable w2 0 /\ all_values plain w2 0 /\ enumerates logger_props.id_ord.
Proof. split; [exact (logger_props.C29_reachable_wf nat h2)|]. split; [exact logger_props.log_no_suffix|]. split; [exact w2_storable|]. split; [apply w2_plain|exact logger_props.id_ord_ok]. Qed.
(** With a tuple, or with a result, the loaded log differs. *)
Definition wt := exec_all empty_world (set1 0 (VTuple [VInt 1])).
Definition wr := exec_all empty_world (set1 0 (VInt 1) ++ [OStoreResult 0 "score" (VInt 5)])%list.
Example ex_differs :
  logger_eq numpy_eq (fst (load wt (fst (save logger_props.id_ord wt 0 [])) "log" true true)) 0 1 = Ok false /\
  logger_eq numpy_eq (fst (load wr (fst (save logger_props.id_ord wr 0 [])) "log" true true)) 0 1 = Ok false.
Proof. vm_compute. split; reflexivity. Qed.
(** With an array. *)
Definition ha : list (op nat) := [ONew (Some "log"); OStoreGlobal 0 "n" (VInt 1); ONewRun 0; OStore 0 "train" (VArr 4)].
Definition wa := exec_all empty_world ha.
Definition wa_nf := Eval vm_compute in wa.
Lemma wa_eq : wa = wa_nf. Proof. vm_compute. reflexivity. Qed.
Example ex_arrays_hyps : wf_world wa /\ has_array wa 0 /\ all_storable wa 0 /\ all_values (fun v => is_array v \/ json_like v) wa 0 /\
  all_values (fun v => is_array v -> numpy_eq v v = Err ValueError) wa 0.
Proof.
  split; [exact (logger_props.C29_reachable_wf nat ha)|]. split; [right; exists 0, "train", 4; reflexivity|]. rewrite wa_eq. split; [|split]; split;
    try (intros k v; unfold global_at; cbn -[String.eqb]; cases; intros [= <-]); try (intros [|p] k v; unfold value_at; cbn -[String.eqb]; try (destruct p; discriminate); cases; intros [= <-]).
  - eexists. apply re_json. constructor.
  - eexists. apply re_arr.
  - right. constructor.
  - left. now exists 4.
  - intros (a & A). discriminate.
  - reflexivity.
Qed.
Example ex_arrays : logger_eq numpy_eq (fst (load wa (fst (save logger_props.id_ord wa 0 [])) "log" true true)) 0 1 = Err ValueError.
Proof. vm_compute. reflexivity. Qed.
