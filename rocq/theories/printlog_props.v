(** * The printed summary of a log: theorems. *)
From Coq Require Import List ZArith Reals Bool Arith String Ascii Lia Lra Permutation QArith Qreals.
From Flocq Require Import Core.
Import ListNotations.
From Verif Require Import Py nd_model nd_spec logger_model logger_spec logger_proof experiment_model figures_model figures_spec figures_proof
  table_model table_spec printlog_model printlog_spec printlog_proof.
Local Open Scope nat_scope.

(** A number is shown with six significant digits. *)
Theorem C126_number : forall x : R, shows6 (general x) x.
Proof. exact general_shows. Qed.
Print Assumptions C126_number.
(** The line of a key (or of another text for it): average and deviation of all the runs. *)
Theorem C126_line : forall (w : world) (i : nat) (key : string) (text : option string) (xs : list R),
  wf_world w -> measured w i key xs -> xs <> [] ->
  exists s, print_result w i key text = Ok s /\ summary_line (match text with None => key | Some t => t end) xs s.
Proof. exact print_line. Qed.
Print Assumptions C126_line.
Theorem C126_no_runs : forall (w : world) (i : nat) (key : string) (text : option string), wf_world w -> runs_of w i = Some 0 ->
  print_result w i key text = Ok ((match text with None => key | Some t => t end) ++ ": nan (std dev.: nan)")%string.
Proof. exact print_no_runs. Qed.
Print Assumptions C126_no_runs.
Theorem C126_missing : forall (w : world) (i n q : nat) (key : string) (text : option string), wf_world w -> runs_of w i = Some n -> q < n ->
  value_at w i q key = None -> print_result w i key text = Err TypeError.
Proof. exact print_missing. Qed.
Print Assumptions C126_missing.
(** After any history of calls the summary has one line for each key given to store_result. *)
Theorem C126_all : forall (ord : list string -> list string) (h : list (op nd)) (i : nat) (l : logger nd),
  (forall s, Permutation (ord s) s) -> let w := exec_all empty_world h in nth_error (w_logs w) i = Some l ->
  (forall k, stored_result h i k -> exists xs, measured w i k xs /\ xs <> []) ->
  exists keys lines, print_all_results ord w i = (lines, Ok tt) /\ NoDup keys /\ (forall k, In k keys <-> stored_result h i k) /\
    Forall2 (fun k s => exists xs, measured w i k xs /\ summary_line k xs s) keys lines.
Proof. exact print_all. Qed.
Print Assumptions C126_all.
(** If a run lacks one of these keys the call raises, after the lines of some of the keys. *)
Theorem C126_stops : forall (ord : list string -> list string) (h : list (op nd)) (i n : nat),
  (forall s, Permutation (ord s) s) -> let w := exec_all empty_world h in runs_of w i = Some n ->
  (forall k, stored_result h i k -> (exists xs, measured w i k xs /\ xs <> []) \/ exists q, q < n /\ value_at w i q k = None) ->
  (exists k q, stored_result h i k /\ q < n /\ value_at w i q k = None) ->
  exists keys lines k q, print_all_results ord w i = (lines, Err TypeError) /\ NoDup (k :: keys) /\ stored_result h i k /\ q < n /\ value_at w i q k = None /\
    (forall k', In k' keys -> stored_result h i k') /\ Forall2 (fun k s => exists xs, measured w i k xs /\ summary_line k xs s) keys lines.
Proof. exact print_all_stops. Qed.
Print Assumptions C126_stops.
(** The summary of a log that was loaded is empty. *)
Theorem C126_loaded : forall (ord : list string -> list string) (w : world) (f : fs nd) (name : string) (sf np : bool) (w' : world) (j : nat),
  (forall s, Permutation (ord s) s) -> load w f name sf np = (w', Ok j) -> print_all_results ord w' j = ([], Ok tt).
Proof. exact print_loaded. Qed.
Print Assumptions C126_loaded.

(** ** Examples *)
Definition same_order (s : list string) : list string := s.
Definition two_runs : list (op nd) :=
  [ONew (Some "log"%string); ONewRun 0; OStoreResult 0 "score" (VFloat (1#2)); OStore 0 "k" (VInt 3); ONewRun 0; OStoreResult 0 "score" (VFloat 1)].
Lemma mag_one (x : R) : (1 / 10 <= x < 1)%R -> (mag ten x : Z) = 0%Z.
Proof. intro H. apply mag_unique_pos. cbn. change (Z.pow_pos 10 1) with 10%Z. lra. Qed.
Lemma six_one (x : R) (d : Z) : (1 / 10 <= x < 1)%R -> (x * 1000000 = IZR d)%R -> (d <? 1000000)%Z = true -> six_digits x = (d, (-1)%Z).
Proof.
  intros H E L. unfold six_digits. rewrite mag_one by exact H. change (6 - 0)%Z with 6%Z. change (bpow ten 6) with 1000000%R.
  rewrite Rabs_pos_eq by lra. rewrite E, Zrnd_IZR by auto with typeclass_instances. apply Z.ltb_lt in L. destruct (Z.eqb_spec d 1000000); [lia|reflexivity].
Qed.
Lemma general_one (x : R) (d : Z) : (1 / 10 <= x < 1)%R -> (x * 1000000 = IZR d)%R -> (d <? 1000000)%Z = true -> general x = ("0" ++ decimals (last_digits 6 d))%string.
Proof.
  intros H E L. unfold general. rewrite Req_bool_false, (six_one x d H E L), Raux.Rlt_bool_false by lra. reflexivity.
Qed.
Example ex_line : print_all_results same_order (exec_all empty_world two_runs) 0 = (["score: 0.75 (std dev.: 0.25)"%string], Ok tt).
Proof.
  unfold print_all_results. set (w := exec_all empty_world two_runs). vm_compute in w. unfold w. cbn [get_logger nth_error w_logs lg_result_keys same_order print_keys].
  unfold print_result, get_stats, get_values. cbn -[np_mean np_std general append].
  assert (M : np_mean [Q2R (1 # 2); Q2R 1] = (3 / 4)%R) by (unfold np_mean, np_sum, Q2R; cbn; lra).
  assert (S : np_std [Q2R (1 # 2); Q2R 1] = (1 / 4)%R).
  { unfold np_std. rewrite M. apply sqrt_lem_1; [|lra|]; unfold np_mean, np_sum, Q2R; cbn; lra. }
  rewrite M, S, (general_one (3 / 4) 750000), (general_one (1 / 4) 250000) by (lra || reflexivity). reflexivity.
Qed.
Example ex_stored : stored_result two_runs 0 "score" /\ ~ stored_result two_runs 0 "k".
Proof.
  split.
  - exists [ONew (Some "log"%string); ONewRun 0], [OStore 0 "k" (VInt 3); ONewRun 0; OStoreResult 0 "score" (VFloat 1)], (VFloat (1#2)). split; reflexivity.
  - intros (h1 & h2 & v & E & _). unfold two_runs in E. repeat (destruct h1 as [|? h1]; cbn in E; [discriminate E|injection E as _ E]). destruct h1; discriminate E.
Qed.
Example ex_measured : measured (exec_all empty_world two_runs) 0 "score" [Q2R (1 # 2); Q2R 1].
Proof.
  split; [reflexivity|]. intros [|[|[|q]]] x E; cbn in E; try discriminate E; injection E as <-; eexists; (split; [vm_compute; reflexivity|constructor]).
Qed.
(** The second run lacks the key k. *)
Example ex_lacks : value_at (exec_all empty_world two_runs) 0 1 "k" = None /\ print_result (exec_all empty_world two_runs) 0 "k" None = Err TypeError.
Proof.
  split; [reflexivity|]. apply (C126_missing _ 0 2 1 "k" None); [apply exec_all_wf, empty_wf|reflexivity|lia|reflexivity].
Qed.
Example ex_stops : let h := two_runs ++ [ONewRun 0] in
  runs_of (exec_all empty_world h) 0 = Some 3 /\ stored_result h 0 "score" /\ value_at (exec_all empty_world h) 0 2 "score" = None.
Proof.
  cbv zeta. split; [reflexivity|]. split; [|reflexivity].
  exists [ONew (Some "log"%string); ONewRun 0], [OStore 0 "k" (VInt 3); ONewRun 0; OStoreResult 0 "score" (VFloat 1); ONewRun 0], (VFloat (1#2)). split; reflexivity.
Qed.
(** The log above is saved and loaded. *)
Example ex_loaded : exists w j, load empty_world (fst (save same_order (exec_all empty_world two_runs) 0 [])) "log" true true = (w, Ok j) /\
  runs_of w j = Some 2 /\ value_at w j 1 "score" = Some (VFloat 1).
Proof. do 2 eexists. split; [vm_compute; reflexivity|]. split; reflexivity. Qed.
