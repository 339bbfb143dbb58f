(** * Properties of multimodal/lib/logger.py. *)

From Coq Require Import List ZArith Arith Bool QArith String Lia.
Import ListNotations.
From Verif Require Import Py logger_model logger_spec logger_proof logger_file logger_load
  logger_frame_spec logger_frame.
Local Open Scope nat_scope.
Local Open Scope string_scope.

(** C29: every heap reached by calls is well formed (the hypothesis of the
    theorems below). *)
Theorem C29_reachable_wf : forall (Arr : Type) (h : list (op Arr)),
  wf_world (exec_all empty_world h).
Proof. intros Arr h. exact (exec_all_wf h empty_world empty_wf). Qed.
Print Assumptions C29_reachable_wf.

(** A logged value is never changed or lost, whatever calls follow (merging
    included). *)
Theorem C29_write_once : forall (Arr : Type) (w : world Arr) (h : list (op Arr)) i p k v,
  value_at w i p k = Some v -> value_at (exec_all w h) i p k = Some v.
Proof. intros Arr. exact (@write_once Arr). Qed.
Print Assumptions C29_write_once.

(** Outcome of store and store_result in every situation. *)
Theorem C29_store : forall (Arr : Type) (w : world Arr) i l k v,
  wf_world w -> nth_error (w_logs w) i = Some l ->
  let n := List.length (lg_exps l) in
  (n = 0 -> store w i k v = (w, Err IndexError) /\ store_result w i k v = (w, Err IndexError)) /\
  (0 < n -> (exists x, value_at w i (n - 1) k = Some x) ->
     store w i k v = (w, Err ValueError) /\ store_result w i k v = (w, Err ValueError)) /\
  (0 < n -> value_at w i (n - 1) k = None -> exists w',
     store w i k v = (w', Ok tt) /\ value_at w' i (n - 1) k = Some v /\
     exists w'' l'', store_result w i k v = (w'', Ok tt) /\ value_at w'' i (n - 1) k = Some v /\
       nth_error (w_logs w'') i = Some l'' /\ In k (lg_result_keys l'')).
Proof. intros Arr. exact (@store_spec Arr). Qed.
Print Assumptions C29_store.

(** What store and store_result leave unchanged: all other values, of all
    loggers; the value is seen by exactly the loggers that share the run. *)
Theorem C29_store_frame : forall (Arr : Type) (w : world Arr) i k v w',
  (store w i k v = (w', Ok tt) ->
     exists n, runs_of w i = Some (S n) /\ stored w w' i n k v /\ registers w w' i [k] []) /\
  (store_result w i k v = (w', Ok tt) ->
     exists n, runs_of w i = Some (S n) /\ stored w w' i n k v /\ registers w w' i [k] [k]).
Proof. intros Arr w i k v w'. split; [apply store_frame|apply store_result_frame]. Qed.
Print Assumptions C29_store_frame.

(** new_run adds one empty run, that no other logger has, and changes nothing
    else. *)
Theorem C29_new_run : forall (Arr : Type) (w : world Arr) i l,
  wf_world w -> nth_error (w_logs w) i = Some l ->
  let n := List.length (lg_exps l) in
  exists w', new_run w i = (w', Ok tt) /\
    runs_of w' i = Some (S n) /\ (forall j, j <> i -> runs_of w' j = runs_of w j) /\
    (forall j q k, value_at w' j q k = value_at w j q k) /\
    (forall j q, same_run w' i n j q -> j = i /\ q = n) /\
    (forall j k, global_at w' j k = global_at w j k) /\ registers w w' i [] [].
Proof. intros Arr. exact (@new_run_frame Arr). Qed.
Print Assumptions C29_new_run.

Theorem C29_store_global : forall (Arr : Type) (w : world Arr) i l k v,
  nth_error (w_logs w) i = Some l ->
  exists w', store_global w i k v = (w', Ok tt) /\
    (forall k', global_at w' i k' = if String.eqb k k' then Some v else global_at w i k') /\
    (forall j p q, value_at w' j p q = value_at w j p q) /\
    (forall j q, j <> i -> global_at w' j q = global_at w j q).
Proof. intros Arr. exact (@store_global_spec Arr). Qed.
Print Assumptions C29_store_global.

(** exp_keys is exact in every history without merging; results are keys. *)
Theorem C29_key_sets : forall (Arr : Type) (h : list (op Arr)) i l,
  Forall no_append h -> nth_error (w_logs (exec_all empty_world h)) i = Some l ->
  (forall k, In k (lg_exp_keys l) <-> exists p v, value_at (exec_all empty_world h) i p k = Some v) /\
  (forall k, In k (lg_result_keys l) -> In k (lg_exp_keys l)).
Proof. intros Arr. exact (@key_sets_exact Arr). Qed.
Print Assumptions C29_key_sets.

Theorem C29_get_values : forall (Arr : Type) (w : world Arr) i l k,
  wf_world w -> nth_error (w_logs w) i = Some l ->
  exists vs, get_values w i k = Ok vs /\ List.length vs = List.length (lg_exps l) /\
    forall p, p < List.length (lg_exps l) ->
      nth_error vs p = Some (match value_at w i p k with Some v => v | None => VNone end).
Proof. intros Arr. exact (@get_values_ok Arr). Qed.
Print Assumptions C29_get_values.

Theorem C29_get_last_value : forall (Arr : Type) (w : world Arr) i l k,
  wf_world w -> nth_error (w_logs w) i = Some l ->
  let n := List.length (lg_exps l) in
  get_last_value w i k =
    if (n =? 0)%nat then Err IndexError
    else match value_at w i (n - 1) k with Some v => Ok v | None => Err KeyError end.
Proof. intros Arr. exact (@get_last_value_spec Arr). Qed.
Print Assumptions C29_get_last_value.

(** C30: save then load, in any other process ([w2]) and over any previous
    files ([fl]). *)
Theorem C30_roundtrip : forall (Arr : Type) ord (w : world Arr) i l f fl w2 sf,
  enumerates ord -> wf_world w -> wf_world w2 ->
  nth_error (w_logs w) i = Some l -> lg_filename l = Some f -> ~ has_suffix f ".npz" ->
  all_storable w i ->
  exists fl' w2' l', save ord w i fl = (fl', Ok tt) /\
    load w2 fl' f sf true = (w2', Ok (List.length (w_logs w2))) /\ wf_world w2' /\
    same_contents w i w2' (List.length (w_logs w2)) /\
    nth_error (w_logs w2') (List.length (w_logs w2)) = Some l' /\
    lg_result_keys l' = [] /\ lg_filename l' = (if sf then Some f else None) /\
    (exists rs, lg_exp_results l' = Some rs /\ forall k, In k rs <-> In k (lg_result_keys l)) /\
    (forall j p k v, value_at w2 j p k = Some v -> value_at w2' j p k = Some v).
Proof. intros Arr. exact (@roundtrip Arr). Qed.
Print Assumptions C30_roundtrip.

(** With load_np=False the arrays, and only they, are missing. *)
Theorem C30_without_arrays : forall (Arr : Type) ord (w : world Arr) i l f fl w2 sf,
  enumerates ord -> wf_world w ->
  nth_error (w_logs w) i = Some l -> lg_filename l = Some f -> all_storable w i ->
  exists fl' w2' l', save ord w i fl = (fl', Ok tt) /\
    load w2 fl' f sf false = (w2', Ok (List.length (w_logs w2))) /\
    nth_error (w_logs w2') (List.length (w_logs w2)) = Some l' /\
    List.length (lg_exps l') = List.length (lg_exps l) /\
    (forall k, In k (lg_exp_keys l') <-> In k (lg_exp_keys l)) /\
    (forall k, mixed None (global_at w i k) (global_at w2' (List.length (w_logs w2)) k)) /\
    (forall p k, mixed None (value_at w i p k) (value_at w2' (List.length (w_logs w2)) p k)).
Proof. intros Arr. exact (@roundtrip_no_np Arr). Qed.
Print Assumptions C30_without_arrays.

Theorem C30_npz_suffix_fails : forall (Arr : Type) ord (w : world Arr) i l f fl w2 sf, wf_world w ->
  nth_error (w_logs w) i = Some l -> lg_filename l = Some f -> has_suffix f ".npz" ->
  all_storable w i -> has_array w i -> fs_read fl (f ++ ".npz") = None ->
  exists fl', save ord w i fl = (fl', Ok tt) /\ load w2 fl' f sf true = (w2, Err IOError).
Proof. intros Arr. exact (@npz_suffix_fails Arr). Qed.
Print Assumptions C30_npz_suffix_fails.

(** C31: [crash ord w i n fl] are the files when the process saving logger [i]
    stops after [n] changes of the file system. *)
Theorem C31_ends : forall (Arr : Type) ord (w : world Arr) i fl,
  crash ord w i 0 fl = fl /\
  crash ord w i (List.length (fst (save_writes ord w i))) fl = fst (save ord w i fl).
Proof. intros Arr. exact (@crash_ends Arr). Qed.
Print Assumptions C31_ends.

Theorem C31_archive_cut : forall (Arr : Type) ord (wo wn : world Arr) o n lo ln f,
  wf_world wo -> wf_world wn ->
  nth_error (w_logs wo) o = Some lo -> nth_error (w_logs wn) n = Some ln ->
  lg_filename lo = Some f -> lg_filename ln = Some f -> ~ has_suffix f ".npz" ->
  all_storable wo o -> all_storable wn n -> has_array wo o -> has_array wn n ->
  enumerates ord ->
  forall fl0 fl1 w2 sf, save ord wo o fl0 = (fl1, Ok tt) ->
  load w2 (crash ord wn n 1 fl1) f sf true = (w2, Err BadFile).
Proof. intros Arr ord wo wn o n lo ln f ? ? ? ? ? ? ? ? ? ? ? ?. eapply archive_cut; eassumption. Qed.
Print Assumptions C31_archive_cut.

Theorem C31_mixture : forall (Arr : Type) ord (wo wn : world Arr) o n lo ln f,
  wf_world wo -> wf_world wn ->
  nth_error (w_logs wo) o = Some lo -> nth_error (w_logs wn) n = Some ln ->
  lg_filename lo = Some f -> lg_filename ln = Some f -> ~ has_suffix f ".npz" ->
  all_storable wo o -> all_storable wn n -> has_array wo o -> has_array wn n ->
  enumerates ord ->
  forall fl0 fl1 w2 sf, List.length (lg_exps ln) <= List.length (lg_exps lo) ->
  save ord wo o fl0 = (fl1, Ok tt) ->
  exists w2' l', load w2 (crash ord wn n 2 fl1) f sf true = (w2', Ok (List.length (w_logs w2))) /\
    nth_error (w_logs w2') (List.length (w_logs w2)) = Some l' /\
    List.length (lg_exps l') = List.length (lg_exps lo) /\
    (forall k, mixed (global_at wn n k) (global_at wo o k) (global_at w2' (List.length (w_logs w2)) k)) /\
    (forall p k, mixed (value_at wn n p k) (value_at wo o p k) (value_at w2' (List.length (w_logs w2)) p k)).
Proof. intros Arr ord wo wn o n lo ln f ? ? ? ? ? ? ? ? ? ? ? ?. eapply torn_mixture; eassumption. Qed.
Print Assumptions C31_mixture.

Theorem C31_unreadable : forall (Arr : Type) ord (wo wn : world Arr) o n lo ln f,
  wf_world wo -> wf_world wn ->
  nth_error (w_logs wo) o = Some lo -> nth_error (w_logs wn) n = Some ln ->
  lg_filename lo = Some f -> lg_filename ln = Some f -> ~ has_suffix f ".npz" ->
  all_storable wo o -> all_storable wn n -> has_array wo o -> has_array wn n ->
  enumerates ord ->
  forall fl0 fl1 w2 sf p k a, List.length (lg_exps lo) <= p ->
  value_at wn n p k = Some (VArr a) -> save ord wo o fl0 = (fl1, Ok tt) ->
  load w2 (crash ord wn n 2 fl1) f sf true = (w2, Err IndexError).
Proof. intros Arr ord wo wn o n lo ln f ? ? ? ? ? ? ? ? ? ? ? ?. eapply torn_unreadable; eassumption. Qed.
Print Assumptions C31_unreadable.

Theorem C31_json_cut : forall (Arr : Type) ord (w : world Arr) i l f fl w2 sf ln, wf_world w ->
  nth_error (w_logs w) i = Some l -> lg_filename l = Some f -> all_storable w i ->
  load w2 (crash ord w i (List.length (fst (save_writes ord w i)) - 1) fl) f sf ln = (w2, Err ValueError).
Proof. intros Arr. exact (@json_cut Arr). Qed.
Print Assumptions C31_json_cut.

(** C32. *)
Theorem C32_merge_empty : forall (Arr : Type) (w : world Arr),
  merge_experiments w [] = (w, Err ValueError).
Proof. reflexivity. Qed.
Print Assumptions C32_merge_empty.

Theorem C32_merge : forall (Arr : Type) (w : world Arr) i js a,
  nth_error (w_logs w) i = Some a ->
  (forall j, In j js -> nth_error (w_logs w) j <> None) -> ~ In i js ->
  ((forall j b, In j js -> nth_error (w_logs w) j = Some b ->
      forall k, In k (lg_exp_keys b) <-> In k (lg_exp_keys a)) ->
   exists w' a', merge_experiments w (i :: js) = (w', Ok i) /\
     nth_error (w_logs w') i = Some a' /\
     lg_glob a' = lg_glob a /\ lg_exp_keys a' = lg_exp_keys a /\
     lg_result_keys a' = lg_result_keys a /\ lg_filename a' = lg_filename a /\
     (forall j, j <> i -> nth_error (w_logs w') j = nth_error (w_logs w) j) /\
     (wf_world w -> forall k, exists vss, Forall2 (fun j vs => get_values w j k = Ok vs) (i :: js) vss /\
        get_values w' i k = Ok (List.concat vss))) /\
  ((exists j b, In j js /\ nth_error (w_logs w) j = Some b /\
      ~ (forall k, In k (lg_exp_keys b) <-> In k (lg_exp_keys a))) ->
   exists w', merge_experiments w (i :: js) = (w', Err AssertionError)).
Proof. intros Arr. exact (@merge_spec Arr). Qed.
Print Assumptions C32_merge.

(** C70: a save that raises TypeError because of a value json cannot write has
    already destroyed the earlier json file. *)
Theorem C70_failed_save : forall (Arr : Type) ord (w : world Arr) i l f fl w2 sf ln fl',
  nth_error (w_logs w) i = Some l -> lg_filename l = Some f ->
  save ord w i fl = (fl', Err TypeError) ->
  load w2 fl' f sf ln = (w2, Err ValueError).
Proof. intros Arr. exact (@failed_save Arr). Qed.
Print Assumptions C70_failed_save.

(** ** Examples. *)
Definition id_ord (s : list string) := s.
Lemma id_ord_ok : enumerates id_ord.
Proof. intros s k. reflexivity. Qed.

(** A logger with a global tuple, an array global and two runs. *)
Definition h_old : list (op nat) :=
  [ONew (Some "log"); OStoreGlobal 0 "a_b" (VTuple [VInt 1; VDict [(KInt 2, VStr "x")]]);
   OStoreGlobal 0 "arr_x" (VArr 7); ONewRun 0; OStore 0 "train" (VArr 1);
   OStoreResult 0 "score" (VInt 5); OStore 0 "score" (VInt 6); ONewRun 0; OStore 0 "score" (VNone)].
Definition w_old := exec_all empty_world h_old.
(** The same with other values. *)
Definition h_new : list (op nat) :=
  [ONew (Some "log"); OStoreGlobal 0 "a_b" (VInt 3); ONewRun 0; OStore 0 "train" (VArr 2);
   OStoreResult 0 "score" (VInt 9)].
Definition w_new := exec_all empty_world h_new.

Example ex_write_once : value_at w_old 0 0 "score" = Some (VInt 5).
Proof. reflexivity. Qed.
Example ex_values : get_values w_old 0 "train" = Ok [VArr 1; VNone].
Proof. reflexivity. Qed.

Definition w_old_nf := Eval vm_compute in w_old.
Definition w_new_nf := Eval vm_compute in w_new.
Lemma w_old_eq : w_old = w_old_nf. Proof. vm_compute. reflexivity. Qed.
Lemma w_new_eq : w_new = w_new_nf. Proof. vm_compute. reflexivity. Qed.

Definition l_old := Eval vm_compute in (match w_logs w_old with l :: _ => l | [] => mkLogger [] [] [] [] None None end).
Lemma l_old_eq : nth_error (w_logs w_old) 0 = Some l_old. Proof. vm_compute. reflexivity. Qed.
Lemma w_old_wf : wf_world w_old. Proof. exact (C29_reachable_wf nat h_old). Qed.
Lemma w_new_wf : wf_world w_new. Proof. exact (C29_reachable_wf nat h_new). Qed.

Lemma storable_cases : all_storable w_old 0 /\ all_storable w_new 0.
Proof.
  rewrite w_old_eq, w_new_eq. split; split.
  - intros k v.
    change (global_at w_old_nf 0 k) with (dict_get String.eqb
      [("a_b", VTuple [VInt 1; VDict [(KInt 2, VStr "x")]]); ("arr_x", VArr 7)] k). cbn [dict_get].
    destruct (String.eqb "a_b" k); [|destruct (String.eqb "arr_x" k); [|discriminate]]; intros [= <-].
    + eexists. apply re_json, ji_tuple. constructor; [constructor|]. constructor; [|constructor].
      apply ji_dict; [constructor; [constructor|constructor|constructor]|]. constructor; [intros []|constructor].
    + eexists. apply re_arr.
  - intros p k v. destruct p as [|[|p]].
    + change (value_at w_old_nf 0 0 k) with (dict_get String.eqb [("train", VArr 1); ("score", VInt 5)] k).
      cbn [dict_get]. destruct (String.eqb "train" k); [|destruct (String.eqb "score" k); [|discriminate]];
        intros [= <-]; eexists; [apply re_arr|apply re_json; constructor].
    + change (value_at w_old_nf 0 1 k) with (dict_get (V:=val nat) String.eqb [("score", VNone)] k).
      cbn [dict_get]. destruct (String.eqb "score" k); [|discriminate].
      intros [= <-]. eexists. apply re_json. constructor.
    + unfold value_at. cbn [nth_error w_logs w_old_nf w_new_nf lg_exps]. destruct p; discriminate.
  - intros k v. change (global_at w_new_nf 0 k) with (dict_get (V:=val nat) String.eqb [("a_b", VInt 3)] k).
    cbn [dict_get]. destruct (String.eqb "a_b" k); [|discriminate].
    intros [= <-]. eexists. apply re_json. constructor.
  - intros p k v. destruct p as [|p].
    + change (value_at w_new_nf 0 0 k) with (dict_get String.eqb [("train", VArr 2); ("score", VInt 9)] k).
      cbn [dict_get]. destruct (String.eqb "train" k); [|destruct (String.eqb "score" k); [|discriminate]];
        intros [= <-]; eexists; [apply re_arr|apply re_json; constructor].
    + unfold value_at. cbn [nth_error w_logs w_old_nf w_new_nf lg_exps]. destruct p; discriminate.
Qed.
Lemma log_no_suffix : ~ has_suffix "log" ".npz".
Proof. intros (p & H). apply (f_equal String.length) in H. rewrite append_length in H. cbn in H. lia. Qed.

Definition files_old := fst (save id_ord w_old 0 []).
Definition reread := fst (load empty_world files_old "log" false true).
Example ex_roundtrip : snd (save id_ord w_old 0 []) = Ok tt /\
  snd (load empty_world files_old "log" false true) = Ok 0 /\
  global_at reread 0 "a_b" = Some (VList [VInt 1; VDict [(KStr "2", VStr "x")]]) /\
  value_at reread 0 0 "train" = Some (VArr 1).
Proof. vm_compute. repeat split. Qed.
Example ex_roundtrip_hyps : wf_world w_old /\ ~ has_suffix "log" ".npz" /\ all_storable w_old 0 /\ has_array w_old 0.
Proof.
  split; [apply w_old_wf|]. split; [exact log_no_suffix|]. split; [apply storable_cases|].
  left. exists "arr_x", 7. reflexivity.
Qed.

(** The result set is lost, so the loaded logger differs from the saved one. *)
Theorem C30_equality_refuted : ~ (forall (w : world nat) i l f fl w2 fl' w2' j l',
  wf_world w -> nth_error (w_logs w) i = Some l -> lg_filename l = Some f -> ~ has_suffix f ".npz" ->
  all_storable w i -> save id_ord w i fl = (fl', Ok tt) ->
  load w2 fl' f true true = (w2', Ok j) -> nth_error (w_logs w2') j = Some l' ->
  forall k, In k (lg_result_keys l') <-> In k (lg_result_keys l)).
Proof.
  intros H.
  destruct (C30_roundtrip nat id_ord w_old 0 l_old "log" [] empty_world true id_ord_ok
    w_old_wf (C29_reachable_wf nat []) l_old_eq eq_refl log_no_suffix (proj1 storable_cases))
    as (fl' & w2' & l' & A & B & _ & _ & C & D & _).
  specialize (H w_old 0 l_old "log" [] empty_world fl' w2' _ l'
    w_old_wf l_old_eq eq_refl log_no_suffix (proj1 storable_cases) A B C "score").
  rewrite D in H. destruct H as [_ H]. apply H. cbn. auto.
Qed.
Print Assumptions C30_equality_refuted.

(** The interrupted save: new array "train", old score and globals. *)
Definition torn := fst (load empty_world (crash id_ord w_new 0 2 files_old) "log" false true).
Example ex_mixture :
  snd (load empty_world (crash id_ord w_new 0 2 files_old) "log" false true) = Ok 0 /\
  value_at torn 0 0 "train" = Some (VArr 2) /\ value_at torn 0 0 "score" = Some (VInt 5) /\
  global_at torn 0 "arr_x" = None.
Proof. vm_compute. repeat split. Qed.
Example ex_mixture_hyps : has_array w_new 0 /\ all_storable w_new 0.
Proof. split; [right; exists 0, "train", 2; reflexivity|apply storable_cases]. Qed.

(** Crash atomicity is false: the loaded logger has neither the old nor the
    new contents. *)
Theorem C31_atomic_refuted : ~ (forall (wo wn : world nat) o n fl0 fl1 w2 w2' j c f,
  wf_world wo -> wf_world wn -> all_storable wo o -> all_storable wn n ->
  (forall lo, nth_error (w_logs wo) o = Some lo -> lg_filename lo = Some f) ->
  (forall ln, nth_error (w_logs wn) n = Some ln -> lg_filename ln = Some f) ->
  ~ has_suffix f ".npz" -> save id_ord wo o fl0 = (fl1, Ok tt) ->
  load w2 (crash id_ord wn n c fl1) f false true = (w2', Ok j) ->
  same_contents wo o w2' j \/ same_contents wn n w2' j).
Proof.
  intros H. destruct ex_mixture as (B & C & D & E).
  destruct (H w_old w_new 0 0 [] files_old empty_world torn 0 2 "log") as [X|X].
  - apply w_old_wf.
  - apply w_new_wf.
  - apply storable_cases.
  - apply storable_cases.
  - rewrite w_old_eq. intros lo [= <-]. reflexivity.
  - rewrite w_new_eq. intros lo [= <-]. reflexivity.
  - exact log_no_suffix.
  - vm_compute. reflexivity.
  - unfold torn. rewrite <- B. apply surjective_pairing.
  - destruct X as (l & l' & _ & _ & _ & _ & V & _). specialize (V 0 "train"). rewrite C, w_old_eq in V.
    change (value_at w_old_nf 0 0 "train") with (Some (VArr 1)) in V. cbn [opt_rel] in V. inversion V. inversion H0.
  - destruct X as (l & l' & _ & _ & _ & _ & V & _). specialize (V 0 "score"). rewrite D, w_new_eq in V.
    change (value_at w_new_nf 0 0 "score") with (Some (VInt (Arr:=nat) 9)) in V. cbn [opt_rel] in V. inversion V. inversion H0.
Qed.
Print Assumptions C31_atomic_refuted.

Example ex_unreadable : snd (load empty_world (crash id_ord
    (exec_all w_old [OStore 0 "train" (VArr 3)]) 0 2 (fst (save id_ord w_new 0 []))) "log" false true)
  = Err IndexError.
Proof. vm_compute. reflexivity. Qed.

(** Merging shares the run dictionaries: storing through the merged logger adds
    a key to the other logger's run behind its back. *)
Definition h_shared : list (op nat) :=
  [ONew None; ONewRun 0; OStore 0 "a" (VInt 1); ONew None; ONewRun 1; OStore 1 "a" (VInt 2);
   OAppend 0 1; OStore 0 "b" (VInt 3)].
Theorem C32_shared_runs_refuted : ~ (forall (h : list (op nat)) i l,
  nth_error (w_logs (exec_all empty_world h)) i = Some l ->
  forall k, (exists p v, value_at (exec_all empty_world h) i p k = Some v) -> In k (lg_exp_keys l)).
Proof.
  intros H. specialize (H h_shared 1 _ eq_refl "b").
  assert (X : In "b" ["a"]) by (apply H; exists 0, (VInt 3); reflexivity).
  cbn in X. destruct X as [X|[]]. discriminate.
Qed.
Print Assumptions C32_shared_runs_refuted.

(** A value stored after the merging is seen by both loggers that share the run. *)
Example ex_shared_store : let w := exec_all empty_world (h_shared ++ [ONewRun 0]) in
  same_run (exec_all empty_world h_shared) 0 1 1 0 /\
  runs_of w 0 = Some 3 /\ runs_of w 1 = Some 1.
Proof. split; [do 3 eexists; repeat split; reflexivity|vm_compute; auto]. Qed.
Example ex_merge : let r := merge_experiments (exec_all empty_world (firstn 6 h_shared)) [0; 1] in
  snd r = Ok 0 /\ get_values (fst r) 0 "a" = Ok [VInt 1; VInt 2].
Proof. vm_compute. split; reflexivity. Qed.
Example ex_merge_fails : snd (merge_experiments (exec_all empty_world
  [ONew (Arr:=nat) None; ONew None; ONewRun 1; OStore 1 "a" (VInt 2)]) [0; 1]) = Err AssertionError.
Proof. vm_compute. reflexivity. Qed.

Example ex_failed_save : snd (save id_ord w_old 0 []) = Ok tt /\
  snd (save id_ord (exec_all w_old [OStoreGlobal 0 "s" (VOther 0)]) 0 files_old) = Err TypeError.
Proof. vm_compute. split; reflexivity. Qed.
Example ex_npz_suffix : let r := save id_ord (exec_all empty_world
   [ONew (Some "log.npz"); OStoreGlobal 0 "x" (VArr 7)]) 0 [] in
  snd r = Ok tt /\ snd (load empty_world (fst r) "log.npz" false true) = Err IOError.
Proof. vm_compute. split; reflexivity. Qed.
