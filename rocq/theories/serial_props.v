(** * Properties of the serialization of experiments. *)

From Coq Require Import List ZArith Arith Bool QArith String Lia.
Import ListNotations.
From Verif Require Import Py logger_model logger_spec serial_model serial_spec serial_proof serial_keys.
Local Open Scope nat_scope.
Local Open Scope string_scope.

(** C36: an experiment over the three known datasets saved to a file and loaded
    from it comes back the same, and no other file is touched. *)
Theorem C36_file : forall (Arr : Type) ord fs (e : exper Arr) path,
  lists_sets ord -> serializable e ->
  exists fs' e', save_serialized_parameters ord fs e path = (fs', Ok tt) /\
    load_from_serialized fs' path = Ok e' /\ same_experiment e e' /\
    forall q, q <> path -> load_from_serialized fs' q = load_from_serialized fs q.
Proof. intros Arr. exact (@file_round_trip Arr). Qed.
Print Assumptions C36_file.

(** A file that is not there is not loaded. *)
Theorem C36_missing : forall (Arr : Type) (fs : files Arr) path, ~ In path (map fst fs) -> load_from_serialized fs path = Err IOError.
Proof.
  intros Arr fs path N. unfold load_from_serialized. destruct (dict_get String.eqb fs path) as [v|] eqn:E; [|reflexivity].
  exfalso. apply N. revert E. clear. induction fs as [|(q, w) fs IH]; cbn; [discriminate|]. destruct (String.eqb_spec q path) as [->|]; auto.
Qed.
Print Assumptions C36_missing.

(** Parameters made of None, booleans, numbers, strings and lists come back
    equal (the only other changes JSON makes are listed in [json_image]). *)
Theorem C36_equal : forall (Arr : Type) (e e' : exper Arr), same_experiment e e' ->
  (native (ex_k e) -> ex_k e' = ex_k e) /\
  (native (ex_coefs e) -> ex_coefs e' = ex_coefs e) /\
  (native (ex_iter_train e) -> ex_iter_train e' = ex_iter_train e) /\
  (native (ex_iter_test e) -> ex_iter_test e' = ex_iter_test e) /\
  (native (ex_shuffle_labels e) -> ex_shuffle_labels e' = ex_shuffle_labels e) /\
  (native (ex_run_mode e) -> ex_run_mode e' = ex_run_mode e) /\
  (native (ex_debug e) -> ex_debug e' = ex_debug e).
Proof. intros Arr. exact (@same_native Arr). Qed.
Print Assumptions C36_equal.

(** The experiments the constructor makes from a dictionary qualify. *)
Theorem C36_constructed : forall (Arr : Type) (ls : list (string * loader Arr)) k tr te co sh rm db,
  NoDup (map fst ls) -> (forall m l, In (m, l) ls -> known_loader l) ->
  native k -> native tr -> native te -> native co -> native sh -> native rm -> native db ->
  serializable (init ls k tr te co sh rm db) /\
  ex_modalities (init ls k tr te co sh rm db) = map fst ls.
Proof. intros Arr. exact (@constructed Arr). Qed.
Print Assumptions C36_constructed.

(** A loader class the experiment module does not know is written without
    complaint, and the file cannot be loaded. *)
Theorem C36_unknown_dataset : forall (Arr : Type) ord fs (e : exper Arr) path,
  lists_sets ord -> List.length (ex_loaders e) = List.length (ex_modalities e) ->
  (forall l, In l (ex_loaders e) -> known_loader l \/ foreign l) ->
  (exists l, In l (ex_loaders e) /\ foreign l) -> parameters_writable e ->
  exists fs', save_serialized_parameters ord fs e path = (fs', Ok tt) /\
    load_from_serialized fs' path = Err ValueError.
Proof. intros Arr. exact (@foreign_refused Arr). Qed.
Print Assumptions C36_unknown_dataset.

(** No other dataset has a loader, whatever its configuration. *)
Theorem C36_no_loader : forall (Arr : Type) (dataset conf : val Arr),
  (forall s, In s ["acorns"; "choreo2"; "objects"] -> dataset <> VStr s) -> get_loader dataset conf = Err ValueError.
Proof.
  intros Arr [] conf N; try reflexivity. unfold get_loader.
  destruct (String.eqb_spec s "acorns") as [-> |_]; [elim (N "acorns"); cbn; auto|].
  destruct (String.eqb_spec s "choreo2") as [-> |_]; [elim (N "choreo2"); cbn; auto|].
  destruct (String.eqb_spec s "objects") as [-> |_]; [elim (N "objects"); cbn; auto|]. reflexivity.
Qed.
Print Assumptions C36_no_loader.

(** Each loader in a file has to be a pair of a dataset and a configuration. *)
Theorem C36_not_pair : forall (Arr : Type) (fs : files Arr) path m ms l ls rest, List.length l <> 2 ->
  load_from_serialized ((path, Some (VDict ((KStr "modalities", VList (m :: ms)) :: (KStr "loaders", VList (VList l :: ls)) :: rest))) :: fs) path
  = Err ValueError.
Proof.
  intros Arr fs path m ms l ls rest N. unfold load_from_serialized. cbn [dict_get]. rewrite String.eqb_refl.
  destruct l as [|a [|b [|c l]]]; try reflexivity. contradiction.
Qed.
Print Assumptions C36_not_pair.

(** A file without one of these nine keys is not loaded. *)
Theorem C36_missing_key : forall (Arr : Type) (d : list (key * val Arr)) k,
  In k ["modalities"; "loaders"; "k"; "iter_train"; "iter_test"; "coefs"; "shuffle_labels"; "run_mode"; "debug"] ->
  ~ In (KStr k) (map fst d) ->
  (forall e, from_serialized (VDict d) <> Ok e) /\
  (In k ["modalities"; "loaders"] -> from_serialized (VDict d) = Err KeyError).
Proof. exact missing_key. Qed.
Print Assumptions C36_missing_key.

(** The numbers of samples a loader is given: the first one is kept, the same one is
    accepted afterwards and another one is not; what the loader saves is unchanged. *)
Theorem C36_n_samples : forall (Arr : Type) (l : loader Arr) n m, ld_n_samples l = None ->
  let '(l', r) := check_n_samples l n in
  r = Ok tt /\ ld_conf l' = ld_conf l /\ ld_n_samples l' = Some n /\
  check_n_samples l' n = (l', Ok tt) /\ (m <> n -> check_n_samples l' m = (l', Err AssertionError)).
Proof.
  intros Arr l n m E. unfold check_n_samples. rewrite E. cbn [ld_n_samples ld_conf]. repeat split.
  - rewrite Nat.eqb_refl. reflexivity.
  - intros N. destruct (Nat.eqb_spec n m); [congruence|reflexivity].
Qed.
Print Assumptions C36_n_samples.

(** A parameter JSON cannot write (an array of coefficients, for instance):
    TypeError, and whatever the destination held is lost. *)
Theorem C36_unwritable : forall (Arr : Type) ord fs (e : exper Arr) path v,
  In v [ex_k e; ex_coefs e; ex_iter_train e; ex_iter_test e; ex_shuffle_labels e;
        ex_run_mode e; ex_debug e] ->
  (exists a, v = VArr a) \/ (exists n, v = VOther n) ->
  exists fs', save_serialized_parameters ord fs e path = (fs', Err TypeError) /\
    load_from_serialized fs' path = Err BadFile.
Proof. intros Arr. exact (@unwritable_refused Arr). Qed.
Print Assumptions C36_unwritable.

(** ** Cases *)
Definition exp1 : exper nat :=
  init [("sound", Year1Loader (VInt 0)); ("image", ObjectsLoader (VTuple [VStr "surf"; VStr "color"]) ["cup"; "book"; "cup"]);
        ("motion", Choreo2Loader)]
    (VInt 50) (VInt 30) (VInt 20) VNone (VBool false) (VFloat (1#10)) (VBool true).
Example ex_order : lists_sets (@rev string).
Proof. intros s x. symmetry. apply in_rev. Qed.
Example ex_constructed : serializable exp1.
Proof.
  split; [cbn; repeat (constructor; [cbn; intuition discriminate|]); constructor|].
  split; [reflexivity|]. split.
  - intros l [<-|[<-|[<-|[]]]]; cbn.
    + eexists. constructor.
    + eexists. constructor. constructor; [constructor|]. constructor; [constructor|constructor].
    + exact I.
  - repeat split; eexists; constructor.
Qed.
Example ex_native : native (ex_coefs exp1) /\ native (VList [VFloat (Arr:=nat) (1#2); VFloat 1]).
Proof. split; constructor. intros x [<-|[<-|[]]]; constructor. Qed.
Example ex_round : exists e', load_from_serialized (fst (save_serialized_parameters (@rev string) [] exp1 "p")) "p" = Ok e' /\
  ex_modalities e' = ["sound"; "image"; "motion"] /\
  map ld_conf (ex_loaders e') = [LAcorns (VInt 0); LObjects (VList [VStr "surf"; VStr "color"]) ["book"; "cup"]; LChoreo2] /\
  ex_run_mode e' = VFloat (1#10).
Proof. eexists. vm_compute. repeat split. Qed.
Definition exp2 : exper nat :=
  init [("sound", Year1Loader (VInt 0)); ("mine", mkLoader (LUser "vctk" VNone) None)]
    (VInt 50) (VInt 30) (VInt 20) VNone (VBool false) (VFloat (1#10)) (VBool true).
Example ex_foreign : (forall l, In l (ex_loaders exp2) -> known_loader l \/ foreign l) /\
  (exists l, In l (ex_loaders exp2) /\ foreign l) /\ parameters_writable exp2.
Proof.
  assert (F : foreign (mkLoader (LUser (Arr:=nat) "vctk" VNone) None)).
  { cbn. repeat (split; [discriminate|]). eexists. constructor. }
  split; [|split].
  - intros l [<-|[<-|[]]]; [left; cbn; eexists; constructor|right; exact F].
  - eexists. split; [right; left; reflexivity|exact F].
  - repeat split; eexists; constructor.
Qed.
Example ex_unwritable : let e := init [("sound", Year1Loader (VInt 0))] (VInt 5) (VInt 5) (VInt 5)
    (VArr 7) (VBool false) (VStr "single") (VBool false) in
  snd (save_serialized_parameters (@rev string) [("p", Some (VDict []))] e "p") = Err TypeError.
Proof. reflexivity. Qed.
Example ex_missing : load_from_serialized [("q", Some (VDict (Arr:=nat) []))] "p" = Err IOError.
Proof. apply C36_missing. cbn. intros [H|[]]. discriminate. Qed.
Example ex_no_loader : get_loader (Arr:=nat) (VStr "vctk") (VInt 0) = Err ValueError /\ get_loader (Arr:=nat) VNone VNone = Err ValueError.
Proof. split; apply C36_no_loader; cbn; intros s [<-|[<-|[<-|[]]]]; discriminate. Qed.
Example ex_n_samples : let l := fst (check_n_samples (Choreo2Loader (Arr:=nat)) 5) in
  snd (check_n_samples l 5) = Ok tt /\ snd (check_n_samples l 6) = Err AssertionError.
Proof. split; reflexivity. Qed.
Example ex_not_pair : load_from_serialized [("p", Some (VDict (Arr:=nat) [(KStr "modalities", VList [VStr "sound"]); (KStr "loaders", VList [VList [VStr "acorns"]])]))] "p" = Err ValueError.
Proof. apply C36_not_pair. cbn. lia. Qed.
Example ex_missing_key : from_serialized (VDict (Arr:=nat) [(KStr "modalities", VList [])]) = Err KeyError.
Proof. apply (C36_missing_key nat _ "loaders"); cbn; auto. intros [H|[]]. discriminate. Qed.
