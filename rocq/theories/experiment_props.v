(** * C33, C34, C35, C37, C78: experiments of multimodal/experiment.py. *)

From Coq Require Import List ZArith Reals Bool Arith String Permutation Sorted Lia Lra.
Import ListNotations.
From Verif Require Import Py pairing_model pairing_spec evaluation_model utils_model utils_spec logger_model logger_spec nd_model nd_spec sparse_model nmf_spec nmf_laws
  learner_model learner_spec experiment_model experiment_spec experiment_proof experiment_coefs experiment_ready experiment_log experiment_keys experiment_end experiment_save.
From Coq Require Import QArith Qreals.
Notation Q := QArith_base.Q.
Local Open Scope nat_scope.
Notation length := List.length.

(** ** C33 *)

(** Examples and other samples together are all paired samples, without repetition;
    there is one example for each label; the rows of the matrices are those of the
    samples. *)
Theorem C33_rows : forall (rd : random) (x : experiment) (p : prepared), legal x rd -> prepare rd x = Ok p ->
  length (p_labels_all p) = kept_rows x (length (p_pairing p)) /\
  Permutation (p_examples p ++ p_others p) (seq 0 (kept_rows x (length (p_pairing p)))) /\ StronglySorted lt (p_others p) /\
  Forall2 (fun i l => nth_error (p_labels_all p) i = Some l) (p_examples p) (p_labels_ex p) /\
  Forall2 (fun i l => nth_error (p_labels_all p) i = Some l) (p_others p) (p_labels p) /\
  NoDup (p_labels_ex p) /\ (forall l, In l (p_labels_ex p) <-> In l (p_labels_all p)) /\
  forall m ld, nth_error (x_loaders x) m = Some ld -> exists y z, nth_error (p_data_ex p) m = Some y /\ nth_error (p_data p) m = Some z /\
    rows_from y (p_examples p) (kept_cols x (cols_of (ld_data ld))) (ld_data ld) (source p m) /\
    rows_from z (p_others p) (kept_cols x (cols_of (ld_data ld))) (ld_data ld) (source p m).
Proof. exact prepared_rows. Qed.
Print Assumptions C33_rows.

(** The row of each modality has the name that its modality gives to the label. *)
Theorem C33_aligned : forall (rd : random) (x : experiment) (p : prepared), legal x rd -> prepare rd x = Ok p ->
  forall (t lab m : nat) (ld : loader), nth_error (p_labels_all p) t = Some lab -> nth_error (x_loaders x) m = Some ld ->
  exists names s, nth_error (p_names p) m = Some names /\ nth_error names lab = Some s /\ nth_error (ld_labels ld) (source p m t) = Some s.
Proof. exact prepared_labels. Qed.
Print Assumptions C33_aligned.

(** No sample of the raw data is used twice. *)
Theorem C33_distinct : forall (rd : random) (x : experiment) (p : prepared), legal x rd -> prepare rd x = Ok p ->
  forall m t t' : nat, m < length (x_loaders x) -> t < length (p_pairing p) -> t' < length (p_pairing p) -> source p m t = source p m t' -> t = t'.
Proof. exact prepared_distinct. Qed.
Print Assumptions C33_distinct.

Theorem C33_succeeds : forall (rd : random) (x : experiment), sound x -> legal x rd -> enough x rd -> exists p, prepare rd x = Ok p.
Proof. exact prepare_succeeds. Qed.
Print Assumptions C33_succeeds.

(** ** C34 *)
Theorem C34_splits : forall (rd : random) (x : experiment) (f : option string) (p : prepared) (w : logger_model.world nd) (r : result unit),
  legal x rd -> prepare rd x = Ok p -> run_world rd x f = (w, r) ->
  (Z.of_nat (length (p_labels p)) <= 2 ^ 51)%Z -> match x_mode x with Ratio q => (0 < q <= 1)%Q | _ => True end ->
  (forall e, p_generator p = Err e -> r = Err e /\ runs_of w 0 = Some 0) /\
  (forall l, p_generator p = Ok l -> good_splits (x_mode x) (length (p_labels p)) l /\
  exists n, runs_of w 0 = Some n /\ n <= length l /\ (r = Ok tt -> n = length l) /\
    forall q, q < n -> exists tr te, nth_error l q = Some (tr, te) /\
       value_at w 0 q "train"%string = Some (VNats tr) /\ value_at w 0 q "test"%string = Some (VNats te)).
Proof. exact logged_splits. Qed.
Print Assumptions C34_splits.

(** ** C35 *)
Theorem C35_two_keys : forall mods : list string, NoDup mods -> (forall m, In m mods -> clean m) ->
  NoDup (["train"; "test"; "dictionary"]%string ++ two_keys mods).
Proof. exact two_keys_nodup. Qed.
Print Assumptions C35_two_keys.
Theorem C35_three_keys : forall mods : list string, NoDup mods -> (forall m, In m mods -> clean m) -> 3 <= length mods ->
  NoDup (["train"; "test"; "dictionary"]%string ++ three_keys mods).
Proof. exact three_keys_nodup. Qed.
Print Assumptions C35_three_keys.

(** A modality named 'bis', 'frob' or 'cosine': the first run raises ValueError. *)
Theorem C35_reserved_name : forall (rd : random) (x : experiment) (f : option string) (s : string), sound x -> legal x rd -> enough x rd ->
  x_kind x = Two -> In s (x_mods x) -> In s ["bis"; "frob"; "cosine"]%string ->
  exists w, run_world rd x f = (w, Err ValueError) /\ runs_of w 0 = Some 1.
Proof. exact reserved_name. Qed.
Print Assumptions C35_reserved_name.
Theorem C35_three_with_two : forall (rd : random) (x : experiment) (f : option string), sound x -> legal x rd -> enough x rd ->
  x_kind x = Three -> length (x_mods x) = 2 -> exists w, run_world rd x f = (w, Err ValueError) /\ runs_of w 0 = Some 1.
Proof. exact three_with_two. Qed.
Print Assumptions C35_three_with_two.

(** ** C37 *)
Theorem C37_balance : forall (x : experiment) (rd : random) (p : prepared), prepare rd x = Ok p ->
  (forall cs, x_coefs x = Some cs -> p_coefs p = map Q2R cs) /\
  (x_coefs x = None -> (forall ld, In ld (x_loaders x) -> exists n d, fits n d (ld_data ld)) -> length (p_coefs p) = length (x_loaders x) /\
     forall m ld c, nth_error (x_loaders x) m = Some ld -> nth_error (p_coefs p) m = Some c -> (mean_row_sum (ld_data ld) <> 0)%R ->
       mean_row_sum (mscale c (ld_data ld)) = 1%R).
Proof. exact coefs_balance. Qed.
Print Assumptions C37_balance.

(** ** C78 *)
Theorem C78_run : forall (rd : random) (x : experiment) (f : option string), sound x -> legal x rd -> enough x rd -> x_kind x <> Base ->
  (forall m, In m (x_mods x) -> clean m) -> (x_kind x = Three -> 3 <= length (x_mods x)) ->
  exists p splits w, prepare rd x = Ok p /\ p_generator p = Ok splits /\ splits <> [] /\ good_splits (x_mode x) (length (p_labels p)) splits /\
    run_world rd x f = (w, Ok tt) /\ runs_of w 0 = Some (length splits) /\
    forall q tr te, nth_error splits q = Some (tr, te) -> run_results x p tr te (value_at w 0 q).
Proof. exact run_succeeds. Qed.
Print Assumptions C78_run.

(** With a name of file the log is written and, loaded, has the same contents. *)
Theorem C78_saved : forall (ord : list string -> list string) (rd : random) (x : experiment) (path : string) (f : fs nd), enumerates ord -> sound x -> legal x rd -> enough x rd -> x_kind x <> Base ->
  (forall m, In m (x_mods x) -> clean m) -> (x_kind x = Three -> 3 <= length (x_mods x)) -> ~ has_suffix path ".npz" ->
  exists p splits w f', prepare rd x = Ok p /\ p_generator p = Ok splits /\ splits <> [] /\ run ord rd x (Some path) f = (w, f', Ok tt) /\
    (forall q tr te, nth_error splits q = Some (tr, te) -> run_results x p tr te (value_at w 0 q)) /\
    forall w2 sf, wf_world w2 -> exists w2' j, load w2 f' path sf true = (w2', Ok j) /\ same_contents w 0 w2' j.
Proof. exact run_saved. Qed.
Print Assumptions C78_saved.

(** ** Examples: two labels, two samples of each, in two modalities. *)
Local Open Scope R_scope.
Definition ex_a := Loader ["a"; "b"; "a"; "b"]%string (Dense (mat 2 [[1; 0]; [0; 1]; [2; 0]; [0; 2]])).
Definition ex_b := Loader ["d"; "d"; "c"; "c"]%string (Sparse (Csr 1 [[(0%nat, 3)]; []; []; [(0%nat, 1)]])).
Definition ex_x k names cs := Exp k names [ex_a; ex_b] 2 cs 10 10 false LeaveOneOut false.
Definition ex_rd := Random [["a"; "b"]; ["c"; "d"]]%string (fun _ _ l => l) [0; 1]%nat (fun l => l) (fun _ _ _ _ => 1) "" "".

Lemma ex_paired k names cs : associate_samples String.eqb (r_names ex_rd) (r_buckets ex_rd) (map ld_labels (x_loaders (ex_x k names cs))) =
  Ok ([["a"; "b"]; ["c"; "d"]]%string, [0; 0; 1; 1]%nat, [[0; 2]; [2; 3]; [1; 0]; [3; 1]]%nat).
Proof. reflexivity. Qed.
Lemma ex_distinct (a b : string) l : a <> b -> (forall s, In s l <-> s = a \/ s = b) -> distinct_labels [a; b] l.
Proof.
  intros N H. split; [constructor; [cbn; intuition congruence|repeat constructor; auto]|]. intro s. rewrite H. cbn. intuition congruence.
Qed.
Lemma ex_legal k names cs : legal (ex_x k names cs) ex_rd.
Proof.
  split; [|split; [|split]].
  - cbn. constructor; [|constructor; [|constructor]]; (apply ex_distinct; [discriminate|]; intro s; cbn; intuition congruence).
  - intros m i l. apply Permutation_refl.
  - intro l. apply Permutation_refl.
  - intros n l t E. rewrite ex_paired in E. injection E as <- <- <-. cbn. split; [repeat constructor; cbn; intuition congruence|]. intro v. cbn. intuition congruence.
Qed.
Lemma ex_nonneg_mat m rows : Forall (Forall (fun v => 0 <= v)) rows -> nonneg (mat m rows).
Proof.
  intros F. apply (nonneg2 (mat m rows) (List.length rows) m eq_refl). intros i j Hi Hj. cbn.
  rewrite Forall_forall in F. specialize (F (nth i rows []) (nth_In _ _ Hi)). rewrite Forall_forall in F.
  destruct (Nat.lt_ge_cases j (List.length (nth i rows []))) as [L|L]; [apply F; now apply nth_In|rewrite nth_overflow by auto; lra].
Qed.
Lemma ex_sound_x k a b cs : a <> b -> (cs = None \/ cs = Some [1; 2]%Q) -> sound (ex_x k [a; b] cs).
Proof.
  intros N C. unfold sound, ex_x. cbn [x_mods x_loaders x_coefs x_k x_iter_train x_iter_test].
  split; [constructor; [cbn; intuition congruence|repeat constructor; auto]|]. split; [discriminate|]. split; [reflexivity|]. split; [|split; [|split; [|split; [lia|split; lia]]]].
  - intros ld [<-|[<-|[]]]; cbn [ld_data ld_labels ex_a ex_b mvalue].
    + split; [exists 2%nat; reflexivity|]. apply ex_nonneg_mat. repeat constructor; lra.
    + split; [exists 1%nat; split; [reflexivity|]; repeat constructor|].
      apply (nonneg2 (toarray (Csr 1 [[(0%nat, 3)]; []; []; [(0%nat, 1)]])) 4 1 eq_refl). intros [|[|[|[|i]]]] [|j] Hi Hj; try lia; cbn; lra.
  - exists 2%nat. split; [lia|]. intros ld [<-|[<-|[]]]; [exists ["a"; "b"]%string|exists ["c"; "d"]%string]; (split; [apply ex_distinct; [discriminate|]; intro s; cbn; intuition congruence|reflexivity]).
  - destruct C as [->| ->].
    + intros ld [<-|[<-|[]]]; exists [0; 0]%nat; (split; [repeat constructor|cbn; lra]).
    + split; [reflexivity|]. repeat constructor; discriminate.
Qed.
Lemma ex_enough k names cs : enough (ex_x k names cs) ex_rd.
Proof. intros n l t E. rewrite ex_paired in E. injection E as <- <- <-. cbn. split; lia. Qed.

(** A successful run: two splits, and all results are there. *)
Example ex_run : exists p splits w, prepare ex_rd (ex_x Two ["sound"; "image"]%string None) = Ok p /\ p_generator p = Ok splits /\ length splits = 2%nat /\
  run_world ex_rd (ex_x Two ["sound"; "image"]%string None) None = (w, Ok tt) /\ runs_of w 0 = Some 2%nat /\
  exists v, value_at w 0 1 "score_sound2image"%string = Some (VFloat v) /\ (0 <= v <= 1)%Q.
Proof.
  destruct (C78_run ex_rd (ex_x Two ["sound"; "image"]%string None) None) as (p & splits & w & Ep & Eg & _ & (Hn & _) & Er & Hr & Hq).
  - apply ex_sound_x; [discriminate|now left].
  - apply ex_legal.
  - apply ex_enough.
  - discriminate.
  - intros m [<-|[<-|[]]]; unfold clean, lacks; cbn; intuition discriminate.
  - discriminate.
  - exists p, splits, w.
    assert (L : length (p_labels p) = 2%nat). { destruct (prepare_inv _ _ _ Ep) as [B]. rewrite (experiment_run.samples_length _ _ _ (ex_legal _ _ _) B).
      pose proof (pb_pair _ _ _ B) as Pa. rewrite ex_paired in Pa. assert (X : p_pairing p = [[0; 2]; [2; 3]; [1; 0]; [3; 1]]%nat) by congruence. rewrite X. reflexivity. }
    rewrite L in Hn. cbn in Hn. assert (Ls : length splits = 2%nat) by lia. rewrite Ls in Hr. repeat (split; auto).
    destruct (nth_error splits 1) as [[tr te]|] eqn:Es; [|apply nth_error_None in Es; lia].
    destruct (Hq 1%nat tr te Es) as (l & d & truth & _ & _ & _ & _ & _ & H). cbn [x_kind ex_x] in H.
    destruct (H 0%nat 1%nat None ""%string) as (a & b & found & v & _ & _ & _ & (q & -> & _ & Bq) & _ & V); cbn; auto. exists q. auto.
Qed.
Example ex_saved : exists w f', run (fun s => s) ex_rd (ex_x Two ["sound"; "image"]%string None) (Some "log"%string) [] = (w, f', Ok tt) /\
  exists w2 j, load empty_world f' "log" true true = (w2, Ok j) /\ same_contents w 0 w2 j.
Proof.
  destruct (C78_saved (fun s => s) ex_rd (ex_x Two ["sound"; "image"]%string None) "log"%string []) as (p & splits & w & f' & _ & _ & _ & Er & _ & H).
  - intros s k. reflexivity.
  - apply ex_sound_x; [discriminate|now left].
  - apply ex_legal.
  - apply ex_enough.
  - discriminate.
  - intros m [<-|[<-|[]]]; unfold clean, lacks; cbn; intuition discriminate.
  - discriminate.
  - intros (p & E). destruct p as [|a [|b [|c [|d p]]]]; discriminate E.
  - exists w, f'. split; [exact Er|]. apply H, logger_proof.empty_wf.
Qed.
(** Names that clash. *)
Example ex_frob : exists w, run_world ex_rd (ex_x Two ["sound"; "frob"]%string (Some [1; 2]%Q)) None = (w, Err ValueError).
Proof.
  destruct (C35_reserved_name ex_rd (ex_x Two ["sound"; "frob"]%string (Some [1; 2]%Q)) None "frob") as (w & E & _).
  - apply ex_sound_x; [discriminate|now right].
  - apply ex_legal.
  - apply ex_enough.
  - reflexivity.
  - cbn. auto.
  - cbn. auto.
  - eauto.
Qed.
Example ex_three : exists w, run_world ex_rd (ex_x Three ["sound"; "image"]%string None) None = (w, Err ValueError).
Proof.
  destruct (C35_three_with_two ex_rd (ex_x Three ["sound"; "image"]%string None) None) as (w & E & _).
  - apply ex_sound_x; [discriminate|now left].
  - apply ex_legal.
  - apply ex_enough.
  - reflexivity.
  - reflexivity.
  - eauto.
Qed.
