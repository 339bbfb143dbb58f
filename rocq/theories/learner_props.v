(** * C38, C39, C75, C77: the learner of multimodal/learner.py. *)

From Coq Require Import List ZArith Reals Bool Arith String Lia Lra.
Import ListNotations.
From Verif Require Import Py nd_model nd_spec sparse_model nmf_model nmf_spec nmf_laws learner_model learner_spec learner_proof learner_more learner_refuse.
Local Open Scope R_scope.

(** ** C38 *)
Theorem C38_range : forall (l : learner), well_formed l -> forall (q : nat) (m : string), nth_error (mods l) q = Some m ->
  get_axis_range l m = Ok (width l (firstn q (mods l)), (width l (firstn q (mods l)) + dim_of l m)%nat).
Proof. exact axis_range. Qed.
Print Assumptions C38_range.

(** Each column lies in the range of exactly one modality. *)
Theorem C38_partition : forall (l : learner), well_formed l -> forall j : nat, (j < list_sum (dims l))%nat ->
  exists m, (In m (mods l) /\ exists a b, get_axis_range l m = Ok (a, b) /\ (a <= j < b)%nat) /\
    forall m', In m' (mods l) -> forall a b, get_axis_range l m' = Ok (a, b) -> (a <= j < b)%nat -> m' = m.
Proof. exact ranges_partition. Qed.
Print Assumptions C38_partition.

(** Stacked data of any known modalities, in any order; it is sparse when one
    of the matrices is. *)
Theorem C38_stack : forall (l : learner), well_formed l -> forall (n : nat) (ms : list string) (data : list matrix), ms <> [] ->
  Forall (fun m => In m (mods l)) ms -> Forall2 (fun m x => fits n (dim_of l m) x) ms data ->
  exists x, stack_data l ms data = Ok x /\ proper x n (width l ms) /\ is_sparse_matrix x = existsb is_sparse_matrix data /\
    forall p m d, nth_error ms p = Some m -> nth_error data p = Some d ->
      forall i j, (i < n)%nat -> (j < dim_of l m)%nat ->
        el (mvalue x) [i; (width l (firstn p ms) + j)%nat] = coef_of l m * el (mvalue d) [i; j].
Proof. exact stack_value. Qed.
Print Assumptions C38_stack.

Theorem C38_slice_back : forall (l : learner) (n : nat) (data : list matrix) (q : nat) (m : string) (x d : matrix), well_formed l -> mods l <> [] ->
  Forall2 (fun m x => fits n (dim_of l m) x) (mods l) data ->
  nth_error (mods l) q = Some m -> nth_error data q = Some d -> stack_data l (mods l) data = Ok x ->
  exists a b, get_axis_range l m = Ok (a, b) /\ (b - a = dim_of l m)%nat /\
    forall i j, (i < n)%nat -> (a <= j < b)%nat -> el (mvalue x) [i; j] = coef_of l m * el (mvalue d) [i; (j - a)%nat].
Proof. exact slice_back. Qed.
Print Assumptions C38_slice_back.

Theorem C38_stacked_dicos : forall (l : learner), well_formed l -> forall (d : nd), trained l d -> forall (ms : list string), ms <> [] ->
  Forall (fun m => In m (mods l)) ms ->
  exists a, get_stacked_dicos l ms = Ok (Dense a) /\ shape a = [lk l; width l ms] /\
    forall p m q, nth_error ms p = Some m -> nth_error (mods l) q = Some m ->
      forall i j, (i < lk l)%nat -> (j < dim_of l m)%nat ->
        el a [i; (width l (firstn p ms) + j)%nat] = el d [i; (width l (firstn q (mods l)) + j)%nat].
Proof. exact stacked_dicos_value. Qed.
Print Assumptions C38_stacked_dicos.

Theorem C38_all_dicos : forall (l : learner), well_formed l -> forall (d : nd), trained l d -> mods l <> [] ->
  exists a, get_stacked_dicos l (mods l) = Ok (Dense a) /\ shape a = shape d /\
    forall i j, (i < lk l)%nat -> (j < width l (mods l))%nat -> el a [i; j] = el d [i; j].
Proof. exact all_dicos. Qed.
Print Assumptions C38_all_dicos.

Theorem C38_unknown : forall (l : learner) (m : string), ~ In m (mods l) ->
  get_index l m = Err ValueError /\ get_axis_range l m = Err ValueError /\ get_dico l m = Err ValueError.
Proof. exact unknown_modality. Qed.
Print Assumptions C38_unknown.
(** Data with different numbers of samples are not stacked, in whatever order, dense or sparse;
    nor is nothing at all. *)
Theorem C38_stack_rows : forall (l : learner) (ms : list string) (data : list matrix) n n' d d' a b, well_formed l ->
  Forall (fun m => In m (mods l)) ms -> List.length data = List.length ms ->
  In a data -> In b data -> fits n d a -> fits n' d' b -> n <> n' -> stack_data l ms data = Err ValueError.
Proof. exact stack_rows. Qed.
Print Assumptions C38_stack_rows.
Theorem C38_stack_none : forall (l : learner) (data : list matrix), stack_data l [] data = Err ValueError /\ get_stacked_dicos l [] = Err ValueError.
Proof. exact stack_none. Qed.
Print Assumptions C38_stack_none.
Theorem C38_unknown_stack : forall (l : learner) (ms : list string) (data : list matrix),
  (exists m, In m ms /\ ~ In m (mods l)) -> well_formed l -> stack_data l ms data = Err ValueError.
Proof. exact stack_unknown. Qed.
Print Assumptions C38_unknown_stack.
Theorem C38_unknown_dicos : forall (l : learner) (d : nd) (ms : list string), trained l d ->
  (exists m, In m ms /\ ~ In m (mods l)) -> well_formed l -> get_stacked_dicos l ms = Err ValueError.
Proof. exact dicos_unknown. Qed.
Print Assumptions C38_unknown_dicos.

(** ** C39 *)
Theorem C39_composition : forall rnd c (l : learner) (orig dest : list string) (data : list matrix) (it : Z) (r : nd),
  modalities_to_modalities rnd c l orig dest data it = Ok r <->
  exists w, reconstruct_internal_multi rnd c l orig data it = Ok w /\ reconstruct_modalities l dest w = Ok r.
Proof. exact compose. Qed.
Print Assumptions C39_composition.

Theorem C39_cross_modal : forall rnd c (l : learner) (d : nd) (n : nat) (orig dest : list string) (data : list matrix) (it : Z),
  well_formed l -> trained l d -> nonneg d -> (1 <= lk l)%nat -> (1 <= it)%Z ->
  orig <> [] -> dest <> [] -> Forall (fun m => In m (mods l)) orig -> Forall (fun m => In m (mods l)) dest ->
  Forall2 (fun m x => fits n (dim_of l m) x) orig data ->
  (forall m, In m orig -> 0 <= coef_of l m) -> Forall (fun x => nonneg (mvalue x)) data ->
  exists w r, reconstruct_internal_multi rnd c l orig data it = Ok w /\ shape w = [n; lk l] /\ nonneg w /\
    modalities_to_modalities rnd c l orig dest data it = Ok r /\ shape r = [n; width l dest] /\ nonneg r /\
    forall p m, nth_error dest p = Some m -> exists rm, reconstruct_modality l m w = Ok rm /\
      forall i j, (i < n)%nat -> (j < dim_of l m)%nat -> el r [i; (width l (firstn p dest) + j)%nat] = el rm [i; j].
Proof. exact cross. Qed.
Print Assumptions C39_cross_modal.

(** The reconstruction of one modality: coefficients times its part of the
    dictionary. *)
Theorem C39_modality : forall (l : learner), well_formed l -> forall (d : nd), trained l d -> forall (n : nat) (w : nd), shape w = [n; lk l] ->
  forall (q : nat) (m : string), nth_error (mods l) q = Some m ->
  exists r, reconstruct_modality l m w = Ok r /\ shape r = [n; dim_of l m] /\
    forall i j, el r [i; j] = sum_to (lk l) (fun t => el w [i; t] * el d [t; (width l (firstn q (mods l)) + j)%nat]).
Proof. exact modality_value. Qed.
Print Assumptions C39_modality.

Theorem C39_wrong_columns : forall rnd c (l : learner) (ms : list string) (data : list matrix) (it : Z), well_formed l ->
  Forall (fun m => In m (mods l)) ms -> List.length data = List.length ms -> Forall (fun x => List.length (mshape x) = 2%nat) data ->
  (exists m x, In (m, x) (combine ms data) /\ cols_of x <> dim_of l m) ->
  reconstruct_internal_multi rnd c l ms data it = Err AssertionError.
Proof. exact internal_bad. Qed.
Print Assumptions C39_wrong_columns.

(** ** C75 for the learner: the internal coefficients of a sample sum to no more
    than its weighted data. *)
Theorem C75_internal : forall (l : learner), well_formed l -> forall (n : nat) (ms : list string) (data : list matrix), ms <> [] ->
  Forall (fun m => In m (mods l)) ms -> Forall2 (fun m x => fits n (dim_of l m) x) ms data ->
  (forall m, In m ms -> 0 <= coef_of l m) -> Forall (fun x => nonneg (mvalue x)) data ->
  forall d, trained l d -> nonneg d -> (1 <= lk l)%nat -> forall rnd c it, (1 <= it)%Z ->
  exists w, reconstruct_internal_multi rnd c l ms data it = Ok w /\ shape w = [n; lk l] /\ nonneg w /\
    forall i, (i < n)%nat -> lsum (row w i) <=
      lsum (map (fun p => coef_of l (fst p) * lsum (row (mvalue (snd p)) i)) (combine ms data)) + INR (width l ms) * / 100000000.
Proof. exact internal_value. Qed.
Print Assumptions C75_internal.

(** ** C77: training. *)
Theorem C77_train : forall rnd c (l : learner) (n : nat) (data : list matrix) (it : Z), well_formed l -> sparseness l = false ->
  (1 <= lk l)%nat -> (1 <= it)%Z -> mods l <> [] -> Forall2 (fun m x => fits n (dim_of l m) x) (mods l) data ->
  (forall m, In m (mods l) -> 0 <= coef_of l m) -> Forall (fun x => nonneg (mvalue x)) data ->
  exists l' d, train rnd c l data it = (l', Ok tt) /\ well_formed l' /\ mods l' = mods l /\ dims l' = dims l /\ coefs l' = coefs l /\ lk l' = lk l /\
    trained l' d /\ nonneg d /\
    forall t, (t < lk l)%nat -> exists s, 0 <= s /\ lsum (row d t) = s / (s + / 10000000000000000) /\ 0 <= lsum (row d t) < 1 /\
      (s = 0 -> forall j, (j < width l (mods l))%nat -> el d [t; j] = 0).
Proof. exact train_all. Qed.
Print Assumptions C77_train.
Theorem C77_wrong_shape : forall rnd c (l : learner) (x : matrix) (data : list matrix) (it : Z),
  (exists p, In p (combine (x :: data) (dims l)) /\ mshape (fst p) <> [rows_of x; snd p]) ->
  train rnd c l (x :: data) it = (l, Err AssertionError).
Proof. exact train_bad_shape. Qed.
Print Assumptions C77_wrong_shape.
(** A missing matrix is not noticed: the dictionary gets too few columns. *)
Theorem C77_missing_matrix_refuted : forall rnd c, exists l x l' d, well_formed l /\ List.length (mods l) = 2%nat /\ fits 1 1 x /\
  train rnd c l [x] 1 = (l', Ok tt) /\ dico l' = Some d /\ shape d = [1; 1]%nat /\ width l (mods l) = 3%nat.
Proof. exact train_missing. Qed.
Print Assumptions C77_missing_matrix_refuted.

(** ** Examples: two modalities, one of them sparse. *)
Definition ex_l := Learner ["sound"; "image"]%string [2; 1]%nat [1; / 2] 2 false (Some (mat 3 [[/ 2; 0; / 2]; [0; 1; 0]])).
Definition ex_sound := Dense (mat 2 [[1; 2]; [0; 1]]).
Definition ex_image := Sparse (Csr 1 [[(0%nat, 3)]; []]).
Lemma ex_wf : well_formed ex_l.
Proof. unfold well_formed. cbn. repeat split; auto. constructor; [intros [H|[]]; discriminate|]. constructor; [tauto|constructor]. Qed.
Lemma ex_fits : Forall2 (fun m x => fits 2 (dim_of ex_l m) x) (mods ex_l) [ex_sound; ex_image].
Proof. repeat constructor. Qed.
Lemma ex_trained : trained ex_l (mat 3 [[/ 2; 0; / 2]; [0; 1; 0]]).
Proof. split; reflexivity. Qed.
Lemma ex_nonneg m rows : Forall (Forall (fun v => 0 <= v)) rows -> nonneg (mat m rows).
Proof.
  intros F. apply (nonneg2 (mat m rows) (List.length rows) m eq_refl). intros i j Hi Hj. cbn.
  rewrite Forall_forall in F. specialize (F (nth i rows []) (nth_In _ _ Hi)). rewrite Forall_forall in F.
  destruct (Nat.lt_ge_cases j (List.length (nth i rows []))) as [L|L]; [apply F; now apply nth_In|rewrite nth_overflow by auto; lra].
Qed.
Lemma ex_data_nonneg : Forall (fun x => nonneg (mvalue x)) [ex_sound; ex_image].
Proof.
  constructor; [|constructor; [|constructor]].
  - apply ex_nonneg. repeat constructor; lra.
  - cbn. apply (nonneg2 (toarray (Csr 1 [[(0%nat, 3)]; []])) 2 1 eq_refl). intros [|[|i]] [|j] Hi Hj; try lia; cbn; lra.
Qed.
Lemma ex_coefs m : In m (mods ex_l) -> 0 <= coef_of ex_l m.
Proof. cbn. unfold coef_of. intros [<-|[<-|[]]]; cbn; lra. Qed.
Example ex_stack : exists x, stack_data ex_l (mods ex_l) [ex_sound; ex_image] = Ok x /\ proper x 2 3 /\ is_sparse_matrix x = true /\
  el (mvalue x) [0; 2]%nat = 3 / 2 /\ get_axis_range ex_l "image" = Ok (2, 3)%nat.
Proof.
  destruct (C38_stack ex_l ex_wf 2 (mods ex_l) [ex_sound; ex_image]) as (x & E & P & S & L); [discriminate|apply Forall_forall; auto|apply ex_fits|].
  exists x. split; auto. split; auto. split; auto. split; [|reflexivity].
  specialize (L 1%nat "image"%string ex_image eq_refl eq_refl 0%nat 0%nat ltac:(lia) ltac:(cbn; lia)). cbn [firstn mods ex_l] in L.
  change (el (mvalue x) [0; 2]%nat = coef_of ex_l "image" * el (mvalue ex_image) [0; 0]%nat) in L. rewrite L. unfold coef_of. cbn. lra.
Qed.
Example ex_cross : forall rnd c, exists r, modalities_to_modalities rnd c ex_l ["sound"%string] ["image"%string] [ex_sound] 10 = Ok r /\ shape r = [2; 1]%nat /\ nonneg r.
Proof.
  intros rnd c. destruct (C39_cross_modal rnd c ex_l _ 2 ["sound"%string] ["image"%string] [ex_sound] 10 ex_wf ex_trained) as (w & r & _ & _ & _ & E & S & N & _);
    try discriminate; try lia.
  - apply ex_nonneg. repeat constructor; lra.
  - cbn. lia.
  - repeat constructor.
  - constructor; [right; now left|constructor].
  - repeat constructor.
  - intros m [<-|[]]. apply ex_coefs. now left.
  - constructor; [|constructor]. pose proof ex_data_nonneg as X. now inversion X.
  - exists r. auto.
Qed.
Example ex_train : forall rnd c, exists l' d, train rnd c ex_l [ex_sound; ex_image] 50 = (l', Ok tt) /\ trained l' d /\ shape d = [2; 3]%nat /\ nonneg d.
Proof.
  intros rnd c. destruct (C77_train rnd c ex_l 2 [ex_sound; ex_image] 50 ex_wf eq_refl) as (l' & d & E & _ & A1 & A2 & _ & A4 & T & N & _);
    try lia; auto using ex_fits, ex_data_nonneg, ex_coefs; try discriminate.
  - cbn. lia.
  - exists l', d. split; auto. split; auto. split; auto. destruct T as [_ ->]. unfold width, dim_of. rewrite A1, A2, A4. reflexivity.
Qed.
Example ex_wrong : forall rnd c, reconstruct_internal_multi rnd c ex_l ["image"%string] [ex_sound] 10 = Err AssertionError.
Proof.
  intros. apply C39_wrong_columns.
  - exact ex_wf.
  - constructor; [right; now left|constructor].
  - reflexivity.
  - constructor; [reflexivity|constructor].
  - exists "image"%string, ex_sound. split; [now left|]. cbn. discriminate.
Qed.
Example ex_stack_rows : stack_data ex_l (mods ex_l) [ex_sound; Dense (mat 1 [[1]; [2]; [3]])] = Err ValueError.
Proof.
  apply (C38_stack_rows ex_l (mods ex_l) _ 2 3 2 1 ex_sound (Dense (mat 1 [[1]; [2]; [3]])) ex_wf); try reflexivity;
    [apply Forall_forall; auto|now left|right; now left|discriminate].
Qed.
