(** * C141: the coefficients of a sample depend on the other samples only by the number of iterations. *)

From Coq Require Import List ZArith Reals Bool Arith Lia Lra.
Import ListNotations.
From Verif Require Import Py nd_model nd_spec nd_proof sparse_model nmf_model nmf_spec nmf_proof nmf_laws nmf_fit rowwise_proof rowwise_witness.
Local Open Scope R_scope.

(** A sample that is row [i] of [x] and row [i'] of [x'] gets the same coefficients from two
    calls of transform that make the same number of iterations, whatever the other rows, their
    number and the random numbers are. *)
Theorem C141_same_iterations : forall rnd rnd' (o : nmf) x x' weights weights' sw sw' n n' m c,
  proper x n m -> proper x' n' m -> is_sparse x' = is_sparse x ->
  nonneg (mvalue x) -> nonneg (mvalue x') -> components o = Some c -> shape c = [number o m; m] -> nonneg c -> (1 <= max_iter o)%Z ->
  forall o1 w errs b y o1' w' errs' b' y', transform rnd o x weights sw = (o1, Ok (w, errs, b, y)) ->
  transform rnd' o x' weights' sw' = (o1', Ok (w', errs', b', y')) -> length errs' = length errs ->
  forall i i', (i < n)%nat -> (i' < n')%nat -> (forall j, (j < m)%nat -> el (mvalue x') [i'; j] = el (mvalue x) [i; j]) ->
  forall l, (l < number o m)%nat -> el w' [i'; l] = el w [i; l].
Proof. exact transform_rows. Qed.

(** They are not the same in general: a sample alone, and the same sample before two samples
    that are zero, with which the iterations stop earlier. *)
Theorem C141_independent_refuted : exists (o : nmf) (c : nd) (x x' : nd), components o = Some c /\ shape c = [number o 2; 2]%nat /\ nonneg c /\
  shape x = [1; 2]%nat /\ shape x' = [3; 2]%nat /\ nonneg x /\ nonneg x' /\ 0 < tol o /\
  (forall j, (j < 2)%nat -> el x' [0%nat; j] = el x [0%nat; j]) /\
  forall rnd rnd' weights weights' sw sw', exists o1 w errs b y o1' w' errs' b' y',
    transform rnd o (Dense x) weights sw = (o1, Ok (w, errs, b, y)) /\
    transform rnd' o (Dense x') weights' sw' = (o1', Ok (w', errs', b', y')) /\
    88 / 100 <= el w [0; 0]%nat /\ el w' [0; 0]%nat <= 81 / 100.
Proof.
  exists early, two_atoms, (padded 0), (padded 2). split; [reflexivity|]. split; [reflexivity|]. split; [exact atoms_nonneg|].
  split; [reflexivity|]. split; [reflexivity|]. split; [apply padded_nonneg|]. split; [apply padded_nonneg|]. split; [cbn; lra|]. split; [reflexivity|].
  intros rnd rnd' weights weights' sw sw'.
  destruct (early_call rnd weights sw 0) as (o1 & w & errs & b & y & E & A & _).
  destruct (early_call rnd' weights' sw' 2) as (o1' & w' & errs' & b' & y' & E' & _ & A').
  exists o1, w, errs, b, y, o1', w', errs', b', y'. split; auto. split; auto. split; [apply A|apply A']; reflexivity.
Qed.
Print Assumptions C141_same_iterations.
Print Assumptions C141_independent_refuted.

(** One iteration only: the sample alone and before two others. *)
Definition once : nmf := Nmf (Some 2%nat) None (Some two_atoms) 0 1 (/ 100000000) 0.
Example once_same : forall rnd o1 w errs b y o1' w' errs' b' y',
  transform rnd once (Dense (padded 0)) 1 true = (o1, Ok (w, errs, b, y)) ->
  transform rnd once (Dense (padded 2)) 1 true = (o1', Ok (w', errs', b', y')) -> length errs' = length errs ->
  el w' [0; 1]%nat = el w [0; 1]%nat.
Proof.
  intros rnd o1 w errs b y o1' w' errs' b' y' E E' L.
  apply (C141_same_iterations rnd rnd once (Dense (padded 0)) (Dense (padded 2)) 1 1 true true 1 3 2 two_atoms (padded_shape 0) (padded_shape 2) eq_refl
    (padded_nonneg 0) (padded_nonneg 2) eq_refl eq_refl atoms_nonneg ltac:(cbn; lia) _ _ _ _ _ _ _ _ _ _ E E' L 0 0)%nat; try lia; [reflexivity|cbn; lia].
Qed.
(** Both calls succeed and make that iteration. *)
Example once_calls : forall rnd z, exists o1 w e b y, transform rnd once (Dense (padded z)) 1 true = (o1, Ok (w, [e], b, y)).
Proof.
  intros rnd z. unfold transform. cbn [components once].
  destruct (fit_transform_value rnd (set_init (Some two_atoms) once) (Dense (padded z)) 1 true false (S z) 2 (padded_shape z) (padded_nonneg z))
    as (o' & w & errs & b & y & w0 & h0 & h & E & _ & _ & _ & _ & Ne & Le & _).
  - intros d H. injection H as <-. reflexivity.
  - intros _. exists two_atoms. split; reflexivity.
  - cbn. lia.
  - destruct errs as [|e [|e' errs]]; [contradiction|eauto 6|cbn in Le; lia].
Qed.
