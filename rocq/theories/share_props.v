(** * C140: a reconstructed modality has only its dictionary's share of the mass. *)

From Coq Require Import List ZArith Reals Bool Arith String Lia Lra.
Import ListNotations.
From Verif Require Import Py nd_model nd_spec nd_proof sparse_model nmf_model nmf_spec nmf_proof nmf_laws learner_model learner_spec learner_proof learner_more share_spec share_proof share_train.
Local Open Scope R_scope.

(** Where the rows of the dictionary have at most [S] of their mass in a modality, so has its
    reconstruction from any modality, for any number of iterations. *)
Theorem C140_mass : forall rnd c (l : learner) (d : nd) (n : nat) (orig dest : string) (x : matrix) (it : Z),
  well_formed l -> trained l d -> nonneg d -> (1 <= lk l)%nat -> (1 <= it)%Z -> In orig (mods l) ->
  forall q, nth_error (mods l) q = Some dest ->
  fits n (dim_of l orig) x -> 0 <= coef_of l orig -> nonneg (mvalue x) ->
  forall S, 0 <= S -> (forall t, (t < lk l)%nat -> share l d q t <= S) ->
  exists r, modality_to_modality rnd c l orig dest x it = Ok r /\ shape r = [n; dim_of l dest] /\
  forall i, (i < n)%nat -> lsum (row r i) <= S * (coef_of l orig * lsum (row (mvalue x) i) + INR (dim_of l orig) * / 100000000).
Proof. intros. eapply reconstructed_mass; eauto. Qed.

(** After [train], no reconstruction of one modality from another has more mass than the data
    multiplied by the coefficient of their modality. *)
Theorem C140_trained : forall rnd c (l : learner) (n : nat) (data : list matrix) (it : Z), well_formed l -> sparseness l = false ->
  (1 <= lk l)%nat -> (1 <= it)%Z -> mods l <> [] -> Forall2 (fun m x => fits n (dim_of l m) x) (mods l) data ->
  (forall m, In m (mods l) -> 0 <= coef_of l m) -> Forall (fun x => nonneg (mvalue x)) data ->
  exists l', train rnd c l data it = (l', Ok tt) /\
  forall rnd' c' orig dest x it' k, In orig (mods l) -> In dest (mods l) -> fits k (dim_of l orig) x -> nonneg (mvalue x) -> (1 <= it')%Z ->
  exists r, modality_to_modality rnd' c' l' orig dest x it' = Ok r /\ shape r = [k; dim_of l dest] /\
  forall i, (i < k)%nat -> lsum (row r i) <= coef_of l orig * lsum (row (mvalue x) i) + INR (dim_of l orig) * / 100000000.
Proof. exact trained_mass. Qed.

(** ** Example: two modalities of one column, half of the dictionary each. *)
Definition half_d := mat 2 [[/ 2; / 2]].
Definition half_l := Learner ["sound"; "image"]%string [1; 1]%nat [1; 1] 1 false (Some half_d).
Definition half_x := Dense (mat 1 [[1]]).
Lemma half_wf : well_formed half_l.
Proof. unfold well_formed. cbn. repeat split; auto. constructor; [intros [H|[]]; discriminate|]. constructor; [tauto|constructor]. Qed.
Lemma half_nonneg : nonneg half_d.
Proof. apply (nonneg2 half_d 1 2 eq_refl). intros [|i] [|[|j]] Hi Hj; try lia; cbn; lra. Qed.
Lemma one_nonneg : nonneg (mvalue half_x).
Proof. apply (nonneg2 (mat 1 [[1]]) 1 1 eq_refl). intros [|i] [|j] Hi Hj; try lia; cbn; lra. Qed.
Lemma half_share t : (t < lk half_l)%nat -> share half_l half_d 0 t <= / 2.
Proof. destruct t as [|t]; cbn; intro H; [|lia]. unfold share, sum_to. cbn. lra. Qed.
Example half_mass : forall rnd c it, (1 <= it)%Z -> exists r, modality_to_modality rnd c half_l "sound" "sound" half_x it = Ok r /\
  shape r = [1; 1]%nat /\ el r [0; 0]%nat <= 51 / 100.
Proof.
  intros rnd c it I.
  destruct (C140_mass rnd c half_l half_d 1 "sound" "sound" half_x it half_wf (conj eq_refl eq_refl) half_nonneg (le_n 1) I
    (or_introl eq_refl) 0%nat eq_refl) with (S := / 2) as (r & E & Sr & L).
  - repeat constructor.
  - unfold coef_of. cbn. lra.
  - exact one_nonneg.
  - lra.
  - exact half_share.
  - exists r. split; auto. split; auto. specialize (L 0%nat (le_n 1)). unfold row in L. rewrite Sr in L. unfold coef_of in L. cbn in L. lra.
Qed.

(** Data that the dictionary of its modality can reconstruct exactly, with the coefficient 2,
    are not reconstructed from themselves: about half is lost, however many iterations. *)
Theorem C140_itself_refuted : exists (l : learner) (d : nd) (m : string) (x : matrix) (w : nd),
  well_formed l /\ trained l d /\ nonneg d /\ In m (mods l) /\ fits 1 (dim_of l m) x /\ nonneg (mvalue x) /\
  shape w = [1; lk l]%nat /\ nonneg w /\
  (exists y, reconstruct_modality l m w = Ok y /\ shape y = [1; 1]%nat /\ el y [0; 0]%nat = el (mvalue x) [0; 0]%nat) /\
  el (mvalue x) [0; 0]%nat = 1 /\
  forall rnd c it, (1 <= it)%Z -> exists r, modality_to_modality rnd c l m m x it = Ok r /\
    shape r = [1; 1]%nat /\ el r [0; 0]%nat <= 51 / 100.
Proof.
  exists half_l, half_d, "sound"%string, half_x, (mat 1 [[2]]).
  split; [exact half_wf|]. split; [split; reflexivity|]. split; [exact half_nonneg|]. split; [now left|]. split; [repeat constructor|].
  split; [exact one_nonneg|]. split; [reflexivity|]. split.
  { apply (nonneg2 (mat 1 [[2]]) 1 1 eq_refl). intros [|i] [|j] Hi Hj; try lia; cbn; lra. }
  split; [|split; [reflexivity|exact half_mass]].
  destruct (modality_value half_l half_wf half_d (conj eq_refl eq_refl) 1 (mat 1 [[2]]) eq_refl 0 "sound"%string eq_refl) as (y & E & Sy & L).
  exists y. split; auto. split; [exact Sy|]. rewrite L. cbn. lra.
Qed.
Print Assumptions C140_mass.
Print Assumptions C140_trained.
Print Assumptions C140_itself_refuted.

(** The same learner, trained on one sample and used to reconstruct the image from the sound. *)
Example half_trained : forall rnd c, exists l', train rnd c half_l [half_x; half_x] 50 = (l', Ok tt) /\
  exists r, modality_to_modality rnd c l' "sound" "image" half_x 10 = Ok r /\ shape r = [1; 1]%nat /\ el r [0; 0]%nat <= 101 / 100.
Proof.
  intros rnd c. destruct (C140_trained rnd c half_l 1 [half_x; half_x] 50 half_wf eq_refl (le_n 1) ltac:(lia) ltac:(discriminate)) as (l' & E & R).
  - repeat constructor.
  - intros m [<-|[<-|[]]]; unfold coef_of; cbn; lra.
  - apply Forall_cons; [exact one_nonneg|]. apply Forall_cons; [exact one_nonneg|apply Forall_nil].
  - exists l'. split; [exact E|]. destruct (R rnd c "sound" "image" half_x 10%Z 1%nat)%string as (r & Er & Sr & L); try lia;
      [now left|right; now left|repeat constructor|exact one_nonneg|].
    exists r. split; [exact Er|]. split; [exact Sr|]. specialize (L 0%nat (le_n 1)). unfold row in L. rewrite Sr in L. unfold coef_of in L. cbn in L. lra.
Qed.
