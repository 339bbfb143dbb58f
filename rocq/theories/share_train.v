(** * Mass of modalities reconstructed by a learner that [train] has trained: lemmas. *)

From Coq Require Import List ZArith Reals Bool Arith String Lia Lra.
Import ListNotations.
From Verif Require Import Py nd_model nd_spec nd_proof sparse_model nmf_model nmf_spec nmf_proof nmf_laws learner_model learner_spec learner_proof learner_more share_spec share_proof.
Local Open Scope R_scope.

Lemma lsum_seq_part f a b N : (a + b <= N)%nat -> (forall j, (j < N)%nat -> 0 <= f j) ->
  lsum (map (fun j => f (a + j)%nat) (seq 0 b)) <= lsum (map f (seq 0 N)).
Proof.
  intros L P. replace N with (a + (b + (N - a - b)))%nat by lia. rewrite !seq_app, !map_app, !lsum_app.
  assert (G : forall s n, (s + n <= N)%nat -> 0 <= lsum (map f (seq s n))).
  { clear - P. intros s n. revert s. induction n as [|n IH]; intros s H; cbn; [lra|]. specialize (IH (S s) ltac:(lia)). specialize (P s ltac:(lia)). lra. }
  pose proof (G 0%nat a ltac:(lia)). pose proof (G (a + b)%nat (N - a - b)%nat ltac:(lia)).
  assert (E : map f (seq a b) = map (fun j => f (a + j)%nat) (seq 0 b)).
  { clear. assert (Q : forall s, map f (seq (a + s) b) = map (fun j => f (a + j)%nat) (seq s b)).
    { induction b as [|b IH]; intro s; cbn; [reflexivity|]. f_equal. rewrite <- IH. f_equal. f_equal. lia. }
    rewrite <- (Q 0%nat), Nat.add_0_r. reflexivity. }
  cbn [Nat.add]. rewrite E. cbn [Nat.add] in *. lra.
Qed.
Lemma share_row l d q m t : well_formed l -> trained l d -> nonneg d -> nth_error (mods l) q = Some m -> (t < lk l)%nat ->
  share l d q t <= lsum (row d t).
Proof.
  intros W (_ & Sd) N E Ht. unfold row. rewrite Sd. cbn [nth]. unfold share, sum_to.
  apply (lsum_seq_part (fun j => el d [t; j])).
  - pose proof W as (_ & D & _). assert (Q : (q < List.length (mods l))%nat) by (apply nth_error_Some; congruence).
    rewrite <- (firstn_all (mods l)), width_firstn by auto. rewrite <- D, firstn_all.
    rewrite <- (firstn_skipn q (dims l)) at 3. rewrite list_sum_app. apply Nat.add_le_mono_l.
    rewrite <- (firstn_skipn q (dims l)) at 1. rewrite app_nth2 by (rewrite firstn_length; lia). rewrite firstn_length, Nat.min_l by lia.
    rewrite Nat.sub_diag. destruct (skipn q (dims l)); cbn; lia.
  - intros j Hj. apply N. rewrite Sd. cbn. auto.
Qed.
Lemma trained_mass rnd c (l : learner) (n : nat) (data : list matrix) (it : Z) : well_formed l -> sparseness l = false ->
  (1 <= lk l)%nat -> (1 <= it)%Z -> mods l <> [] -> Forall2 (fun m x => fits n (dim_of l m) x) (mods l) data ->
  (forall m, In m (mods l) -> 0 <= coef_of l m) -> Forall (fun x => nonneg (mvalue x)) data ->
  exists l', train rnd c l data it = (l', Ok tt) /\
  forall rnd' c' orig dest x it' k, In orig (mods l) -> In dest (mods l) -> fits k (dim_of l orig) x -> nonneg (mvalue x) -> (1 <= it')%Z ->
  exists r, modality_to_modality rnd' c' l' orig dest x it' = Ok r /\ shape r = [k; dim_of l dest] /\
  forall i, (i < k)%nat -> lsum (row r i) <= coef_of l orig * lsum (row (mvalue x) i) + INR (dim_of l orig) * / 100000000.
Proof.
  intros W Sp K I M F C N. destruct (train_all rnd c l n data it W Sp K I M F C N) as (l' & d & E & W' & Em & Ed & Ec & Ek & T & Nd & L).
  exists l'. split; [exact E|]. intros rnd' c' orig dest x it' k Ho Hd Fx Nx I'.
  assert (D : forall m, dim_of l' m = dim_of l m) by (intro; unfold dim_of; now rewrite Em, Ed).
  assert (Co : forall m, coef_of l' m = coef_of l m) by (intro; unfold coef_of; now rewrite Em, Ec).
  destruct (In_nth_error _ _ Hd) as [q Hq].
  destruct (reconstructed_mass rnd' c' l' d k orig dest x it' W' T Nd ltac:(lia) I' ltac:(now rewrite Em) q ltac:(now rewrite Em)
    ltac:(now rewrite D) ltac:(rewrite Co; auto) Nx 1 ltac:(lra)) as (r & Er & Sr & Lr).
  - intros t Ht. rewrite Ek in Ht. destruct (L t Ht) as (s & _ & _ & B & _).
    pose proof (share_row l' d q dest t W' T Nd ltac:(now rewrite Em) ltac:(lia)). lra.
  - exists r. rewrite D in *. split; auto. split; auto. intros i Hi. specialize (Lr i Hi). rewrite Co, ?D in Lr. lra.
Qed.
