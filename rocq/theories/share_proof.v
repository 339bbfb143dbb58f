(** * Mass of reconstructed modalities: lemmas. *)

From Coq Require Import List ZArith Reals Bool Arith String Lia Lra.
Import ListNotations.
From Verif Require Import Py nd_model nd_spec nd_proof sparse_model nmf_model nmf_spec nmf_proof nmf_laws learner_model learner_spec learner_proof learner_more share_spec.
Local Open Scope R_scope.

Lemma assoc_nth {A} (a0 : A) m ms ds q : NoDup ms -> nth_error ms q = Some m -> List.length ds = List.length ms ->
  assoc a0 m (combine ms ds) = nth q ds a0.
Proof.
  revert ds q. induction ms as [|m' ms IH]; intros [|d ds] [|q] N E L; try discriminate; cbn in *.
  - injection E as ->. destruct (string_dec m m); [reflexivity|contradiction].
  - inversion N; subst. destruct (string_dec m m') as [->|_]; [|apply IH; auto].
    apply nth_error_In in E. contradiction.
Qed.
Lemma dim_nth l q m : well_formed l -> nth_error (mods l) q = Some m -> dim_of l m = nth q (dims l) 0%nat.
Proof. intros (N & D & _) E. unfold dim_of. now apply assoc_nth. Qed.
Lemma width_firstn l q : well_formed l -> (q <= List.length (mods l))%nat -> width l (firstn q (mods l)) = list_sum (firstn q (dims l)).
Proof.
  intros W. induction q as [|q IH]; intro L; [reflexivity|].
  pose proof W as (N & D & _).
  assert (A : forall {X} (x0 : X) (k : list X), (q < List.length k)%nat -> firstn (S q) k = (firstn q k ++ [nth q k x0])%list).
  { clear. intros X x0 k. revert q. induction k; intros [|q] H; cbn in *; try lia; auto. f_equal. apply IHk. lia. }
  rewrite (A _ ""%string) by lia. rewrite (A _ 0%nat) by lia. unfold width in *. rewrite map_app, !list_sum_app, IH by lia.
  cbn [map list_sum]. f_equal. cbn. f_equal. apply dim_nth; auto. apply nth_error_nth'. lia.
Qed.
Lemma weighted_le n (u v : nat -> R) S : (forall t, (t < n)%nat -> 0 <= u t) -> (forall t, (t < n)%nat -> v t <= S) ->
  sum_to n (fun t => u t * v t) <= S * sum_to n u.
Proof.
  intros U V. unfold sum_to. rewrite <- lsum_map_scal. apply lsum_le. intros t Ht. apply in_seq in Ht.
  rewrite (Rmult_comm S). apply Rmult_le_compat_l; [apply U|apply V]; lia.
Qed.

Section Mass.
Context (rnd : nat -> list nat -> R) (c : nat) (l : learner) (d : nd) (n : nat) (orig dest : string) (x : matrix) (it : Z).
Context (W : well_formed l) (T : trained l d) (Nd : nonneg d) (K : (1 <= lk l)%nat) (I : (1 <= it)%Z).
Context (Ho : In orig (mods l)) (q : nat) (Hq : nth_error (mods l) q = Some dest).
Context (Fx : fits n (dim_of l orig) x) (Hc : 0 <= coef_of l orig) (Nx : nonneg (mvalue x)).

Lemma reconstructed : exists w r, shape w = [n; lk l] /\ nonneg w /\
  (forall i, (i < n)%nat -> lsum (row w i) <= coef_of l orig * lsum (row (mvalue x) i) + INR (dim_of l orig) * / 100000000) /\
  modality_to_modality rnd c l orig dest x it = Ok r /\ shape r = [n; dim_of l dest] /\
  forall i, (i < n)%nat -> lsum (row r i) = sum_to (lk l) (fun t => el w [i; t] * share l d q t).
Proof using All.
  assert (Fo : Forall (fun m => In m (mods l)) [orig]) by (constructor; auto).
  assert (F2 : Forall2 (fun m x => fits n (dim_of l m) x) [orig] [x]) by (constructor; auto).
  assert (Co : forall m, In m [orig] -> 0 <= coef_of l m) by (intros m [<-|[]]; auto).
  assert (Nf : Forall (fun x => nonneg (mvalue x)) [x]) by (constructor; auto).
  assert (Hd : Forall (fun m => In m (mods l)) [dest]) by (constructor; auto; eapply nth_error_In; eauto).
  destruct (internal_value l W n [orig] [x] ltac:(discriminate) Fo F2 Co Nf d T Nd K rnd c it I) as (w & E & Sw & Nw & M).
  destruct (cross rnd c l d n [orig] [dest] [x] it W T Nd K I ltac:(discriminate) ltac:(discriminate) Fo Hd F2 Co Nf)
    as (w' & r & E' & _ & _ & Er & Sr & Nr & L).
  rewrite E in E'. injection E' as <-.
  destruct (modality_value l W d T n w Sw q dest Hq) as (rm & Em & Sm & Lm).
  destruct (L 0%nat dest eq_refl) as (rm' & Em' & L'). rewrite Em in Em'. injection Em' as <-.
  exists w, r. split; auto. split; auto. split; [|split; [exact Er|split]].
  - intros i Hi. specialize (M i Hi). cbn in M. unfold width in M. cbn in M. rewrite Nat.add_0_r, Rplus_0_r in M. exact M.
  - rewrite Sr. unfold width. cbn. now rewrite Nat.add_0_r.
  - intros i Hi. assert (Sr' : shape r = [n; dim_of l dest]) by (rewrite Sr; unfold width; cbn; now rewrite Nat.add_0_r).
    unfold row. rewrite Sr'. cbn [nth].
    rewrite (lsum_ext _ (fun j => sum_to (lk l) (fun t => el w [i; t] * el d [t; (list_sum (firstn q (dims l)) + j)%nat]))).
    + unfold sum_to. rewrite lsum_swap. apply lsum_ext. intros t Ht. rewrite lsum_map_scal. unfold share, sum_to.
      rewrite (dim_nth l q dest W Hq). reflexivity.
    + intros j Hj. apply in_seq in Hj. specialize (L' i j Hi ltac:(lia)). cbn [firstn width map list_sum] in L'.
      change (width l [] + j)%nat with j in L'. rewrite L', Lm.
      rewrite width_firstn; auto. apply Nat.lt_le_incl. apply nth_error_Some. congruence.
Qed.
Lemma reconstructed_mass S : 0 <= S -> (forall t, (t < lk l)%nat -> share l d q t <= S) ->
  exists r, modality_to_modality rnd c l orig dest x it = Ok r /\ shape r = [n; dim_of l dest] /\
  forall i, (i < n)%nat -> lsum (row r i) <= S * (coef_of l orig * lsum (row (mvalue x) i) + INR (dim_of l orig) * / 100000000).
Proof using All.
  intros HS B. destruct reconstructed as (w & r & Sw & Nw & M & E & Sr & L). exists r. split; auto. split; auto. intros i Hi.
  rewrite L by auto. apply Rle_trans with (S * sum_to (lk l) (fun t => el w [i; t])).
  - apply weighted_le; auto. intros t Ht. apply Nw. rewrite Sw. cbn. auto.
  - apply Rmult_le_compat_l; auto. specialize (M i Hi). unfold row in M. rewrite Sw in M. cbn [nth] in M. exact M.
Qed.
End Mass.
