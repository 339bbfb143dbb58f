(** * Scores computed from a matrix of distances. *)

From Coq Require Import List ZArith Arith Bool QArith Lia.
Import ListNotations.
From Verif Require Import Py evaluation_model evaluation_spec evaluation_proof.
Local Open Scope nat_scope.

Section Direct.
Context {L D : Type} (eqb : L -> L -> bool) (ltb : D -> D -> bool).
Hypothesis eqb_eq : forall x y, eqb x y = true <-> x = y.
Hypothesis order : strict_weak (fun x y => ltb x y = true).

(** [l] is the label of the first smallest element of the row. *)
Notation nearest := (nearest_label (fun x y => ltb x y = true)).

Lemma found_spec (d : dists D) (labels : list L) : 0 < d_cols d -> (forall row, In row (d_rows d) -> length row = d_cols d) -> d_cols d <= length labels ->
  exists found, dists_to_found_labels ltb d labels = Ok found /\ Forall2 (nearest labels) (d_rows d) found.
Proof.
  intros C R T. unfold dists_to_found_labels, argmin_rows. destruct (Nat.eqb_spec (d_cols d) 0) as [E|_]; [lia|].
  induction (d_rows d) as [|row rows IH]; cbn [mapM bind].
  - exists []. split; [reflexivity|constructor].
  - destruct (argmin_spec ltb order row) as (j & Ej & Hj). { intros ->. specialize (R [] (or_introl eq_refl)). cbn in R. lia. }
    destruct IH as (found & E & F). { intros r I. apply R. now right. }
    rewrite Ej. cbn [bind]. destruct (mapM (argmin ltb) rows) as [ms|e]; [|discriminate]. cbn [bind mapM] in E |- *.
    assert (exists l, nth_error labels j = Some l) as (l & Hl).
    { destruct Hj as (x & Hx & _). assert (j < length row) by (apply nth_error_Some; congruence). rewrite (R row (or_introl eq_refl)) in H.
      destruct (nth_error labels j) eqn:N; [eauto|]. apply nth_error_None in N. lia. }
    unfold lookup at 1. rewrite Hl. cbn [bind]. rewrite E. cbn [bind]. exists (l :: found). split; [reflexivity|].
    constructor; [|exact F]. exists j. auto.
Qed.
Lemma Forall2_len {A B} (R : A -> B -> Prop) l l' : Forall2 R l l' -> length l = length l'.
Proof. induction 1; cbn; congruence. Qed.

Lemma score_direct (d : dists D) (true_0 labels : list L) : 0 < d_cols d -> (forall row, In row (d_rows d) -> length row = d_cols d) ->
  d_cols d <= length labels -> length (d_rows d) = length true_0 -> true_0 <> [] ->
  exists found s, scores_from_dists eqb ltb d true_0 (Some labels) = Ok (Some s) /\
    Forall2 (nearest labels) (d_rows d) found /\
    (s == inject_Z (Z.of_nat (agreements eqb found true_0)) / inject_Z (Z.of_nat (length true_0)))%Q.
Proof.
  intros C R T N E. destruct (found_spec d labels C R T) as (found & F & FF).
  assert (LF : length found = length true_0) by (rewrite <- (Forall2_len _ _ _ FF); exact N).
  destruct (score_spec eqb true_0 found eqb_eq E LF) as (s & S & V & _).
  exists found, s. rewrite scores_from_dists_is_score, F. cbn [bind]. rewrite S. auto.
Qed.
Lemma score_same (d : dists D) (true_0 : list L) : d_cols d = length (d_rows d) -> scores_from_dists eqb ltb d true_0 None = scores_from_dists eqb ltb d true_0 (Some true_0).
Proof. intros H. rewrite !scores_from_dists_is_score. now rewrite H, Nat.eqb_refl. Qed.
Lemma score_not_square (d : dists D) (true_0 : list L) : d_cols d <> length (d_rows d) -> scores_from_dists eqb ltb d true_0 None = Err AssertionError.
Proof. intros H. rewrite scores_from_dists_is_score. destruct (Nat.eqb_spec (length (d_rows d)) (d_cols d)); congruence. Qed.
Lemma score_no_column (d : dists D) (true_0 labels : list L) : d_cols d = 0 -> scores_from_dists eqb ltb d true_0 (Some labels) = Err ValueError.
Proof. intros H. unfold scores_from_dists, argmin_rows. now rewrite H. Qed.
Lemma NN_direct {Row} (measure : Row -> Row -> D) reco test (true_labels labels : list L) :
  test <> [] -> length test = length labels -> length reco = length true_labels -> true_labels <> [] ->
  exists found s, evaluate_NN_label eqb ltb (fun r e => Ok (measure r e)) reco test true_labels labels = Ok (Some s) /\
    Forall2 (fun r l => nearest labels (map (measure r) test) l) reco found /\
    (s == inject_Z (Z.of_nat (agreements eqb found true_labels)) / inject_Z (Z.of_nat (length true_labels)))%Q.
Proof.
  intros T LT LR N. destruct (classify_NN_spec ltb order measure reco test labels T LT) as (found & F & FF).
  assert (LF : length found = length true_labels) by (rewrite <- (Forall2_len _ _ _ FF); exact LR).
  destruct (score_spec eqb true_labels found eqb_eq N LF) as (s & S & V & _).
  exists found, s. rewrite evaluate_NN_is_score, F. cbn [bind]. rewrite S. auto.
Qed.
End Direct.
