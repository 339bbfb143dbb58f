(** * Proofs on nested lists and on the scores of label vectors. *)

From Coq Require Import List ZArith Arith Bool QArith Lia.
Import ListNotations.
From Verif Require Import Py Py_proof utils_model utils_spec evaluation_model evaluation_spec evaluation_proof levels_spec.
Local Open Scope nat_scope.

Lemma changed_all_F2 {A} (R : nested A -> nested A -> Prop) k xs ys :
  changed_all R k xs ys <-> Forall2 (changed R k) xs ys.
Proof. split; induction 1; constructor; auto. Qed.

Lemma meta_map_changed {A} k f : forall x y : nested A,
  meta_map k f x = Ok y <-> changed (fun a b => b = f a) k x y.
Proof.
  induction k as [|k IH]; intros x y; cbn [meta_map].
  - split; [intros [= <-]; constructor; reflexivity|]. intros H. inversion H. subst. reflexivity.
  - destruct x as [a|xs]; cbn [children bind].
    + split; [discriminate|]. intros H. inversion H.
    + destruct (mapM (meta_map k f) xs) as [ys|e] eqn:E; cbn [bind].
      * apply mapM_ok in E. assert (F : Forall2 (changed (fun a b => b = f a) k) xs ys).
        { clear y. induction E as [|x0 y0 l l' H H' IH']; constructor; [apply IH; exact H|exact IH']. }
        split.
        -- intros [= <-]. constructor. apply changed_all_F2. exact F.
        -- intros H. inversion H as [|k0 xs0 zs G]; subst. apply changed_all_F2 in G. f_equal. f_equal.
           clear H. revert zs G. induction E as [|x0 y0 l l' H H' IH']; intros zs G; inversion G as [|? z ? zs' G1 G2]; subst; [reflexivity|].
           apply IH in G1. rewrite H in G1. injection G1 as ->. f_equal. inversion F; subst. apply IH'; assumption.
      * split; [discriminate|]. intros H. inversion H as [|k0 xs0 zs G]; subst. apply changed_all_F2 in G. exfalso.
        assert (X : mapM (meta_map k f) xs = Ok zs); [|rewrite E in X; discriminate].
        apply mapM_ok. clear E H. induction G as [|x0 y0 l l' H H' IH']; constructor; [apply IH; exact H|exact IH'].
Qed.

Lemma mapM_err_in {A B} (f : A -> result B) e l : mapM f l = Err e -> exists x, In x l /\ f x = Err e.
Proof.
  induction l as [|a l IH]; cbn [mapM]; [discriminate|]. destruct (f a) as [b|e0] eqn:F; cbn [bind].
  - destruct (mapM f l) as [bs|e1] eqn:G; cbn [bind]; [discriminate|]. intros [= ->]. destruct (IH eq_refl) as (x & I & E).
    exists x. split; [right; exact I|exact E].
  - intros [= ->]. exists a. split; [left; reflexivity|exact F].
Qed.
Lemma meta_map_total {A} k f : forall x : nested A,
  (exists y, meta_map k f x = Ok y) \/
  (meta_map k f x = Err TypeError /\ exists p a, length p < k /\ at_path x p = Some (Leaf a)).
Proof.
  induction k as [|k IH]; intros x; cbn [meta_map]; [left; eauto|].
  destruct x as [a|xs]; cbn [children bind].
  - right. split; [reflexivity|]. exists [], a. cbn. split; [lia|reflexivity].
  - destruct (mapM (meta_map k f) xs) as [ys|e] eqn:E; cbn [bind]; [left; eauto|right].
    apply mapM_err_in in E. destruct E as (x & I & E). destruct (IH x) as [(y & H)|(H & p & a & L & P)]; [congruence|].
    split; [congruence|]. apply In_nth_error in I. destruct I as (i & I). exists (i :: p), a.
    cbn [length at_path]. rewrite I. split; [lia|exact P].
Qed.

Lemma distribute_changed {A} values k : values <> [] -> forall x y : nested A,
  distribute x values k = Ok y <->
  changed (fun a b => exists l, a = Node l /\ b = Node (map (fun v => Node (l ++ [v])) values)) k x y.
Proof.
  intros NE. assert (B : forall x y : nested A, distribute x values 0 = Ok y <->
    exists l, x = Node l /\ y = Node (map (fun v => Node (l ++ [v])) values)).
  { intros x y. cbn [distribute]. destruct x as [a|l]; cbn [children bind].
    - split; [|intros (l & H & _); discriminate]. destruct values as [|v vs]; [congruence|]. cbn [mapM bind]. discriminate.
    - assert (E : mapM (fun v => Ok (Node (l ++ [v]))) values = Ok (map (fun v => Node (l ++ [v])) values)).
      { clear NE. induction values as [|v vs IH]; [reflexivity|]. cbn [mapM bind map]. rewrite IH. reflexivity. }
      rewrite E. cbn [bind]. split; [intros [= <-]; eauto|intros (l' & [= <-] & ->); reflexivity]. }
  set (R := fun a b : nested A => exists l, a = Node l /\ b = Node (map (fun v => Node (l ++ [v])) values)).
  induction k as [|k IH]; intros x y.
  - rewrite B. split; [intros H; constructor; exact H|]. intros H. inversion H. assumption.
  - cbn [distribute]. destruct x as [a|xs]; cbn [children bind].
    + split; [discriminate|]. intros H. inversion H.
    + destruct (mapM (fun y => distribute y values k) xs) as [ys|e] eqn:E; cbn [bind].
      * apply mapM_ok in E. assert (F : Forall2 (changed R k) xs ys).
        { clear y. induction E as [|x0 y0 l l' H H' IH']; constructor; [apply IH; exact H|exact IH']. }
        split.
        -- intros [= <-]. constructor. apply changed_all_F2. exact F.
        -- intros H. inversion H as [|k0 xs0 zs G]; subst. apply changed_all_F2 in G. f_equal. f_equal.
           clear H. revert zs G. induction E as [|x0 y0 l l' H H' IH']; intros zs G; inversion G as [|? z ? zs' G1 G2]; subst; [reflexivity|].
           apply IH in G1. rewrite H in G1. injection G1 as ->. f_equal. inversion F; subst. apply IH'; assumption.
      * split; [discriminate|]. intros H. inversion H as [|k0 xs0 zs G]; subst. apply changed_all_F2 in G. exfalso.
        assert (X : mapM (fun y => distribute y values k) xs = Ok zs); [|rewrite E in X; discriminate].
        apply mapM_ok. clear E H. induction G as [|x0 y0 l l' H H' IH']; constructor; [apply IH; exact H|exact IH'].
Qed.

(** ** Scores *)
Lemma average_count marks : marks <> [] ->
  average_bools marks = Some (inject_Z (Z.of_nat (count_occ Bool.bool_dec marks true)) / inject_Z (Z.of_nat (length marks)))%Q.
Proof.
  intros N. unfold average_bools. destruct marks as [|b marks]; [congruence|].
  replace (length (filter (fun b0 => b0) (b :: marks))) with (count_occ Bool.bool_dec (b :: marks) true); [reflexivity|].
  generalize (b :: marks). clear. induction l as [|[] l IH]; cbn; congruence.
Qed.

Lemma threshold_shapes reco trues threshold :
  (Forall2 (fun r t => length r = length t) reco trues ->
     exists ok, compare_labels_threshold reco trues threshold = Ok ok) /\
  (~ Forall2 (fun r t => length r = length t) reco trues ->
     compare_labels_threshold reco trues threshold = Err ValueError).
Proof.
  unfold compare_labels_threshold. split.
  - intros F. assert (L : length reco = length trues) by (induction F; cbn; congruence).
    rewrite L, Nat.eqb_refl. cbn [negb]. clear L. induction F as [|r t rs ts H F (ok & IH)]; [exists []; reflexivity|].
    cbn [combine mapM]. rewrite H, Nat.eqb_refl. cbn [bind]. rewrite IH. cbn [bind]. eauto.
  - intros N. destruct (Nat.eqb_spec (length reco) (length trues)) as [L|]; cbn [negb]; [|reflexivity].
    revert trues N L. induction reco as [|r rs IH]; intros [|t ts] N L; cbn in L; try lia; [exfalso; apply N; constructor|].
    cbn [combine mapM]. destruct (Nat.eqb_spec (length r) (length t)) as [E|E]; cbn [bind]; [|reflexivity].
    rewrite IH; [reflexivity| |lia]. intros F. apply N. constructor; assumption.
Qed.

Lemma F2_from_nth {A B} (R : A -> B -> Prop) : forall l m, length m = length l ->
  (forall i a b, nth_error l i = Some a -> nth_error m i = Some b -> R a b) -> Forall2 R l m.
Proof.
  induction l as [|a l IH]; intros [|b m] L H; cbn in L; try lia; constructor.
  - apply (H 0); reflexivity.
  - apply IH; [lia|]. intros i x y. apply (H (S i)).
Qed.
Lemma combine_at {A B} (l : list A) (m : list B) : forall i a b, nth_error (combine l m) i = Some (a, b) ->
  nth_error l i = Some a /\ nth_error m i = Some b.
Proof.
  revert m. induction l as [|x l IH]; intros [|y m] [|i] a b H; cbn in H |- *; try discriminate H; [injection H as -> ->; auto|].
  apply IH. exact H.
Qed.

Lemma threshold_score reco trues threshold : trues <> [] ->
  Forall2 (fun r t => length r = length t) reco trues ->
  exists s, score_labels_threshold reco trues threshold = Ok (Some s) /\
    part_right (fun p : list Q * list Z => forall j x y, nth_error (fst p) j = Some x -> nth_error (snd p) j = Some y ->
      (y = 1%Z /\ (threshold <= x)%Q) \/ (y = 0%Z /\ (x < threshold)%Q)) (combine reco trues) s.
Proof.
  intros N F. assert (L : length reco = length trues) by (clear N; induction F; cbn; congruence).
  destruct (proj1 (threshold_shapes reco trues threshold) F) as (ok & E).
  destruct (threshold_spec _ _ _ _ E) as (LO & V). unfold score_labels_threshold. rewrite E. cbn [bind].
  rewrite average_count by (destruct ok, trues; cbn in LO; congruence || lia).
  eexists. split; [reflexivity|]. exists ok. split.
  - apply F2_from_nth; [rewrite combine_length; lia|]. intros i [r t] b H Hb. apply combine_at in H. destruct H as [H1 H2].
    exact (V i r t b H1 H2 Hb).
  - rewrite combine_length, L, Nat.min_id, LO. reflexivity.
Qed.

Lemma given_nb_score argsort n reco trues : (forall keys, sorts keys (argsort keys)) ->
  trues <> [] -> length reco = length trues -> (forall r, In r reco -> length r = n) ->
  (forall t, In t trues -> length t = n /\ binary_row t) ->
  exists s, score_labels_given_nb argsort n reco trues = Ok (Some s) /\
    part_right (fun p => top_matches (argsort (map Qopp (fst p))) (snd p)) (combine reco trues) s.
Proof.
  intros S N L R T. destruct (compare_given_nb_spec argsort n reco trues S N L R T) as (ok & E & LO & V).
  unfold score_labels_given_nb. rewrite E. cbn [bind].
  rewrite average_count by (destruct ok, trues; cbn in LO; congruence || lia).
  eexists. split; [reflexivity|]. exists ok. split.
  - apply F2_from_nth; [rewrite combine_length; lia|]. intros i [r t] b H Hb. apply combine_at in H. destruct H as [H1 H2].
    destruct (V i r t H1 H2) as (b' & Hb' & X). rewrite Hb in Hb'. injection Hb' as ->. exact X.
  - rewrite combine_length, L, Nat.min_id, LO. reflexivity.
Qed.
