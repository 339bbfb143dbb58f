(** * Proofs about concatenations that contain concatenations. *)

From Coq Require Import List ZArith QArith Bool Lia Lqa.
Import ListNotations.
From Verif Require Import Py Py_proof ListUtil window_model window_spec window_proof window_concat winnest_model winnest_spec.
Open Scope py_scope.
Local Open Scope Q_scope.

(** ** Sequences of basic windows. *)
Section Basic.
Context {O : Type}.
Implicit Types (p q : basic O) (l r bs : list (basic O)).
Notation sames := (Forall2 same_basic).

Lemma same_refl p : same_basic p p.
Proof. repeat split; reflexivity. Qed.
Lemma sames_refl l : sames l l.
Proof. induction l; constructor; auto using same_refl. Qed.
Lemma sames_sym l r : sames l r -> sames r l.
Proof. induction 1 as [|p q l r (E & F & G) _ IH]; constructor; auto. repeat split; symmetry; auto. Qed.
Lemma sames_trans l r m : sames l r -> sames r m -> sames l m.
Proof.
  intro H. revert m. induction H as [|p q l r (E & F & G) _ IH]; intros m K; inversion K as [|? q' ? m' (E' & F' & G') K']; subst; constructor; auto.
  repeat split; [congruence|lra|lra].
Qed.

Lemma from_skip a l r : Forall (fun p => b_end p < a) l -> from_time a (l ++ r) = from_time a r.
Proof. induction 1 as [|p l H _ IH]; auto. cbn [app from_time]. destruct (Qlt_le_dec (b_end p) a); auto. lra. Qed.
Lemma from_stop a l r : Exists (fun p => a <= b_end p) l -> from_time a (l ++ r) = from_time a l ++ r.
Proof.
  induction l as [|p l IH]; intro H; [inversion H|]. cbn [app from_time]. destruct (Qlt_le_dec (b_end p) a) as [L|L]; [|reflexivity].
  apply IH. inversion H; subst; auto. lra.
Qed.
Lemma to_pass b l r : Forall (fun p => b_end p < b) l -> to_time b (l ++ r) = l ++ to_time b r.
Proof. induction 1 as [|p l H _ IH]; auto. cbn [app to_time]. destruct (Qlt_le_dec (b_end p) b); [now rewrite IH|lra]. Qed.
Lemma to_stop b l r : Exists (fun p => b <= b_end p) l -> to_time b (l ++ r) = to_time b l.
Proof.
  induction l as [|p l IH]; intro H; [inversion H|]. cbn [app to_time]. destruct (Qlt_le_dec (b_end p) b) as [L|L]; [|reflexivity].
  f_equal. apply IH. inversion H; subst; auto. lra.
Qed.
Lemma from_same a a' l r : a == a' -> sames l r -> sames (from_time a l) (from_time a' r).
Proof.
  intros Ea H. induction H as [|p q l r (E & F & G) H IH]; [constructor|]. cbn [from_time].
  destruct (Qlt_le_dec (b_end p) a), (Qlt_le_dec (b_end q) a'); try lra; auto. constructor; auto. repeat split; auto.
Qed.
Lemma to_same b l r : sames l r -> sames (to_time b l) (to_time b r).
Proof.
  intros H. induction H as [|p q l r (E & F & G) H IH]; [constructor|]. cbn [to_time].
  destruct (Qlt_le_dec (b_end p) b), (Qlt_le_dec (b_end q) b); try lra; constructor; auto; repeat split; auto; reflexivity.
Qed.
Lemma from_ends a (Q : basic O -> Prop) l : (forall p q, b_end p = b_end q -> Q p -> Q q) -> Forall Q l -> Forall Q (from_time a l).
Proof.
  intros R H. induction H as [|p l H Hl IH]; [constructor|]. cbn [from_time]. destruct (Qlt_le_dec (b_end p) a); auto.
  constructor; auto. now apply (R p).
Qed.
Lemma from_exists a t l : Exists (fun p => t <= b_end p) l -> a <= t -> Exists (fun p => t <= b_end p) (from_time a l).
Proof.
  intros H L. induction H as [p l H|p l H IH]; cbn [from_time]; destruct (Qlt_le_dec (b_end p) a); try lra; auto.
Qed.

(** *** Tilings. *)
Notation spans l := (map (fun p : basic O => (b_start p, b_end p)) l).
Lemma tiles_same lo l r hi : sames l r -> tiles lo (spans l) hi -> tiles lo (spans r) hi.
Proof.
  intro H. revert lo. induction H as [|p q l r (E & F & G) H IH]; intros lo T; auto. cbn in *. destruct T as (T1 & T2 & T3).
  split; [lra|]. split; [lra|]. apply IH. eapply tiles_comp; [| |exact T3]; [exact G|reflexivity].
Qed.
Lemma lasting_same lo l r hi : sames l r -> lasting lo l hi -> lasting lo r hi.
Proof.
  intros H [T L]. split; [eapply tiles_same; eauto|]. intros q Hq. destruct H as [|p0 q0 l r _ H]; [destruct Hq|]. cbn in *.
  clear T. induction H as [|p q' l r (E & F & G) H IH]; [destruct Hq|]. destruct Hq as [->|Hq].
  - specialize (L p (or_introl eq_refl)). lra.
  - apply IH; auto. intros x Hx. apply L. now right.
Qed.
Lemma lasting_comp lo lo' l hi hi' : lo == lo' -> hi == hi' -> lasting lo l hi -> lasting lo' l hi'.
Proof. intros E F [T L]. split; auto. eapply tiles_comp; eauto. Qed.
Lemma tiles_exists lo l hi t : l <> [] -> tiles lo (spans l) hi -> t <= hi -> Exists (fun p => t <= b_end p) l.
Proof.
  revert lo. induction l as [|p l IH]; intros lo N T H; [contradiction|]. cbn in T. destruct T as (T1 & T2 & T3).
  destruct l as [|q l]; [left; cbn in T3; lra|]. right. eapply IH; [discriminate|exact T3|exact H].
Qed.
Lemma tiles_ends lo l hi : tiles lo (spans l) hi -> Forall (fun p => b_end p <= hi) l.
Proof.
  revert lo. induction l as [|p l IH]; intros lo T; [constructor|]. cbn in T. destruct T as (T1 & T2 & T3). constructor; [|eauto].
  apply tiles_le in T3. exact T3.
Qed.
Lemma to_end lo l hi hi' : hi == hi' -> lasting lo l hi -> sames (to_time hi' l) l.
Proof.
  intros E [T L]. revert lo T L. induction l as [|p l IH]; intros lo T L; [constructor|]. cbn in T. destruct T as (T1 & T2 & T3). cbn [to_time].
  destruct (Qlt_le_dec (b_end p) hi') as [C|C].
  - constructor; [apply same_refl|]. apply (IH (b_end p)); auto. intros q Hq. apply L. cbn. destruct l; [destruct Hq|]. now right.
  - destruct l as [|q l].
    + constructor; [|constructor]. cbn in T3. repeat split; cbn; auto; try reflexivity; lra.
    + exfalso. cbn in T3. destruct T3 as (T4 & T5 & T6). apply tiles_le in T6. specialize (L q (or_introl eq_refl)). lra.
Qed.
Lemma from_begin lo l hi a : a == lo -> tiles lo (spans l) hi -> sames (from_time a l) l.
Proof.
  intros E T. destruct l as [|p l]; [constructor|]. cbn in T. destruct T as (T1 & T2 & T3). cbn [from_time].
  destruct (Qlt_le_dec (b_end p) a); [lra|]. constructor; [|apply sames_refl]. repeat split; cbn; auto; lra.
Qed.
Lemma lasting_from lo l hi a : l <> [] -> lasting lo l hi -> lo <= a -> a <= hi -> lasting a (from_time a l) hi.
Proof.
  intros N [T L] La Lb. revert lo N T L La. induction l as [|p l IH]; intros lo N T L La; [contradiction|]. cbn in T. destruct T as (T1 & T2 & T3).
  cbn [from_time]. destruct (Qlt_le_dec (b_end p) a) as [C|C].
  - destruct l as [|q l]; [cbn in T3; lra|]. apply (IH (b_end p)); auto; [discriminate| |lra]. intros x Hx. apply L. cbn. now right.
  - split; [|exact L]. cbn. repeat split; auto; reflexivity.
Qed.
Lemma to_lasts b l : forall m hi, tiles m (spans l) hi -> m < b -> (forall p, In p l -> b_start p < b_end p) ->
  forall p, In p (to_time b l) -> b_start p < b_end p.
Proof.
  induction l as [|q l IH]; intros m hi T C L p Hp; [destruct Hp|]. cbn in T. destruct T as (T1 & T2 & T3). cbn [to_time] in Hp.
  destruct (Qlt_le_dec (b_end q) b) as [D|D].
  - destruct Hp as [<-|Hp]; [apply L; now left|]. eapply IH; eauto. intros x Hx. apply L. now right.
  - destruct Hp as [<-|[]]. cbn. lra.
Qed.
Lemma lasting_to lo l hi b : l <> [] -> lasting lo l hi -> lo <= b -> b <= hi -> lasting lo (to_time b l) b.
Proof.
  intros N [T L] La Lb. split.
  - revert lo N T L La. induction l as [|p l IH]; intros lo N T L La; [contradiction|]. cbn in T. destruct T as (T1 & T2 & T3).
    cbn [to_time]. destruct (Qlt_le_dec (b_end p) b) as [C|C].
    + cbn. repeat split; auto. destruct l as [|q l]; [cbn in T3; lra|]. apply IH; auto; [discriminate| |lra]. intros x Hx. apply L. cbn. now right.
    + cbn. repeat split; auto; lra.
  - destruct l as [|p l]; [contradiction|]. cbn in T. destruct T as (T1 & T2 & T3). cbn [to_time]. destruct (Qlt_le_dec (b_end p) b) as [C|C]; cbn [tl]; [|intros ? []].
    apply (to_lasts b l (b_end p) hi); auto.
Qed.
Lemma to_nonempty b l : l <> [] -> to_time b l <> [].
Proof. destruct l as [|p l]; [contradiction|]. intros _. cbn [to_time]. destruct (Qlt_le_dec (b_end p) b); discriminate. Qed.
Lemma lasting_app lo l r hi : lasting lo (l ++ r) hi -> exists m, lasting lo l m /\ lasting m r hi /\ (l <> [] -> forall p, In p r -> b_start p < b_end p).
Proof.
  intros [T L]. rewrite map_app in T. apply tiles_app in T as (m & T1 & T2). exists m. split; [split|split; [split|]]; auto.
  - intros p Hp. apply L. destruct l; [destruct Hp|]. cbn in *. apply in_or_app. now left.
  - intros p Hp. apply L. destruct l; cbn; [exact Hp|]. apply in_or_app. right. destruct r; [destruct Hp|now right].
  - intros N p Hp. apply L. destruct l; [contradiction|]. cbn. apply in_or_app. now right.
Qed.
End Basic.
