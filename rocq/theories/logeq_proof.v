(** * Proofs about the equality of logs. *)

From Coq Require Import List ZArith Bool QArith String Lia Arith.
Import ListNotations.
From Verif Require Import Py Py_proof logger_model logger_spec logeq_model logeq_spec.
From Verif Require logger_proof.
Open Scope py_scope.
Local Open Scope nat_scope.
Notation length := List.length.

Section Eq.
Context {Arr : Type}.
Notation val := (val Arr).
Notation dict := (dict Arr).
Notation world := (world Arr).

Section Ind.
Variable P : val -> Prop.
Hypothesis Hn : P VNone. Hypothesis Hb : forall b, P (VBool b). Hypothesis Hz : forall z, P (VInt z). Hypothesis Hq : forall q, P (VFloat q).
Hypothesis Hs : forall s, P (VStr s). Hypothesis Ha : forall a, P (VArr a). Hypothesis Ho : forall n, P (VOther n).
Hypothesis Hl : forall l, (forall x, In x l -> P x) -> P (VList l).
Hypothesis Ht : forall l, (forall x, In x l -> P x) -> P (VTuple l).
Hypothesis Hd : forall d, (forall k x, In (k, x) d -> P x) -> P (VDict d).
Fixpoint val_induction (v : val) : P v.
Proof.
  destruct v as [|b|z|q|s|l|l|d|a|n].
  - exact Hn.
  - apply Hb.
  - apply Hz.
  - apply Hq.
  - apply Hs.
  - apply Hl. induction l as [|y l IH]; [intros x []|]. intros x [E|I]; [rewrite <- E; apply val_induction|exact (IH x I)].
  - apply Ht. induction l as [|y l IH]; [intros x []|]. intros x [E|I]; [rewrite <- E; apply val_induction|exact (IH x I)].
  - apply Hd. induction d as [|[c y] d IH]; [intros k x []|]. intros k x [E|I]; [|exact (IH k x I)].
    replace x with y by congruence. apply val_induction.
  - apply Ha.
  - apply Ho.
Qed.
End Ind.

(** ** Keys *)
Lemma key_eqb_ok k k' : key_eqb k k' = true <-> same_key k k'.
Proof.
  unfold same_key, key_eqb. destruct k as [s|z|[|]| |n], k' as [s'|z'|[|]| |n']; cbn [as_int]; try (split; congruence);
    try (rewrite String.eqb_eq; split; congruence); try (rewrite Z.eqb_eq; split; congruence); try (rewrite Nat.eqb_eq; split; congruence); try (split; reflexivity).
Qed.
Notation canon d := (map (fun kv : key * val => as_int (fst kv)) d).
Lemma find_some (d : list (key * val)) k y : dict_get key_eqb d k = Some y -> exists k', In (k', y) d /\ same_key k k'.
Proof.
  induction d as [|[k0 y0] d IH]; cbn [dict_get]; [discriminate|]. destruct (key_eqb k0 k) eqn:E.
  - intros [= <-]. exists k0. split; [now left|]. apply key_eqb_ok in E. symmetry. exact E.
  - intro H. destruct (IH H) as (k' & I & K). exists k'. split; [now right|exact K].
Qed.
Lemma find_in (d : list (key * val)) k k' y : NoDup (canon d) -> In (k', y) d -> same_key k k' -> dict_get key_eqb d k = Some y.
Proof.
  induction d as [|[k0 y0] d IH]; intros N I K; [destruct I|]. cbn [map fst] in N. apply NoDup_cons_iff in N as [N0 N]. cbn [dict_get].
  destruct I as [[= -> ->]|I].
  - assert (E : key_eqb k' k = true) by (apply key_eqb_ok; symmetry; exact K). now rewrite E.
  - destruct (key_eqb k0 k) eqn:E; [|now apply IH]. apply key_eqb_ok in E. exfalso. apply N0. unfold same_key in *. rewrite E, K. apply (in_map (fun kv : key * val => as_int (fst kv)) d (k', y) I).
Qed.

(** ** Values *)
Lemma number_ok (v : val) : match number v with Some q => is_number v q | None => forall q, ~ is_number v q end.
Proof. destruct v as [|[|]|z|q|s|l|l|d|a|n]; cbn; try constructor; intros q' H; inversion H. Qed.
Lemma is_number_unique (v : val) p q : is_number v p -> is_number v q -> p = q.
Proof. intros H. destruct H; intro H'; inversion H'; reflexivity. Qed.

Variable foreign : val -> val -> result bool.
Notation py_eq := (py_eq foreign).
Definition items_eq := fix items (l m : list val) {struct l} : result bool :=
  match l, m with
  | x :: l', y :: m' => e <- py_eq x y ;; if e then items l' m' else Ok false
  | _, _ => Ok true
  end.
Definition dentries_eq (d' : list (key * val)) := fix entries (d : list (key * val)) : result bool :=
  match d with
  | [] => Ok true
  | (k, x) :: r =>
      match dict_get key_eqb d' k with
      | None => Ok false
      | Some y => e <- py_eq x y ;; if e then entries r else Ok false
      end
  end.
Lemma eq_list l m : py_eq (VList l) (VList m) = if length l =? length m then items_eq l m else Ok false.
Proof. reflexivity. Qed.
Lemma eq_tuple l m : py_eq (VTuple l) (VTuple m) = e <- items_eq l m ;; Ok (e && (length l =? length m)).
Proof. reflexivity. Qed.
Lemma eq_dict d d' : py_eq (VDict d) (VDict d') = if length d =? length d' then dentries_eq d' d else Ok false.
Proof. reflexivity. Qed.

(** The comparison of two values gives the truth value of a proposition. *)
Definition decides (r : result bool) (P : Prop) : Prop := exists e, r = Ok e /\ (e = true <-> P).
Lemma decides_false r P : decides r P -> ~ P -> r = Ok false.
Proof. intros (e & -> & H) N. destruct e; [destruct (N (proj1 H eq_refl))|reflexivity]. Qed.

Lemma sames_length (l m : list val) : sames l m -> length l = length m.
Proof. induction 1; cbn; congruence. Qed.
Lemma items_ok l : (forall x, In x l -> forall y, plain x -> plain y -> decides (py_eq x y) (same x y)) ->
  forall m, (forall x, In x l -> plain x) -> (forall y, In y m -> plain y) -> decides (items_eq l m) (exists l1 m1 : list val, sames l1 m1 /\ ((l = l1 /\ exists r, m = m1 ++ r) \/ (m = m1 /\ exists r, l = l1 ++ r))).
Proof.
  induction l as [|x l IH]; intros H m Pl Pm.
  - exists true. split; [reflexivity|]. split; [|reflexivity]. intros _. exists [], []. split; [constructor|]. left. split; [reflexivity|]. now exists m.
  - destruct m as [|y m].
    + exists true. split; [reflexivity|]. split; [|reflexivity]. intros _. exists [], []. split; [constructor|]. right. split; [reflexivity|]. now exists (x :: l).
    + cbn [items_eq]. destruct (H x (or_introl eq_refl) y (Pl x (or_introl eq_refl)) (Pm y (or_introl eq_refl))) as (e & E & He). rewrite E. cbn [bind].
      destruct e.
      * destruct (IH (fun z I => H z (or_intror I)) m (fun z I => Pl z (or_intror I)) (fun z I => Pm z (or_intror I))) as (e2 & E2 & H2). exists e2. split; [exact E2|]. rewrite H2. split.
        -- intros (l1 & m1 & S & D). exists (x :: l1), (y :: m1). split; [constructor; [now apply He|exact S]|].
           destruct D as [[-> (r & ->)]|[-> (r & ->)]]; [left|right]; (split; [reflexivity|exists r; reflexivity]).
        -- intros (l1 & m1 & S & D). destruct S as [|a b l1 m1 Sab S].
           ++ destruct D as [[D _]|[D _]]; discriminate.
           ++ exists l1, m1. split; [exact S|]. destruct D as [[[= _ ->] (r & [= _ ->])]|[[= _ ->] (r & [= _ ->])]]; [left|right]; (split; [reflexivity|exists r; reflexivity]).
      * exists false. split; [reflexivity|]. split; [discriminate|]. intros (l1 & m1 & S & D). destruct S as [|a b l1 m1 Sab S].
        -- destruct D as [[D _]|[D _]]; discriminate.
        -- apply He. destruct D as [[[= <- _] (r & [= <- _])]|[[= <- _] (r & [= <- _])]]; exact Sab.
Qed.
Lemma items_same (l m : list val) : length l = length m -> (exists l1 m1 : list val, sames l1 m1 /\ ((l = l1 /\ exists r, m = m1 ++ r) \/ (m = m1 /\ exists r, l = l1 ++ r))) <-> sames l m.
Proof.
  intro L. split.
  - intros (l1 & m1 & S & D). pose proof (sames_length _ _ S) as Ls. destruct D as [[-> (r & ->)]|[-> (r & ->)]]; rewrite app_length in L; (destruct r; [now rewrite app_nil_r|cbn in L; lia]).
  - intro S. exists l, m. split; [exact S|]. left. split; [reflexivity|]. exists []. now rewrite app_nil_r.
Qed.

Lemma dentries_ok d d' : NoDup (canon d') -> (forall k x, In (k, x) d -> forall y, plain x -> plain y -> decides (py_eq x y) (same x y)) ->
  (forall k x, In (k, x) d -> plain x) -> (forall k y, In (k, y) d' -> plain y) ->
  decides (dentries_eq d' d) (forall k v, In (k, v) d -> exists k' v', In (k', v') d' /\ same_key k k' /\ same v v').
Proof.
  intro N'. induction d as [|[k x] d IH]; intros H Pl Pm.
  - exists true. split; [reflexivity|]. split; [intros _ k v []|reflexivity].
  - cbn [dentries_eq]. destruct (dict_get key_eqb d' k) as [y|] eqn:G.
    + destruct (find_some d' k y G) as (k1 & I1 & K1). destruct (H k x (or_introl eq_refl) y (Pl k x (or_introl eq_refl)) (Pm k1 y I1)) as (e & E & He). rewrite E. cbn [bind]. destruct e.
      * destruct (IH (fun a b I => H a b (or_intror I)) (fun a b I => Pl a b (or_intror I)) Pm) as (e2 & E2 & H2). exists e2. split; [exact E2|]. rewrite H2. split.
        -- intros A k0 v0 [[= <- <-]|I]; [|exact (A k0 v0 I)]. exists k1, y. split; [exact I1|]. split; [exact K1|]. now apply He.
        -- intros A k0 v0 I. apply A. now right.
      * exists false. split; [reflexivity|]. split; [discriminate|]. intro A. apply He. destruct (A k x (or_introl eq_refl)) as (k2 & v2 & I2 & K2 & S2).
        rewrite (find_in d' k k2 v2 N' I2 K2) in G. congruence.
    + exists false. split; [reflexivity|]. split; [discriminate|]. intro A. destruct (A k x (or_introl eq_refl)) as (k2 & v2 & I2 & K2 & S2).
      rewrite (find_in d' k k2 v2 N' I2 K2) in G. discriminate.
Qed.
(** As many keys, each of the first among the second: the same keys. *)
Lemma counted d d' : NoDup (canon d) -> NoDup (canon d') -> (forall k v, In (k, v) d -> exists k' v', In (k', v') d' /\ same_key k k' /\ same v v') ->
  (length d = length d' <-> forall k' v', In (k', v') d' -> exists k v, In (k, v) d /\ same_key k k' /\ same v v').
Proof.
  intros N N' A. assert (Inc : incl (canon d) (canon d')).
  { intros c I. apply in_map_iff in I as ([k v] & <- & I). destruct (A k v I) as (k' & v' & I' & K & _). cbn [fst]. rewrite K. apply (in_map (fun kv : key * val => as_int (fst kv)) d' (k', v') I'). }
  split.
  - intros L k' v' I'. assert (Inc' : incl (canon d') (canon d)) by (apply NoDup_length_incl; [exact N|rewrite !map_length; lia|exact Inc]).
    pose proof (Inc' _ (in_map (fun kv : key * val => as_int (fst kv)) d' (k', v') I')) as J. apply in_map_iff in J as ([k v] & K & I). cbn [fst] in K.
    destruct (A k v I) as (k2 & v2 & I2 & K2 & S2). exists k, v. split; [exact I|]. split; [exact K|].
    assert (v2 = v') as <-; [|exact S2]. pose proof (find_in d' k k2 v2 N' I2 K2). pose proof (find_in d' k k' v' N' I' K). congruence.
  - intro B. assert (Inc' : incl (canon d') (canon d)).
    { intros c I. apply in_map_iff in I as ([k v] & <- & I). destruct (B k v I) as (k' & v' & I' & K & _). cbn [fst]. rewrite <- K. apply (in_map (fun kv : key * val => as_int (fst kv)) d (k', v') I'). }
    pose proof (NoDup_incl_length N Inc). pose proof (NoDup_incl_length N' Inc'). rewrite !map_length in *. lia.
Qed.

Lemma plain_known (v : val) : plain v -> is_foreign v = false.
Proof. destruct 1; reflexivity. Qed.
Ltac differ := exists false; split; [reflexivity|]; split; [discriminate|]; let H := fresh in intro H; inversion H; subst;
  repeat match goal with I : is_number _ _ |- _ => inversion I; clear I; subst end; try congruence.
Lemma numbers_ok (a b : val) p q : number a = Some p -> number b = Some q -> decides (Ok (Qeq_bool p q)) (same a b).
Proof.
  intros Na Nb. pose proof (number_ok a) as A. pose proof (number_ok b) as B. rewrite Na in A. rewrite Nb in B. exists (Qeq_bool p q). split; [reflexivity|]. rewrite Qeq_bool_iff. split.
  - intro E. exact (sa_number a b p q A B E).
  - intro S. inversion S; subst; try (inversion A; fail).
    match goal with X : is_number a _, Y : is_number b _ |- _ => rewrite (is_number_unique a _ _ A X), (is_number_unique b _ _ B Y); assumption end.
Qed.
Lemma not_number (a b : val) : same a b -> (number a = None <-> number b = None).
Proof. destruct 1 as [|a b p q Ha Hb _| | | |]; try tauto. destruct Ha, Hb; split; discriminate. Qed.

Lemma py_eq_ok (a : val) : forall b, plain a -> plain b -> decides (py_eq a b) (same a b).
Proof.
  induction a as [|b0|z|q|s|a|n|l IH|l IH|d IH] using val_induction; intros b Pa Pb;
    pose proof (plain_known b Pb) as Fb; try (inversion Pa; fail).
  - destruct b; try discriminate Fb; try (differ; fail). exists true. split; [reflexivity|]. split; [constructor|reflexivity].
  - destruct (number b) as [p|] eqn:Nb; [|].
    + replace (py_eq (VBool b0) b) with (Ok (Qeq_bool (if b0 then 1 else 0) p)) by (cbn [logeq_model.py_eq is_foreign orb number]; rewrite Fb, Nb; reflexivity). apply numbers_ok; [reflexivity|exact Nb].
    + destruct b; try discriminate Fb; try discriminate Nb; differ.
  - destruct (number b) as [p|] eqn:Nb; [|].
    + replace (py_eq (VInt z) b) with (Ok (Qeq_bool (inject_Z z) p)) by (cbn [logeq_model.py_eq is_foreign orb number]; rewrite Fb, Nb; reflexivity). apply numbers_ok; [reflexivity|exact Nb].
    + destruct b; try discriminate Fb; try discriminate Nb; differ.
  - destruct (number b) as [p|] eqn:Nb; [|].
    + replace (py_eq (VFloat q) b) with (Ok (Qeq_bool q p)) by (cbn [logeq_model.py_eq is_foreign orb number]; rewrite Fb, Nb; reflexivity). apply numbers_ok; [reflexivity|exact Nb].
    + destruct b; try discriminate Fb; try discriminate Nb; differ.
  - destruct b as [| | | |t| | | | |]; try discriminate Fb; try (differ; fail). exists (String.eqb s t). split; [reflexivity|]. rewrite String.eqb_eq. split.
    + intros <-. constructor.
    + intro S. inversion S as [|? ? ? ? X| | | |]; subst; [inversion X|reflexivity].
  - destruct b as [| | | | |m| | | |]; try discriminate Fb; try (differ; fail). rewrite eq_list. inversion Pa as [| | | | |? Pl| |]; subst. inversion Pb as [| | | | |? Pm| |]; subst.
    assert (Q1 : same (VList l) (VList m) <-> sames l m). { split; [|constructor; assumption]. intro S. inversion S as [|? ? ? ? X| | | |]; subst; [inversion X|assumption]. }
    unfold decides. setoid_rewrite Q1. destruct (Nat.eqb_spec (length l) (length m)) as [L|L].
    + destruct (items_ok l IH m Pl Pm) as (e & E & He). exists e. split; [exact E|]. rewrite He. now apply items_same.
    + exists false. split; [reflexivity|]. split; [discriminate|]. intro S. destruct (L (sames_length _ _ S)).
  - destruct b as [| | | | | |m| | |]; try discriminate Fb; try (differ; fail). rewrite eq_tuple. inversion Pa as [| | | | | |? Pl|]; subst. inversion Pb as [| | | | | |? Pm|]; subst.
    assert (Q1 : same (VTuple l) (VTuple m) <-> sames l m). { split; [|constructor; assumption]. intro S. inversion S as [|? ? ? ? X| | | |]; subst; [inversion X|assumption]. }
    unfold decides. setoid_rewrite Q1. destruct (items_ok l IH m Pl Pm) as (e & E & He). rewrite E. cbn [bind]. exists (e && (length l =? length m)). split; [reflexivity|].
    rewrite andb_true_iff, Nat.eqb_eq, He. split.
    + intros [D L]. now apply items_same in D.
    + intro S. pose proof (sames_length _ _ S) as L. split; [now apply items_same|exact L].
  - destruct b as [| | | | | | |d'| |]; try discriminate Fb; try (differ; fail). rewrite eq_dict. inversion Pa as [| | | | | | |? Nd Pl]; subst. inversion Pb as [| | | | | | |? Nd' Pm]; subst.
    assert (Q1 : same (VDict d) (VDict d') <-> (forall k v, In (k, v) d -> exists k' v', In (k', v') d' /\ same_key k k' /\ same v v') /\ length d = length d').
    { split.
      - intro S. inversion S as [|? ? ? ? X| | | |? ? A B]; subst; [inversion X|]. split; [exact A|]. now apply (counted d d' Nd Nd' A).
      - intros [A L]. constructor; [exact A|]. now apply (counted d d' Nd Nd' A). }
    unfold decides. setoid_rewrite Q1. destruct (Nat.eqb_spec (length d) (length d')) as [L|L].
    + destruct (dentries_ok d d' Nd' IH Pl Pm) as (e & E & He). exists e. split; [exact E|]. rewrite He. tauto.
    + exists false. split; [reflexivity|]. split; [discriminate|]. tauto.
Qed.
End Eq.
