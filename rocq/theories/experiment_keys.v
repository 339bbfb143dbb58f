(** * Proofs about the keys of experiment.py. *)

From Coq Require Import List ZArith Bool Arith String Ascii Lia.
Import ListNotations.
From Verif Require Import Py ListUtil experiment_model experiment_spec.
Local Open Scope nat_scope.
Notation length := List.length.

(** ** Strings. *)
Lemma lacks_app c a b : lacks c (a ++ b)%string <-> lacks c a /\ lacks c b.
Proof.
  unfold lacks. induction a as [|h a IH]; cbn; [tauto|]. intuition.
Qed.
Lemma app_assoc_s a b c : ((a ++ b) ++ c = a ++ (b ++ c))%string.
Proof. induction a; cbn; congruence. Qed.
Lemma split_at c a b r s : lacks c a -> lacks c b -> (a ++ String c r = b ++ String c s)%string -> a = b /\ r = s.
Proof.
  unfold lacks. revert b. induction a as [|h a IH]; intros [|k b] A B E; cbn in *.
  - injection E as <-. auto.
  - injection E as <- _. tauto.
  - injection E as -> _. tauto.
  - injection E as <- E. destruct (IH b) as [-> ->]; auto.
Qed.
(** Strings that are empty or start with [c]. *)
Definition starts (c : ascii) (s : string) : Prop := s = ""%string \/ exists t, s = String c t.
Lemma nil_r s : (s ++ "" = s)%string.
Proof. induction s; cbn; congruence. Qed.
Lemma split_before c a b r s : lacks c a -> lacks c b -> starts c r -> starts c s -> (a ++ r = b ++ s)%string -> a = b /\ r = s.
Proof.
  intros A B [->|[t ->]] [->|[u ->]] E; rewrite ?nil_r in E.
  - auto.
  - exfalso. rewrite E in A. apply lacks_app in A as [_ A]. apply A. cbn. auto.
  - exfalso. rewrite <- E in B. apply lacks_app in B as [_ B]. apply B. cbn. auto.
  - destruct (split_at c a b t u A B E) as [-> ->]. auto.
Qed.
Lemma app_inj_l p a b : (p ++ a = p ++ b)%string -> a = b.
Proof. induction p as [|h p IH]; cbn; auto. intro E. injection E as E. auto. Qed.

Lemma suffix_starts s : In s suffixes -> starts "_" s.
Proof. cbn. intros [<-|[<-|[<-|[<-|[]]]]]; [left|right|right|right]; eauto. Qed.

Lemma NoDup_map_inj {A B} (f : A -> B) l : NoDup l -> (forall a b, In a l -> In b l -> f a = f b -> a = b) -> NoDup (map f l).
Proof.
  induction 1 as [|a l N ND IH]; intro H; cbn; constructor.
  - intro I. apply in_map_iff in I as (b & E & I). apply N. rewrite (H a b); auto; [now left|now right].
  - apply IH. intros; apply H; auto; now right.
Qed.
Lemma NoDup_prod {A B} (a : list A) (b : list B) : NoDup a -> NoDup b -> NoDup (list_prod a b).
Proof.
  intros N M. induction N as [|h a Nh N IH]; cbn; [constructor|]. apply NoDup_app_intro; auto.
  - apply FinFun.Injective_map_NoDup; auto. intros u v E. congruence.
  - intros [u v] I J. apply in_map_iff in I as (t & E & _). injection E as <- <-. apply in_prod_iff in J as [J _]. auto.
Qed.
Lemma suffixes_nodup : NoDup suffixes.
Proof. unfold suffixes. repeat (constructor; [cbn; intuition discriminate|]). constructor. Qed.

Lemma flat_map_NoDup {A B} (f : A -> list B) l : NoDup l -> (forall a, In a l -> NoDup (f a)) ->
  (forall a b v, In a l -> In b l -> In v (f a) -> In v (f b) -> a = b) -> NoDup (flat_map f l).
Proof.
  induction 1 as [|a l N ND IH]; intros F D; cbn; [constructor|]. apply NoDup_app_intro.
  - apply F. now left.
  - apply IH; [intros; apply F; now right|]. intros u v t Iu Iv. apply D; now right.
  - intros v I J. apply in_flat_map in J as (b & Ib & J). apply N. rewrite (D a b v); auto; [now left|now right].
Qed.

(** ** TwoModalitiesExperiment. *)
Section Keys.
Context (mods : list string) (ND : NoDup mods) (Cl : forall m, In m mods -> clean m).

Lemma name_in m : m < length mods -> In (mod_name mods m) mods.
Proof using Type. intro H. unfold mod_name. now apply nth_In. Qed.
Lemma name_inj m m' : m < length mods -> m' < length mods -> mod_name mods m = mod_name mods m' -> m = m'.
Proof using ND. intros H H' E. apply (proj1 (NoDup_nth mods ""%string)); auto. Qed.
Lemma name_clean m : m < length mods -> clean (mod_name mods m).
Proof using Cl. intro H. now apply Cl, name_in. Qed.

Definition tail (cmp : option nat) (s : string) : string := ((match cmp with None => "" | Some c => "_" ++ mod_name mods c end) ++ s)%string.
Definition in_range_opt (c : option nat) : Prop := match c with None => True | Some c => c < length mods end.

Lemma tail_starts c s : In s suffixes -> starts "_" (tail c s).
Proof using Type. intro H. destruct c; cbn; [right; eauto|now apply suffix_starts]. Qed.
Lemma none_some c s s' : c < length mods -> In s suffixes -> In s' suffixes -> tail None s <> tail (Some c) s'.
Proof using Cl.
  intros Hc Hs Hs' E. destruct (name_clean c Hc) as (L & _ & N1 & N2 & N3). unfold tail in E. cbn in E.
  assert (X : forall t, lacks "_" t -> s = String "_" t -> t = mod_name mods c).
  { intros t Lt ->. injection E as E. rewrite <- (nil_r t) in E. apply split_before with (c := "_"%char) in E as [E _]; auto; [now left|now apply suffix_starts]. }
  cbn in Hs. destruct Hs as [<-|[<-|[<-|[<-|[]]]]]; [discriminate|..].
  - apply N1. symmetry. apply X; auto. unfold lacks. cbn. intuition discriminate.
  - apply N2. symmetry. apply X; auto. unfold lacks. cbn. intuition discriminate.
  - apply N3. symmetry. apply X; auto. unfold lacks. cbn. intuition discriminate.
Qed.
Lemma tail_inj c s c' s' : in_range_opt c -> in_range_opt c' -> In s suffixes -> In s' suffixes -> tail c s = tail c' s' -> c = c' /\ s = s'.
Proof using ND Cl.
  intros Hc Hc' Hs Hs' E. destruct c as [c|], c' as [c'|].
  - cbn in E. injection E as E. destruct (name_clean c Hc) as (L & _). destruct (name_clean c' Hc') as (L' & _).
    apply split_before with (c := "_"%char) in E as [E ->]; auto using suffix_starts. split; auto. f_equal. now apply name_inj.
  - symmetry in E. now apply none_some in E.
  - now apply none_some in E.
  - auto.
Qed.
Lemma exp_key_inj m1 m2 c s m1' m2' c' s' : m1 < length mods -> m2 < length mods -> in_range_opt c -> In s suffixes ->
  m1' < length mods -> m2' < length mods -> in_range_opt c' -> In s' suffixes ->
  exp_key mods m1 m2 c s = exp_key mods m1' m2' c' s' -> (m1, m2, c, s) = (m1', m2', c', s').
Proof using ND Cl.
  intros H1 H2 Hc Hs H1' H2' Hc' Hs' E. unfold exp_key in E. cbn [append] in E.
  destruct (name_clean m1 H1) as (_ & L1 & _). destruct (name_clean m1' H1') as (_ & L1' & _).
  apply split_at in E as [E1 E]; auto. destruct (name_clean m2 H2) as (L2 & _). destruct (name_clean m2' H2') as (L2' & _).
  change (mod_name mods m2 ++ tail c s = mod_name mods m2' ++ tail c' s')%string in E.
  apply split_before with (c := "_"%char) in E as [E2 E]; auto using tail_starts. apply tail_inj in E as [-> ->]; auto.
  apply name_inj in E1; auto. apply name_inj in E2; auto. congruence.
Qed.

Lemma in_combinations n m1 m2 c : In (m1, m2, c) (two_combinations n) <-> m1 < n /\ m2 < n /\ match c with None => True | Some c => c < n end.
Proof using Type.
  unfold two_combinations. rewrite in_flat_map. split.
  - intros (a & Ia & I). apply in_flat_map in I as (b & Ib & I). apply in_map_iff in I as (d & E & I). injection E as <- <- <-.
    apply in_seq in Ia, Ib. split; [lia|]. split; [lia|]. destruct I as [<-|I]; auto. apply in_map_iff in I as (e & <- & I). apply in_seq in I. lia.
  - intros (H1 & H2 & H3). exists m1. split; [apply in_seq; lia|]. apply in_flat_map. exists m2. split; [apply in_seq; lia|].
    apply in_map_iff. exists c. split; auto. destruct c as [c|]; [right|now left]. apply in_map. apply in_seq. lia.
Qed.
Lemma combinations_nodup n : NoDup (two_combinations n).
Proof using Type.
  unfold two_combinations. apply flat_map_NoDup; [apply seq_NoDup| |].
  - intros m1 _. apply flat_map_NoDup; [apply seq_NoDup| |].
    + intros m2 _. apply FinFun.Injective_map_NoDup; [intros u v E; congruence|]. constructor.
      * intro I. apply in_map_iff in I as (? & E & _). discriminate.
      * apply FinFun.Injective_map_NoDup; [intros u v E; congruence|apply seq_NoDup].
    + intros a b v _ _ I J. apply in_map_iff in I as (? & <- & _). apply in_map_iff in J as (? & E & _). congruence.
  - intros a b v _ _ I J. apply in_flat_map in I as (? & _ & I). apply in_map_iff in I as (? & <- & _).
    apply in_flat_map in J as (? & _ & J). apply in_map_iff in J as (? & E & _). congruence.
Qed.
Lemma score_found m1 m2 c s m1' m2' c' s' : score_key mods m1 m2 c s <> found_key mods m1' m2' c' s'.
Proof using Type. unfold score_key, found_key. cbn. discriminate. Qed.

Lemma two_keys_fresh k : In k (two_keys mods) -> k <> "train"%string /\ k <> "test"%string /\ k <> "dictionary"%string.
Proof using Type.
  unfold two_keys. intro I. apply in_flat_map in I as ([[[m1 m2] c] s] & _ & I). cbn [fst snd] in I.
  destruct I as [<-|[<-|[]]]; unfold found_key, score_key; cbn; repeat split; discriminate.
Qed.
Lemma two_keys_nodup : NoDup (["train"; "test"; "dictionary"]%string ++ two_keys mods).
Proof using ND Cl.
  apply NoDup_app_intro.
  - repeat (constructor; [cbn; intuition discriminate|]). constructor.
  - unfold two_keys. apply flat_map_NoDup.
    + apply NoDup_prod; [apply combinations_nodup|apply suffixes_nodup].
    + intros [[[m1 m2] c] s] _. cbn [fst snd]. constructor; [|repeat constructor; auto]. intros [E|[]]. now apply score_found in E.
    + intros [[[m1 m2] c] s] [[[m1' m2'] c'] s'] v I J Hv Hv'. cbn [fst snd] in *.
      apply in_prod_iff in I as [I Hs], J as [J Hs']. apply in_combinations in I as (H1 & H2 & Hc), J as (H1' & H2' & Hc').
      assert (E : exp_key mods m1 m2 c s = exp_key mods m1' m2' c' s').
      { destruct Hv as [<-|[<-|[]]], Hv' as [E|[E|[]]]; [unfold found_key in E|exfalso; revert E; apply score_found|
          exfalso; symmetry in E; revert E; apply score_found|unfold score_key in E]; apply app_inj_l in E; auto. }
      apply exp_key_inj in E; auto.
  - intros k I J. apply two_keys_fresh in J as (A & B & C). cbn in I. intuition.
Qed.

(** ** ThreeModalitiesExperiment. *)
Lemma join_cons a l : l <> [] -> join (a :: l) = (a ++ "_" ++ join l)%string.
Proof using Type. destruct l; [tauto|reflexivity]. Qed.
Lemma join_inj l : forall l', l <> [] -> l' <> [] -> (forall s, In s l -> lacks "_" s) -> (forall s, In s l' -> lacks "_" s) -> join l = join l' -> l = l'.
Proof using Type.
  induction l as [|a l IH]; intros [|a' l'] N N' F F' E; try tauto.
  assert (La : lacks "_" a) by (apply F; now left). assert (La' : lacks "_" a') by (apply F'; now left).
  assert (J : forall b r, exists t, join (b :: r) = (b ++ t)%string /\ starts "_" t /\ (r <> [] -> t = ("_" ++ join r)%string) /\ (r = [] -> t = ""%string)).
  { intros b r. destruct r as [|c r].
    - exists ""%string. cbn. rewrite nil_r. split; auto. split; [now left|]. split; tauto.
    - exists ("_" ++ join (c :: r))%string. split; [reflexivity|]. split; [right; eexists; reflexivity|]. split; [auto|discriminate]. }
  destruct (J a l) as (t & Et & St & T1 & T2), (J a' l') as (t' & Et' & St' & T1' & T2'). rewrite Et, Et' in E.
  apply split_before with (c := "_"%char) in E as [-> E]; auto. f_equal.
  destruct l as [|b l], l' as [|b' l']; auto.
  - exfalso. rewrite (T2 eq_refl), T1' in E by discriminate. discriminate.
  - exfalso. rewrite (T2' eq_refl), T1 in E by discriminate. discriminate.
  - rewrite T1, T1' in E by discriminate. injection E as E. apply IH; auto; try discriminate; intros s I; [apply F|apply F']; now right.
Qed.
(** A suffix is one more name. *)
Definition suffix_name (s : string) : list string := if String.eqb s "" then [] else [substring 1 (String.length s) s].
Lemma join_suffix l s : l <> [] -> In s suffixes -> (join l ++ s)%string = join (l ++ suffix_name s).
Proof using Type.
  intros N I. induction l as [|a l IH]; [tauto|]. destruct l as [|b l].
  - cbn in I. destruct I as [<-|[<-|[<-|[<-|[]]]]]; cbn; now rewrite ?nil_r.
  - change ((a :: b :: l) ++ suffix_name s) with (a :: ((b :: l) ++ suffix_name s)). rewrite (join_cons a (b :: l)), (join_cons a ((b :: l) ++ suffix_name s)) by discriminate.
    rewrite <- IH by discriminate. now rewrite !app_assoc_s.
Qed.
Lemma suffix_lacks s t : In s suffixes -> In t (suffix_name s) -> lacks "_" t /\ (t = "bis" \/ t = "frob" \/ t = "cosine")%string.
Proof using Type.
  cbn. intros [<-|[<-|[<-|[<-|[]]]]]; cbn; intros [<-|[]] || intros []; (split; [unfold lacks; cbn; intuition discriminate|auto]).
Qed.
Lemma app_suffix l s l' s' : (forall t, In t l -> clean t) -> (forall t, In t l' -> clean t) -> In s suffixes -> In s' suffixes ->
  l ++ suffix_name s = l' ++ suffix_name s' -> l = l' /\ s = s'.
Proof using Type.
  intros C C' I I' E.
  assert (Z : forall s, In s suffixes -> suffix_name s = [] /\ s = ""%string \/ exists t, suffix_name s = [t] /\ (t = "bis" \/ t = "frob" \/ t = "cosine")%string /\ s = ("_" ++ t)%string).
  { intros u J. cbn in J. destruct J as [<-|[<-|[<-|[<-|[]]]]]; cbn; [left; auto|right; eexists; eauto..]. }
  destruct (Z s I) as [[H1 H2]|(t & H1 & Ht & H2)], (Z s' I') as [[H1' H2']|(t' & H1' & Ht' & H2')]; rewrite H1, H1', ?app_nil_r in E; subst s s'.
  - auto.
  - exfalso. destruct (C t') as (_ & _ & A & B & D); [rewrite E; apply in_or_app; right; now left|]. destruct Ht' as [|[|]]; congruence.
  - exfalso. destruct (C' t) as (_ & _ & A & B & D); [rewrite <- E; apply in_or_app; right; now left|]. destruct Ht as [|[|]]; congruence.
  - apply app_inj_tail in E as [-> ->]. auto.
Qed.
Definition names_of (l : list nat) : list string := map (mod_name mods) l.
Definition valid_mods (l : list nat) : Prop := l <> [] /\ forall m, In m l -> m < length mods.
Lemma names_clean l t : valid_mods l -> In t (names_of l) -> clean t.
Proof using Cl. intros [_ V] I. apply in_map_iff in I as (m & <- & I). apply name_clean. auto. Qed.
Lemma names_inj l l' : valid_mods l -> valid_mods l' -> names_of l = names_of l' -> l = l'.
Proof using ND.
  intros [_ V] [_ V'] E. revert l' V' E. induction l as [|a l IH]; intros [|a' l'] V' E; try discriminate; auto. injection E as E1 E2.
  f_equal; [apply name_inj; auto; [apply V|apply V']; now left|]. apply IH; auto; intros; [apply V|apply V']; now right.
Qed.
Lemma names_nil l : valid_mods l -> names_of l <> [].
Proof using Type. intros [N _]. destruct l; [tauto|discriminate]. Qed.
Lemma join_lacks2 l : (forall t, In t l -> lacks "2" t) -> lacks "2" (join l).
Proof using Type.
  intro H. induction l as [|a l IH]; [unfold lacks; cbn; tauto|]. destruct l as [|b l]; [apply H; now left|].
  rewrite join_cons by discriminate. rewrite !lacks_app. split; [apply H; now left|]. split; [unfold lacks; cbn; intuition discriminate|].
  apply IH. intros; apply H; now right.
Qed.
Lemma names_lacks l t : valid_mods l -> In t (names_of l) -> lacks "_" t.
Proof using Cl. intros V I. now apply (names_clean l t V I). Qed.
Lemma names_lacks2 l t : valid_mods l -> In t (names_of l) -> lacks "2" t.
Proof using Cl. intros V I. now apply (names_clean l t V I). Qed.
Lemma three_key_inj a b s a' b' s' : valid_mods a -> valid_mods b -> In s suffixes -> valid_mods a' -> valid_mods b' -> In s' suffixes ->
  three_key mods a b s = three_key mods a' b' s' -> (a, b, s) = (a', b', s').
Proof using ND Cl.
  intros Va Vb Hs Va' Vb' Hs' E. unfold three_key in E. apply app_inj_l in E. cbn [append] in E.
  change (join (names_of a) ++ String "2" (join (names_of b) ++ s) = join (names_of a') ++ String "2" (join (names_of b') ++ s'))%string in E.
  destruct (split_at "2" (join (names_of a)) (join (names_of a')) _ _ (join_lacks2 _ (fun t => names_lacks2 a t Va)) (join_lacks2 _ (fun t => names_lacks2 a' t Va')) E) as [E1 E2].
  rewrite !join_suffix in E2 by auto using names_nil.
  pose proof (join_inj _ _ (names_nil a Va) (names_nil a' Va') (fun t => names_lacks a t Va) (fun t => names_lacks a' t Va') E1) as F1.
  apply join_inj in E2.
  - apply app_suffix in E2 as [F2 ->]; auto; [|intros t I; exact (names_clean b t Vb I)|intros t I; exact (names_clean b' t Vb' I)].
    rewrite (names_inj a a' Va Va' F1), (names_inj b b' Vb Vb' F2). reflexivity.
  - intro X. apply app_eq_nil in X as [X _]. revert X. now apply names_nil.
  - intro X. apply app_eq_nil in X as [X _]. revert X. now apply names_nil.
  - intros t I. apply in_app_or in I as [I|I]; [exact (names_lacks b t Vb I)|]. exact (proj1 (suffix_lacks s t Hs I)).
  - intros t I. apply in_app_or in I as [I|I]; [exact (names_lacks b' t Vb' I)|]. exact (proj1 (suffix_lacks s' t Hs' I)).
Qed.
End Keys.

Lemma in_others n m i : In i (others_than n m) <-> i < n /\ i <> m.
Proof. unfold others_than. rewrite filter_In, in_seq. rewrite negb_true_iff, Nat.eqb_neq. lia. Qed.
Lemma others_length n m : m < n -> S (length (others_than n m)) = n.
Proof.
  intro H. assert (P : Permutation.Permutation (m :: others_than n m) (seq 0 n)).
  { apply Permutation.NoDup_Permutation; [constructor; [intro I; apply in_others in I; tauto|apply NoDup_filter, seq_NoDup]|apply seq_NoDup|].
    intro i. cbn. rewrite in_others, in_seq. lia. }
  apply Permutation.Permutation_length in P. rewrite seq_length in P. exact P.
Qed.
Lemma in_tested n a b : In (a, b) (tested_combinations n) <->
  (exists m1 m2, a = [m1] /\ b = [m2] /\ m1 < n /\ m2 < n /\ m2 <> m1) \/
  (exists m, m < n /\ a = others_than n m /\ b = [m]) \/ (exists m, m < n /\ a = [m] /\ b = others_than n m).
Proof.
  unfold tested_combinations. rewrite !in_app_iff, in_flat_map, !in_map_iff. split.
  - intros [(m1 & I & J)|[(m & E & I)|(q & E & I)]].
    + apply in_map_iff in J as (m2 & E & J). injection E as <- <-. apply in_seq in I. apply in_others in J. left. exists m1, m2. intuition lia.
    + injection E as <- <-. apply in_seq in I. right. left. exists m. intuition lia.
    + apply in_map_iff in I as (m & <- & I). injection E as <- <-. apply in_seq in I. right. right. exists m. intuition lia.
  - intros [(m1 & m2 & -> & -> & H1 & H2 & N)|[(m & H & -> & ->)|(m & H & -> & ->)]].
    + left. exists m1. split; [apply in_seq; lia|]. apply in_map_iff. exists m2. split; auto. now apply in_others.
    + right. left. exists m. split; auto. apply in_seq. lia.
    + right. right. exists (others_than n m, [m]). split; auto. apply in_map_iff. exists m. split; auto. apply in_seq. lia.
Qed.
Lemma tested_nodup n : 3 <= n -> NoDup (tested_combinations n).
Proof.
  intro Hn. unfold tested_combinations. assert (O : forall m m', m < n -> m' < n -> others_than n m <> [m']).
  { intros m m' H _ E. pose proof (others_length n m H) as L. rewrite E in L. cbn in L. lia. }
  rewrite map_map. cbn [fst snd]. apply NoDup_app_intro; [|apply NoDup_app_intro|].
  - apply flat_map_NoDup; [apply seq_NoDup| |].
    + intros m1 _. apply FinFun.Injective_map_NoDup; [intros u v E; congruence|]. apply NoDup_filter, seq_NoDup.
    + intros a b v _ _ I J. apply in_map_iff in I as (? & <- & _). apply in_map_iff in J as (? & E & _). congruence.
  - apply FinFun.Injective_map_NoDup; [intros u v E; congruence|apply seq_NoDup].
  - apply FinFun.Injective_map_NoDup; [intros u v E; congruence|apply seq_NoDup].
  - intros v I J. apply in_map_iff in I as (m & <- & I). apply in_map_iff in J as (m' & E & J). apply in_seq in I, J. injection E as E _. symmetry in E. revert E. apply O; lia.
  - intros v I J. apply in_flat_map in I as (m1 & I1 & I). apply in_map_iff in I as (m2 & <- & I2). apply in_seq in I1. apply in_others in I2.
    apply in_app_or in J as [J|J]; apply in_map_iff in J as (m & E & J); apply in_seq in J; injection E as E1 E2; [revert E1|revert E2]; apply O; lia.
Qed.
Lemma tested_valid mods a b : 2 <= length mods -> In (a, b) (tested_combinations (length mods)) -> valid_mods mods a /\ valid_mods mods b.
Proof.
  intros H2 I. assert (O : forall m, m < length mods -> valid_mods mods (others_than (length mods) m)).
  { intros m H. split; [intro E; pose proof (others_length _ _ H) as L; rewrite E in L; cbn in L; lia|]. intros i J. now apply in_others in J. }
  assert (V : forall m, m < length mods -> valid_mods mods [m]). { intros m H. split; [discriminate|]. intros i [<-|[]]; auto. }
  apply in_tested in I as [(m1 & m2 & -> & -> & H)|[(m & H & -> & ->)|(m & H & -> & ->)]]; split; (apply V || apply O); tauto.
Qed.
Lemma three_keys_nodup mods : NoDup mods -> (forall m, In m mods -> clean m) -> 3 <= length mods ->
  NoDup (["train"; "test"; "dictionary"]%string ++ three_keys mods).
Proof.
  intros ND Cl H3. apply NoDup_app_intro.
  - repeat (constructor; [cbn; intuition discriminate|]). constructor.
  - unfold three_keys. apply NoDup_map_inj; [apply NoDup_prod; [now apply tested_nodup|apply suffixes_nodup]|].
    intros [[a b] s] [[a' b'] s'] I J E. cbn [fst snd] in E. apply in_prod_iff in I as [I Hs], J as [J Hs'].
    apply tested_valid in I as [Va Vb]; [|lia]. apply tested_valid in J as [Va' Vb']; [|lia]. apply (three_key_inj mods ND Cl) in E; auto.
  - intros k I J. unfold three_keys in J. apply in_map_iff in J as (c & <- & _). unfold three_key in I. cbn in I. intuition discriminate.
Qed.

(** ** Clashes. *)
Lemma map_clash {A B} (f : A -> B) l a b : In a l -> In b l -> a <> b -> f a = f b -> ~ NoDup (map f l).
Proof.
  intros Ia Ib N E ND. apply In_nth_error in Ia as [i Ei], Ib as [j Ej]. assert (i <> j) by congruence.
  apply H. apply (proj1 (NoDup_nth_error _) ND); [rewrite map_length; apply nth_error_Some; congruence|]. rewrite !nth_error_map, Ei, Ej. cbn. now rewrite E.
Qed.
Lemma app_not_nodup {A} (l l' : list A) : ~ NoDup l' -> ~ NoDup (l ++ l').
Proof. intros N ND. apply N. induction l as [|a l IH]; auto. cbn in ND. inversion ND; auto. Qed.
Lemma flat_not_nodup {A B} (f : A -> list B) (g : A -> B) l a b : (forall u, In u l -> exists r, f u = g u :: r) -> In a l -> In b l -> a <> b -> g a = g b -> ~ NoDup (flat_map f l).
Proof.
  intros H Ia Ib N E ND. apply (map_clash g l a b Ia Ib N E). clear Ia Ib N E. induction l as [|u l IH]; cbn in *; [constructor|].
  destruct (H u (or_introl eq_refl)) as [r Er]. rewrite Er in ND. cbn in ND. inversion ND as [|? ? N' ND']; subst. constructor.
  - intro I. apply N'. apply in_or_app. right. apply in_map_iff in I as (v & E & Iv). apply in_flat_map. exists v. split; auto.
    destruct (H v (or_intror Iv)) as [rv ->]. rewrite E. now left.
  - apply IH; [intros v Iv; apply H; now right|]. clear -ND'. induction r; auto. cbn in ND'. inversion ND'; auto.
Qed.
(** A modality with the name of a suffix. *)
Lemma two_keys_clash mods s : In s mods -> In s ["bis"; "frob"; "cosine"]%string -> ~ NoDup (["train"; "test"; "dictionary"]%string ++ two_keys mods).
Proof.
  intros I S. apply app_not_nodup. apply (In_nth _ _ ""%string) in I as (c & Hc & Ec).
  apply (flat_not_nodup _ (fun c => let '(m1, m2, cmp) := fst c in found_key mods m1 m2 cmp (snd c)) _ (0, 0, None, ("_" ++ s)%string) (0, 0, Some c, ""%string)).
  - intros [[[m1 m2] c'] s'] _. cbn. eauto.
  - apply in_prod_iff. split; [apply in_combinations; lia|]. cbn in *. destruct S as [<-|[<-|[<-|[]]]]; auto.
  - apply in_prod_iff. split; [apply in_combinations; lia|]. cbn. auto.
  - discriminate.
  - cbn [fst snd]. unfold found_key, exp_key. rewrite nil_r. unfold mod_name at 5. rewrite Ec. reflexivity.
Qed.
(** Two modalities in ThreeModalitiesExperiment. *)
Lemma three_keys_clash mods : length mods = 2 -> ~ NoDup (["train"; "test"; "dictionary"]%string ++ three_keys mods).
Proof.
  intro L. apply app_not_nodup. unfold three_keys. rewrite L.
  assert (E : exists l, list_prod (tested_combinations 2) suffixes = l /\ nth_error l 0 = Some ([0], [1], ""%string) /\ exists i, i <> 0 /\ nth_error l i = Some ([0], [1], ""%string)).
  { eexists. split; [reflexivity|]. split; [reflexivity|]. exists 12. split; [discriminate|reflexivity]. }
  destruct E as (l & -> & E0 & i & Ni & Ei). intro ND. apply Ni. symmetry.
  apply (proj1 (NoDup_nth_error _) ND); [rewrite map_length; apply nth_error_Some; congruence|]. now rewrite !nth_error_map, E0, Ei.
Qed.
