(** * Proofs about _import_module. *)

From Coq Require Import List String Ascii Bool Lia.
Import ListNotations.
From Verif Require Import pyimport_model pyimport_spec.
Local Open Scope string_scope.

Lemma startswith_starts p s : startswith p s = true <-> starts p s.
Proof.
  revert s. induction p as [|a p IH]; intro s; cbn.
  - split; auto. intros _. exists s. reflexivity.
  - destruct s as [|b s]; cbn; [split; [discriminate|intros (t & E); discriminate]|].
    rewrite andb_true_iff, Ascii.eqb_eq, IH. split.
    + intros (-> & t & ->). exists t. reflexivity.
    + intros (t & E). injection E as -> ->. split; auto. exists t. reflexivity.
Qed.
Lemma taken_name_false ignore n : truth ignore && startswith ignore n = false <-> taken_name ignore n.
Proof.
  unfold truth, taken_name. destruct (String.eqb ignore "") eqn:E; cbn.
  - apply String.eqb_eq in E. split; auto.
  - apply String.eqb_neq in E. rewrite <- startswith_starts. destruct (startswith ignore n); split.
    + discriminate.
    + intros [H|H]; congruence.
    + intros _. right. discriminate.
    + auto.
Qed.
Lemma prefix_inj p a b : p ++ a = p ++ b -> a = b.
Proof. induction p; cbn; auto. intro H. injection H. auto. Qed.
Lemma set_same {V} (g : @globals V) n v : set_global g n v n = Some v.
Proof. unfold set_global. now rewrite String.eqb_refl. Qed.
Lemma set_other {V} (g : @globals V) n m v : m <> n -> set_global g n v m = g m.
Proof. unfold set_global. intro H. apply String.eqb_neq in H. now rewrite H. Qed.

Section Loop.
Context {V : Type} (warn : bool) (prefix ignore : string).
Definition said (a : string) : string := "No Python implementation of " ++ a.
Definition step := @import_attr V warn prefix ignore.

Lemma step_skip g w a v : ~ taken_name ignore a -> step (g, w) (a, v) = (g, w).
Proof.
  intro H. unfold step, import_attr. destruct (truth ignore && startswith ignore a) eqn:E; auto.
  apply taken_name_false in E. contradiction.
Qed.
Lemma step_taken g w a v : taken_name ignore a -> prefix <> "" ->
  step (g, w) (a, v) = match g a with
    | Some old => (set_global (set_global g (prefix ++ a) old) a v, w)
    | None => (set_global g a v, if warn then (w ++ [said a])%list else w) end.
Proof.
  intros H P. unfold step, import_attr. apply taken_name_false in H. rewrite H. unfold truth.
  apply String.eqb_neq in P. rewrite P. cbn [negb]. destruct (g a); auto. destruct warn; reflexivity.
Qed.
Lemma step_plain g w a v : taken_name ignore a -> prefix = "" -> step (g, w) (a, v) = (set_global g a v, w).
Proof. intros H P. unfold step, import_attr. apply taken_name_false in H. rewrite H, P. reflexivity. Qed.
Lemma taken_dec a : taken_name ignore a \/ ~ taken_name ignore a.
Proof. destruct (truth ignore && startswith ignore a) eqn:E; rewrite <- taken_name_false, E; [right; discriminate|left; reflexivity]. Qed.

Definition news (g : @globals V) (a : string) : Prop := taken_name ignore a /\ g a = None.

Lemma loop_plain attrs : prefix = "" -> NoDup (map fst attrs) -> forall g w,
  exists g', fold_left step attrs (g, w) = (g', w) /\
    (forall a v, In (a, v) attrs -> taken_name ignore a -> g' a = Some v) /\
    (forall n, ~ (taken_name ignore n /\ In n (map fst attrs)) -> g' n = g n).
Proof.
  intro P. induction attrs as [|[a v] attrs IH]; intros N g w.
  - exists g. repeat split; auto. intros a v [].
  - cbn [map fst] in N. inversion N as [|? ? Na N']; subst. cbn [fold_left]. destruct (taken_dec a) as [T|T].
    + rewrite step_plain by auto. destruct (IH N' (set_global g a v) w) as (g' & E & A & B). exists g'.
      split; [exact E|]. split.
      * intros b u [H|H] Tb; [|eauto]. injection H as <- <-. rewrite B by tauto. apply set_same.
      * intros n Hn. cbn [map fst In] in Hn. rewrite B by tauto. apply set_other. intros ->. tauto.
    + rewrite step_skip by auto. destruct (IH N' g w) as (g' & E & A & B). exists g'.
      split; [exact E|]. split.
      * intros b u [H|H] Tb; [|eauto]. injection H as <- <-. contradiction.
      * intros n Hn. apply B. cbn [map fst In] in Hn. tauto.
Qed.

Lemma loop_prefix attrs : prefix <> "" -> NoDup (map fst attrs) -> 
  (forall a, In a (map fst attrs) -> taken_name ignore a -> ~ starts prefix a) -> forall g w,
  exists g' ns, fold_left step attrs (g, w) = (g', (w ++ if warn then map said ns else [])%list) /\
    those (news g) (map fst attrs) ns /\
    (forall a v, In (a, v) attrs -> taken_name ignore a -> g' a = Some v) /\
    (forall a old, In a (map fst attrs) -> taken_name ignore a -> g a = Some old -> g' (prefix ++ a) = Some old) /\
    (forall n, ~ (taken_name ignore n /\ In n (map fst attrs)) ->
       (forall a, n = prefix ++ a -> taken_name ignore a -> In a (map fst attrs) -> g a = None) -> g' n = g n).
Proof.
  intro P. induction attrs as [|[a v] attrs IH]; intros N C g w.
  - exists g, []. cbn. split; [destruct warn; now rewrite app_nil_r|]. split; [constructor|].
    repeat split; auto; intros; contradiction.
  - cbn [map fst] in N. inversion N as [|? ? Na N']; subst. cbn [fold_left map fst]. 
    assert (C' : forall b, In b (map fst attrs) -> taken_name ignore b -> ~ starts prefix b) by (intros; apply C; cbn; auto).
    destruct (taken_dec a) as [T|T].
    + assert (Ca : ~ starts prefix a) by (apply C; cbn; auto). rewrite step_taken by auto.
      assert (D : forall g2, (forall b, In b (map fst attrs) -> taken_name ignore b -> g2 b = g b) ->
        forall ns, those (news g2) (map fst attrs) ns -> those (news g) (map fst attrs) ns).
      { clear. intros g2 H ns Q. revert H. induction Q as [|x xs ys Px Q IQ|x xs ys Px Q IQ]; intro H.
        - constructor.
        - constructor; [|apply IQ; intros; apply H; cbn; auto]. destruct Px as (T & G). split; auto.
          rewrite <- H; cbn; auto.
        - apply those_out; [|apply IQ; intros; apply H; cbn; auto]. intros (T & G). apply Px. split; auto.
          rewrite H; cbn; auto. }
      destruct (g a) as [old|] eqn:G.
      * destruct (IH N' C' (set_global (set_global g (prefix ++ a) old) a v) w) as (g' & ns & E & W & A & B & F).
        assert (K : forall b, In b (map fst attrs) -> taken_name ignore b ->
          set_global (set_global g (prefix ++ a) old) a v b = g b).
        { intros b Hb Tb. rewrite !set_other; auto.
          - intros ->. apply (C' _ Hb Tb). exists a. reflexivity.
          - intros ->. contradiction. }
        exists g', ns. split; [exact E|]. split; [apply those_out; [intros (_ & H); congruence|apply (D _ K), W]|].
        split; [|split].
        -- intros b u [H|H] Tb; [|eauto]. injection H as <- <-. rewrite F; [apply set_same|tauto|].
           intros c -> _ _. exfalso. apply Ca. exists c. reflexivity.
        -- intros b o Hb Tb Gb. destruct Hb as [<-|Hb]; [|apply B; auto; rewrite K; auto].
           rewrite F.
           ++ rewrite set_other by (intro H; apply Ca; exists a; auto). rewrite set_same. congruence.
           ++ intros (Tp & Hp). apply (C' _ Hp Tp). exists a. reflexivity.
           ++ intros c H Tc Hc. apply prefix_inj in H. subst c. contradiction.
        -- intros n Hn Hp. cbn [In] in Hn, Hp. rewrite F; [|tauto|].
           ++ rewrite !set_other; auto.
              ** intros ->. specialize (Hp a eq_refl T (or_introl eq_refl)). congruence.
              ** intros ->. apply Hn. auto.
           ++ intros c -> Tc Hc. rewrite K by auto. apply (Hp c); auto.
      * destruct (IH N' C' (set_global g a v) (if warn then (w ++ [said a])%list else w)) as (g' & ns & E & W & A & B & F).
        assert (K : forall b, In b (map fst attrs) -> taken_name ignore b -> set_global g a v b = g b).
        { intros b Hb Tb. rewrite set_other; auto. intros ->. contradiction. }
        exists g', (a :: ns). split; [rewrite E; destruct warn; cbn [map]; now rewrite <- ?app_assoc|].
        split; [apply those_in; [split; auto|apply (D _ K), W]|]. split; [|split].
        -- intros b u [H|H] Tb; [|eauto]. injection H as <- <-. rewrite F; [apply set_same|tauto|].
           intros c -> _ _. exfalso. apply Ca. exists c. reflexivity.
        -- intros b o Hb Tb Gb. destruct Hb as [<-|Hb]; [congruence|]. apply B; auto. rewrite K; auto.
        -- intros n Hn Hp. cbn [In] in Hn, Hp. rewrite F; [|tauto|].
           ++ rewrite set_other; auto. intros ->. apply Hn. auto.
           ++ intros c -> Tc Hc. rewrite K by auto. apply (Hp c); auto.
    + rewrite step_skip by auto. destruct (IH N' C' g w) as (g' & ns & E & W & A & B & F).
      exists g', ns. split; [exact E|]. split; [apply those_out; [intros (H & _); contradiction|exact W]|].
      split; [|split].
      * intros b u [H|H] Tb; [|eauto]. injection H as <- <-. contradiction.
      * intros b o [<-|Hb] Tb Gb; [contradiction|]. eauto.
      * intros n Hn Hp. cbn [In] in Hn, Hp. apply F; [tauto|]. intros c H Tc Hc. apply (Hp c); auto.
Qed.
End Loop.

Lemma import_prefixed {V} (g : @globals V) name attrs warn prefix ignore :
  prefix <> "" -> NoDup (map fst attrs) ->
  (forall a, In a (map fst attrs) -> taken_name ignore a -> ~ starts prefix a) ->
  exists g' ns, import_module g name (Some attrs) warn prefix ignore =
      (g', if warn then map (fun a => "No Python implementation of " ++ a) ns else [], Some true) /\
    those (fun a => taken_name ignore a /\ g a = None) (map fst attrs) ns /\
    (forall a v, In (a, v) attrs -> taken_name ignore a -> g' a = Some v) /\
    (forall a old, In a (map fst attrs) -> taken_name ignore a -> g a = Some old -> g' (prefix ++ a) = Some old) /\
    (forall n, ~ (taken_name ignore n /\ In n (map fst attrs)) ->
       (forall a, n = prefix ++ a -> taken_name ignore a -> In a (map fst attrs) -> g a = None) -> g' n = g n).
Proof.
  intros P N C. destruct (loop_prefix warn prefix ignore attrs P N C g []) as (g' & ns & E & R).
  exists g', ns. split; [|exact R]. unfold import_module. unfold step in E. rewrite E. reflexivity.
Qed.
Lemma import_plain {V} (g : @globals V) name attrs warn ignore : NoDup (map fst attrs) ->
  exists g', import_module g name (Some attrs) warn "" ignore = (g', [], Some true) /\
    (forall a v, In (a, v) attrs -> taken_name ignore a -> g' a = Some v) /\
    (forall n, ~ (taken_name ignore n /\ In n (map fst attrs)) -> g' n = g n).
Proof.
  intro N. destruct (loop_plain warn "" ignore attrs eq_refl N g []) as (g' & E & R).
  exists g'. split; [|exact R]. unfold import_module. unfold step in E. rewrite E. reflexivity.
Qed.
Lemma default_free a : taken_name default_ignore a -> ~ starts default_prefix a.
Proof.
  intros [H|H] (t & E); [discriminate|]. apply H. exists ("py_" ++ t). exact E.
Qed.
Lemma import_default {V} (g : @globals V) name attrs : NoDup (map fst attrs) ->
  exists g' ns, import_module g name (Some attrs) default_warn default_prefix default_ignore =
      (g', map (fun a => "No Python implementation of " ++ a) ns, Some true) /\
    those (fun a => ~ starts "_" a /\ g a = None) (map fst attrs) ns /\
    (forall a v, In (a, v) attrs -> ~ starts "_" a -> g' a = Some v) /\
    (forall a old, In a (map fst attrs) -> ~ starts "_" a -> g a = Some old -> g' ("_py_" ++ a) = Some old) /\
    (forall n, (starts "_" n \/ ~ In n (map fst attrs)) ->
       (forall a, n = "_py_" ++ a -> ~ starts "_" a -> In a (map fst attrs) -> g a = None) -> g' n = g n).
Proof.
  intro N. destruct (import_prefixed g name attrs default_warn default_prefix default_ignore) as (g' & ns & E & W & A & B & F);
    [discriminate|exact N|intros; now apply default_free|]. exists g', ns.
  assert (T : forall a, taken_name default_ignore a <-> ~ starts "_" a).
  { intro a. split; [intros [H|H]; [discriminate|exact H]|right; exact H]. }
  split; [exact E|]. split; [|split; [|split]].
  - clear - W T. induction W as [|x xs ys (P1 & P2) W IW|x xs ys P W IW]; [constructor| |].
    + constructor; auto. split; auto. now apply T.
    + apply those_out; auto. rewrite <- T. exact P.
  - intros a v H Ha. apply A; auto. now apply T.
  - intros a old H Ha. apply B; auto. now apply T.
  - intros n H H2. apply F; [rewrite T; tauto|]. intros a En Ta. apply H2; auto. now apply T.
Qed.
Lemma import_failed {V} (g : @globals V) name warn prefix ignore :
  import_module g name None warn prefix ignore = (g, if warn then ["Failed to import module " ++ name] else [], None).
Proof. reflexivity. Qed.
(** Importing twice: the names kept are those of the module. *)
Lemma import_twice {V} (g : @globals V) name attrs g1 w1 r1 : NoDup (map fst attrs) ->
  import_module g name (Some attrs) default_warn default_prefix default_ignore = (g1, w1, r1) ->
  exists g2, import_module g1 name (Some attrs) default_warn default_prefix default_ignore = (g2, [], Some true) /\
    forall a v, In (a, v) attrs -> ~ starts "_" a -> g2 a = Some v /\ g2 ("_py_" ++ a) = Some v.
Proof.
  intros N E1. destruct (import_default g name attrs N) as (g' & ns & E & _ & A & _). rewrite E1 in E. injection E as -> _ _.
  destruct (import_default g' name attrs N) as (g2 & ns2 & E2 & W & A2 & B2 & _). exists g2. split.
  - rewrite E2. assert (ns2 = []); [|now subst]. clear - W A.
    assert (H : forall a, In a (map fst attrs) -> ~ starts "_" a -> g' a <> None).
    { intros a Ha Ta. apply in_map_iff in Ha. destruct Ha as ((b & v) & <- & Hb). cbn in *. rewrite (A _ _ Hb Ta). discriminate. }
    clear A. induction W as [|x xs ys (P1 & P2) W IW|x xs ys P W IW]; auto.
    + exfalso. apply (H x); cbn; auto.
    + apply IW. intros a Ha. apply H. cbn. auto.
  - intros a v H Ta. split; [eauto|]. apply B2; [apply in_map_iff; exists (a, v); auto|exact Ta|eauto].
Qed.
Lemma app_assoc_s (a b c : string) : (a ++ b) ++ c = a ++ b ++ c.
Proof. induction a; cbn; congruence. Qed.
(** Without ignored names a kept name can replace an imported one. *)
Lemma app_longer p s : p <> "" -> s <> p ++ s.
Proof.
  intros Hp H. apply Hp. assert (L : forall q t : string, String.length (q ++ t) = (String.length q + String.length t)%nat).
  { induction q; cbn; congruence. }
  apply (f_equal String.length) in H. rewrite L in H. destruct p; auto. cbn in H. exfalso. lia.
Qed.
Lemma import_clash {V} (g : @globals V) name x old v u warn prefix : prefix <> "" -> g x = Some old ->
  exists g' w r, import_module g name (Some [(prefix ++ x, v); (x, u)]) warn prefix "" = (g', w, r) /\
    g' (prefix ++ x) = Some old.
Proof.
  intros P G. unfold import_module. cbn [fold_left]. remember (prefix ++ x) as p eqn:Ep.
  assert (Xp : x <> p) by (subst p; now apply app_longer).
  assert (T : forall a, taken_name "" a) by (left; reflexivity).
  change (@import_attr V warn prefix "") with (@step V warn prefix "").
  rewrite (step_taken warn prefix "" g [] p v) by auto.
  assert (Q : forall (g1 : @globals V) w1, g1 x = Some old -> exists g' w r,
    (let '(g', w) := @step V warn prefix "" (g1, w1) (x, u) in (g', w, Some true)) = (g', w, r) /\ g' p = Some old).
  { intros g1 w1 G1. rewrite step_taken by auto. rewrite G1. do 3 eexists. split; [reflexivity|].
    rewrite set_other by auto. rewrite <- Ep. apply set_same. }
  destruct (g p) as [o|]; apply Q; rewrite set_other by auto; auto. rewrite set_other; auto.
  intro H. apply (app_longer (prefix ++ prefix) x).
  - destruct prefix; [contradiction|discriminate].
  - rewrite app_assoc_s. congruence.
Qed.
