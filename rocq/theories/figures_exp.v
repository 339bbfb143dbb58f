(** * Lemmas about the figures and tables: those of experiments. *)

From Coq Require Import List ZArith Reals Bool Arith String QArith Qreals Lia Lra.
Import ListNotations.
From Verif Require Import Py Py_proof nd_model nd_spec logger_model logger_spec experiment_model experiment_spec experiment_proof
  figures_model figures_spec figures_proof figures_draw.
From Verif Require experiment_end info_keys.
Local Open Scope nat_scope.

Lemma choose_list {A B} (P : nat -> A -> B -> Prop) l : forall k, (forall q a, nth_error l q = Some a -> exists b, P (k + q) a b) ->
  exists bs, List.length bs = List.length l /\ forall q a b, nth_error l q = Some a -> nth_error bs q = Some b -> P (k + q) a b.
Proof.
  induction l as [|a l IH]; intros k H; [exists []; split; [reflexivity|]; intros [|q]; discriminate|].
  destruct (H 0 a eq_refl) as [b Hb]. destruct (IH (S k)) as (bs & L & F).
  { intros q a' E. destruct (H (S q) a' E) as [b' X]. exists b'. now replace (S k + q) with (k + S q) by lia. }
  exists (b :: bs). split; [cbn; congruence|]. intros [|q] a' b' E E'; cbn in E, E'.
  - assert (a' = a) by congruence. assert (b' = b) by congruence. now subst.
  - replace (k + S q) with (S k + q) by lia. now apply F.
Qed.
Lemma app_nil_s (s : string) : (s ++ "")%string = s.
Proof. induction s as [|c s IH]; cbn; [reflexivity|now rewrite IH]. Qed.
Lemma known_clean m : known m -> clean m.
Proof. intros [<-|[<-|[<-|[]]]]; unfold clean, lacks; cbn; intuition discriminate. Qed.

(** The scores of all runs. *)
Definition all_runs (w : world) (key : string) (P : list nat * list nat -> R -> Prop) (splits : list (list nat * list nat)) : Prop :=
  exists xs, scored w 0 key xs /\ Forall2 P splits xs.
Lemma all_runs_of w key P splits : runs_of w 0 = Some (List.length splits) ->
  (forall q s, nth_error splits q = Some s -> exists f, value_at w 0 q key = Some (VFloat f) /\ P s (Q2R f)) -> all_runs w key P splits.
Proof.
  intros R H. destruct (choose_list (fun q s f => value_at w 0 q key = Some (VFloat f) /\ P s (Q2R f)) splits 0) as (fs & L & F).
  { intros q s E. apply H. exact E. }
  exists (map Q2R fs). split; [split; [rewrite map_length; congruence|]|].
  - intros q v E. rewrite nth_error_map in E. destruct (nth_error fs q) as [g|] eqn:Eg; [|discriminate]. cbn in E. exists g. split; [|congruence].
    destruct (nth_error splits q) as [s|] eqn:Es; [now apply (F q s g)|]. apply nth_error_None in Es. assert (X : nth_error fs q <> None) by congruence. apply nth_error_Some in X. lia.
  - apply f2_of_nth; [rewrite map_length; congruence|]. intros q s v Es E. rewrite nth_error_map in E. destruct (nth_error fs q) as [g|] eqn:Eg; [|discriminate]. cbn in E.
    assert (v = Q2R g) by congruence. subst v. now apply (F q s g).
Qed.

Lemma run_clean rd x f : sound x -> legal x rd -> enough x rd -> x_kind x <> Base -> (forall m, In m (x_mods x) -> clean m) ->
  (x_kind x = Three -> List.length (x_mods x) = 3) ->
  exists p splits w, prepare rd x = Ok p /\ p_generator p = Ok splits /\ splits <> [] /\ run_world rd x f = (w, Ok tt) /\
    get_value w 0 "modalities" = Ok (VList (map VStr (x_mods x))) /\
    (x_kind x = Two -> forall m1 m2 cmp s, m1 < List.length (x_mods x) -> m2 < List.length (x_mods x) ->
       match cmp with None => True | Some c => c < List.length (x_mods x) end -> In s suffixes ->
       all_runs w (score_key (x_mods x) m1 m2 cmp s) (two_score x p m1 m2 cmp s) splits) /\
    (x_kind x = Three -> forall ms1 ms2 s, In (ms1, ms2) (tested_combinations 3) -> In s suffixes ->
       all_runs w (three_key (x_mods x) ms1 ms2 s) (three_score x p ms1 ms2 s) splits).
Proof.
  intros S L E K Kn N. destruct (experiment_end.run_succeeds rd x f S L E K) as (p & splits & w & Ep & Eg & Ns & _ & Er & Hr & H).
  { exact Kn. } { intro X. rewrite (N X). lia. }
  exists p, splits, w. split; [exact Ep|]. split; [exact Eg|]. split; [exact Ns|]. split; [exact Er|]. split; [|split].
  - apply (info_keys.written_some rd x f w (Ok tt) p splits Er Ep Eg). now left.
  - intros X m1 m2 cmp s H1 H2 Hc Hs. apply all_runs_of; [exact Hr|]. intros q [tr te] Eq. destruct (H q tr te Eq) as (l & d & truth & _ & _ & T & _ & Lb & Res).
    rewrite X in Res. destruct (Res m1 m2 cmp s H1 H2 Hc Hs) as (a & b & found & v & A & B & Ne & Sc & _ & V).
    pose proof Sc as (g & -> & _). exists g. split; [exact V|]. exists l, d, truth, a, b, found, g. cbn [fst snd]. auto 10.
  - intros X ms1 ms2 s I Hs. apply all_runs_of; [exact Hr|]. intros q [tr te] Eq. destruct (H q tr te Eq) as (l & d & truth & _ & _ & T & _ & Lb & Res).
    rewrite X in Res. rewrite <- (N X) in I. destruct (Res ms1 ms2 s I Hs) as (a & b & found & v & A & B & Ne & Sc & V).
    pose proof Sc as (g & -> & _). exists g. split; [exact V|]. exists l, d, truth, a, b, found, g. cbn [fst snd]. auto 10.
Qed.
Lemma all_clean (mods : list string) : (forall m, In m mods -> known m) -> forall m, In m mods -> clean m.
Proof. intros H m I. apply known_clean, H, I. Qed.
Lemma runs_scored w w' j key P splits : all_runs w key P splits -> recorded w w' j -> exists xs, scored w' j key xs /\ Forall2 P splits xs.
Proof. intros (xs & S & F) R. exists xs. split; [exact (recorded_scored _ _ _ _ _ S R)|exact F]. Qed.
Lemma runs_nonempty {A B} (P : A -> B -> Prop) splits xs : splits <> [] -> Forall2 P splits xs -> xs <> [].
Proof. intros N F. destruct F; [congruence|discriminate]. Qed.

(** ** Two modalities *)
Lemma names_nth (mods : list string) m : m < List.length mods -> nth_error mods m = Some (mod_name mods m).
Proof. intro H. unfold mod_name. now apply nth_error_nth'. Qed.
Lemma names_inj (mods : list string) m m' : NoDup mods -> m < List.length mods -> m' < List.length mods -> mod_name mods m = mod_name mods m' -> m = m'.
Proof. intros N H H' E. unfold mod_name in E. exact (proj1 (NoDup_nth mods ""%string) N m m' H H' E). Qed.
Lemma names_in (mods : list string) m : m < List.length mods -> In (mod_name mods m) mods.
Proof. intro H. unfold mod_name. now apply nth_In. Qed.
Lemma in_names (mods : list string) i : In i mods -> exists m, m < List.length mods /\ mod_name mods m = i.
Proof. intro I. apply (In_nth _ _ ""%string) in I as (m & H & E). eauto. Qed.

(** Scores for all the pairs give the boxes of the pairs. *)
Lemma pair_boxes w i mods (P : nat -> nat -> list R -> Prop) : NoDup mods -> (forall m, In m mods -> known m) ->
  (forall m1 m2, m1 < List.length mods -> m2 < List.length mods -> m1 <> m2 ->
     exists xs, scored w i (score_key mods m1 m2 None "_cosine") xs /\ P m1 m2 xs) ->
  exists bs, plot_boxes_one_exp_pairs true w i mods true = Ok bs /\ List.length bs = List.length mods * (List.length mods - 1) /\
    forall m1 m2, m1 < List.length mods -> m2 < List.length mods -> m1 <> m2 -> exists b, In b bs /\
      b_label b = (mod_name mods m1 ++ " $\rightarrow$ " ++ mod_name mods m2)%string /\ P m1 m2 (b_values b).
Proof.
  intros N K H.
  destruct (boxes_ok w i (all_pairs mods) true (fun m xs => forall m1 m2, m1 < List.length mods -> m2 < List.length mods ->
    m = ([mod_name mods m1], [mod_name mods m2]) -> P m1 m2 xs)) as (bs & E & F).
  { intros [a b] I. apply pairs_in in I as (i1 & i2 & -> & -> & I1 & I2 & D). apply in_names in I1 as (m1 & H1 & <-). apply in_names in I2 as (m2 & H2 & <-).
    assert (D' : m1 <> m2) by congruence. split; [|apply color_some; auto using names_in]. destruct (H m1 m2 H1 H2 D') as (xs & Sc & Px). exists xs. split; [exact Sc|].
    intros m1' m2' H1' H2' X. assert (m1 = m1') by (apply (names_inj mods); auto; congruence). assert (m2 = m2') by (apply (names_inj mods); auto; congruence). now subst. }
  exists bs. split; [exact E|]. split; [rewrite <- (f2_len _ _ _ F); now apply pairs_length|].
  intros m1 m2 H1 H2 D. assert (I : In ([mod_name mods m1], [mod_name mods m2]) (all_pairs mods)).
  { apply pairs_in. exists (mod_name mods m1), (mod_name mods m2). repeat split; auto using names_in. intro X. apply D. now apply (names_inj mods). }
  apply In_nth_error in I as [q I]. destruct (f2_nth _ _ _ F q _ I) as (b & Eb & V & _ & Lb). exists b. split; [eapply nth_error_In; eauto|]. split; [exact Lb|].
  now apply V.
Qed.
Lemma two_figures rd x f : sound x -> legal x rd -> enough x rd -> x_kind x = Two -> (forall m, In m (x_mods x) -> known m) ->
  exists p splits w, prepare rd x = Ok p /\ p_generator p = Ok splits /\ run_world rd x f = (w, Ok tt) /\
  forall w' j, recorded w w' j ->
    (exists bs, plot_boxes_one_exp_pairs true w' j (x_mods x) true = Ok bs /\ List.length bs = List.length (x_mods x) * (List.length (x_mods x) - 1) /\
       forall m1 m2, m1 < List.length (x_mods x) -> m2 < List.length (x_mods x) -> m1 <> m2 -> exists b, In b bs /\
         b_label b = (mod_name (x_mods x) m1 ++ " $\rightarrow$ " ++ mod_name (x_mods x) m2)%string /\
         Forall2 (two_score x p m1 m2 None "_cosine") splits (b_values b)) /\
    forall m1 m2 k metric st bars, m1 < List.length (x_mods x) -> m2 < List.length (x_mods x) -> m1 <> m2 ->
      exists c m s xs, plot_one_curve w' [j] ([mod_name (x_mods x) m1], [mod_name (x_mods x) m2]) [k] metric st bars = Ok c /\
        c_points c = [(k, m)] /\ c_var c = [s] /\ average_of xs m /\ deviation_of xs m s /\ Forall2 (two_score x p m1 m2 None "") splits xs.
Proof.
  intros S L E K Kn. destruct (run_clean rd x f S L E) as (p & splits & w & Ep & Eg & Ns & Er & _ & H & _); eauto using all_clean; [congruence|congruence|].
  exists p, splits, w. split; [exact Ep|]. split; [exact Eg|]. split; [exact Er|]. intros w' j R. specialize (H K).
  assert (Nd : NoDup (x_mods x)) by apply S. split.
  - apply (pair_boxes w' j (x_mods x) (fun m1 m2 xs => Forall2 (two_score x p m1 m2 None "_cosine") splits xs)); auto. intros m1 m2 H1 H2 _.
    apply (runs_scored w w' j _ _ _ (H m1 m2 None "_cosine"%string H1 H2 I (or_intror (or_intror (or_intror (or_introl eq_refl))))) R).
  - intros m1 m2 k metric st bars H1 H2 D. destruct (runs_scored w w' j _ _ _ (H m1 m2 None ""%string H1 H2 I (or_introl eq_refl)) R) as (xs & Sc & F).
    assert (Nx : List.length xs <> 0). { apply runs_nonempty in F; auto. destruct xs; [congruence|discriminate]. }
    destruct (curve_drawn w' [j] (mod_name (x_mods x) m1) (mod_name (x_mods x) m2) [k] metric st bars (List.length xs) [xs]) as (c & Ec & _ & _ & L1 & L2 & Hc); auto using names_in; try discriminate.
    { intro X. apply D. now apply (names_inj (x_mods x)). }
    { intros [|[|i]] ys Ey; try discriminate. cbn in Ey. assert (ys = xs) by congruence. subst ys. split; [reflexivity|]. exists j. split; [reflexivity|].
      unfold score_key, exp_key in Sc. cbn [append] in Sc. rewrite !app_nil_s in Sc. exact Sc. }
    destruct (Hc 0 k xs eq_refl eq_refl) as (m & s & E1 & E2 & A & B). exists c, m, s, xs. split; [exact Ec|].
    cbn in L1, L2. destruct (c_points c) as [|u [|]]; try discriminate. destruct (c_var c) as [|u' [|]]; try discriminate. cbn in E1, E2.
    repeat split; try congruence; auto; apply B.
Qed.
