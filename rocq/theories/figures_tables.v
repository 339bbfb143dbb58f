(** * Lemmas about the figures and tables: three modalities, groups of figures, tables. *)

From Coq Require Import List ZArith Reals Bool Arith String QArith Qreals Lia Lra.
Import ListNotations.
From Verif Require Import Py Py_proof nd_model nd_spec logger_model logger_spec experiment_model experiment_spec experiment_proof
  figures_model figures_spec figures_proof figures_draw figures_exp.
Local Open Scope nat_scope.

(** ** Three modalities *)
Lemma combinations_three mods : NoDup mods -> List.length mods = 3 ->
  combinations mods = map (fun c => (map (mod_name mods) (fst c), map (mod_name mods) (snd c))) three_shown.
Proof.
  intros N L. destruct mods as [|a [|b [|c [|]]]]; try discriminate. clear L.
  assert (a <> b /\ a <> c /\ b <> c) as (A & B & C). { inversion N as [|? ? N1 N2]; subst. inversion N2 as [|? ? N3 N4]; subst. cbn in N1, N3. intuition. }
  unfold combinations, all_pairs. cbn [flat_map filter map].
  rewrite !String.eqb_refl. rewrite (proj2 (String.eqb_neq a b)), (proj2 (String.eqb_neq a c)), (proj2 (String.eqb_neq b c)), (proj2 (String.eqb_neq b a)), (proj2 (String.eqb_neq c a)), (proj2 (String.eqb_neq c b)) by congruence.
  reflexivity.
Qed.
Lemma shown_tested c : In c three_shown -> In c (tested_combinations 3).
Proof. intro H. cbn in H |- *. tauto. Qed.
Lemma split3_nine {A} (l : list A) : List.length l = 9 ->
  exists g, split3 l = Ok g /\ List.concat g = l /\ List.length g = 3 /\ forall k, In k g -> List.length k = 3.
Proof.
  intro L. unfold split3. rewrite L. cbn [Nat.div Nat.divmod fst Nat.mul Nat.add Nat.eqb].
  do 9 (destruct l as [|? l]; [discriminate|]). destruct l; [|discriminate]. cbn. eexists. split; [reflexivity|]. split; [reflexivity|]. split; [reflexivity|].
  intros k [<-|[<-|[<-|[]]]]; reflexivity.
Qed.
Lemma all_mods_boxes w' j mods v (P : list nat * list nat -> list R -> Prop) : NoDup mods -> (forall m, In m mods -> known m) -> List.length mods = 3 ->
  get_value w' j "modalities"%string = Ok v -> names_of v = Ok mods ->
  (forall c, In c three_shown -> exists xs, scored w' j (three_key mods (fst c) (snd c) "_cosine") xs /\ P c xs) ->
  exists bs groups, plot_boxes_all_mods true w' j = Ok (bs, groups) /\ List.concat groups = bs /\ List.length groups = 3 /\ (forall g, In g groups -> List.length g = 3) /\
    Forall2 (fun c b => b_label b = (join_with ", " (map (mod_name mods) (fst c)) ++ " $\rightarrow$ " ++ join_with ", " (map (mod_name mods) (snd c)))%string /\
                        P c (b_values b)) three_shown bs.
Proof.
  intros Nd Kn N Ev Nv H.
  unfold plot_boxes_all_mods. rewrite Ev. cbn [bind]. rewrite Nv. cbn [bind]. rewrite combinations_three by assumption.
  set (nm := fun c : list nat * list nat => (map (mod_name mods) (fst c), map (mod_name mods) (snd c))).
  destruct (boxes_ok w' j (map nm three_shown) false (fun m xs => forall c, In c three_shown -> nm c = m -> P c xs)) as (bs & Eb & F).
  { intros m I. apply in_map_iff in I as (c & <- & I). split.
    - destruct c as [ms1 ms2]. destruct (H (ms1, ms2) I) as (xs & Sc & Fx).
      exists xs. split; [exact Sc|]. intros c' I' X. assert (c' = (ms1, ms2)); [|subst; exact Fx].
      assert (Inj : forall l l', (forall i, In i l -> i < 3) -> (forall i, In i l' -> i < 3) -> map (mod_name mods) l = map (mod_name mods) l' -> l = l').
      { clear - Nd N. induction l as [|a l IH]; intros [|b l'] Hl Hl' E; try discriminate; [reflexivity|]. cbn in E. f_equal; [|apply IH; [intros; apply Hl; now right|intros; apply Hl'; now right|congruence]].
        apply (names_inj mods); [exact Nd|rewrite N; apply Hl; now left|rewrite N; apply Hl'; now left|congruence]. }
      assert (B : forall c, In c three_shown -> forall i, In i (fst c) \/ In i (snd c) -> i < 3).
      { clear. intros c Hc i. unfold three_shown in Hc. repeat (destruct Hc as [<-|Hc]; [cbn; intuition lia|]). destruct Hc. }
      unfold nm in X. cbn [fst snd] in X. rewrite (surjective_pairing c'). f_equal.
      + apply Inj; [intros i Hi; exact (B c' I' i (or_introl Hi))|intros i Hi; exact (B _ I i (or_introl Hi))|congruence].
      + apply Inj; [intros i Hi; exact (B c' I' i (or_intror Hi))|intros i Hi; exact (B _ I i (or_intror Hi))|congruence].
    - assert (X : exists k, snd c = [k] /\ k < 3). { clear - I. unfold three_shown in I. repeat (destruct I as [<-|I]; [eexists; split; [reflexivity|lia]|]). destruct I. }
      destruct X as (k & Ek & Hk). unfold nm. rewrite Ek. cbn [map fst snd]. apply color_other. apply Kn, names_in. lia. }
  rewrite Eb. cbn [bind]. destruct (split3_nine bs) as (g & Eg' & Cg & Lg & Hg). { rewrite <- (f2_len _ _ _ F), map_length. reflexivity. }
  rewrite Eg'. cbn [bind]. exists bs, g. repeat (split; [assumption || reflexivity|]). 
  assert (X : forall l bs, (forall c, In c l -> In c three_shown) -> Forall2 (fun m b => (forall c, In c three_shown -> nm c = m -> P c (b_values b)) /\ get_color_for_modalities (fst m) (snd m) false = Ok (b_color b) /\
      b_label b = (join_with ", " (fst m) ++ " $\rightarrow$ " ++ join_with ", " (snd m))%string) (map nm l) bs -> Forall2 (fun c b => b_label b = (join_with ", " (map (mod_name mods) (fst c)) ++ " $\rightarrow$ " ++ join_with ", " (map (mod_name mods) (snd c)))%string /\
                          P c (b_values b)) l bs).
  { clear. induction l as [|c l IH]; intros bs I F; cbn [map] in F; inversion F as [|? b ? bs' (V & _ & Lb) F']; subst; constructor; [|apply IH; auto; intros; apply I; now right].
    split; [exact Lb|]. apply V; [apply I; now left|reflexivity]. }
  apply X; auto.
Qed.
Lemma three_figures rd x f : sound x -> legal x rd -> enough x rd -> x_kind x = Three -> (forall m, In m (x_mods x) -> known m) -> List.length (x_mods x) = 3 ->
  exists p splits w, prepare rd x = Ok p /\ p_generator p = Ok splits /\ run_world rd x f = (w, Ok tt) /\
  forall w' j, recorded w w' j ->
    exists bs groups, plot_boxes_all_mods true w' j = Ok (bs, groups) /\ List.concat groups = bs /\ List.length groups = 3 /\ (forall g, In g groups -> List.length g = 3) /\
      Forall2 (fun c b => b_label b = (join_with ", " (map (mod_name (x_mods x)) (fst c)) ++ " $\rightarrow$ " ++ join_with ", " (map (mod_name (x_mods x)) (snd c)))%string /\
                          Forall2 (three_score x p (fst c) (snd c) "_cosine") splits (b_values b)) three_shown bs.
Proof.
  intros S L E K Kn N. destruct (run_clean rd x f S L E) as (p & splits & w & Ep & Eg & Ns & Er & G & _ & H); eauto using all_clean; [congruence|].
  exists p, splits, w. split; [exact Ep|]. split; [exact Eg|]. split; [exact Er|]. intros w' j R. specialize (H K).
  destruct (recorded_names w w' j (x_mods x) G R) as (v & Ev & Nv).
  apply (all_mods_boxes w' j (x_mods x) v (fun c xs => Forall2 (three_score x p (fst c) (snd c) "_cosine") splits xs)); auto; [apply S|].
  intros [ms1 ms2] I. exact (runs_scored w w' j _ _ _ (H ms1 ms2 "_cosine"%string (shown_tested _ I) (or_intror (or_intror (or_intror (or_introl eq_refl))))) R).
Qed.
(** ** Groups of boxes and of curves *)
Lemma figure_boxes w d lg3 v mods (P : (string * string) * nat -> string -> string -> list R -> Prop) (P3 : string -> string -> list R -> Prop) : d <> [] ->
  (forall m1 m2 lg, In ((m1, m2), lg) d -> known m1 /\ known m2 /\ m1 <> m2 /\
     (exists xs, scored w lg ("score_" ++ m1 ++ "2" ++ m2 ++ "_cosine")%string xs /\ P ((m1, m2), lg) m1 m2 xs) /\
     (exists xs, scored w lg ("score_" ++ m2 ++ "2" ++ m1 ++ "_cosine")%string xs /\ P ((m1, m2), lg) m2 m1 xs)) ->
  get_value w lg3 "modalities" = Ok v -> names_of v = Ok mods -> (forall m, In m mods -> known m) ->
  (forall m1 m2, In m1 mods -> In m2 mods -> m1 <> m2 -> exists xs, scored w lg3 ("score_" ++ m1 ++ "2" ++ m2 ++ "_cosine")%string xs /\ P3 m1 m2 xs) ->
  exists panels last, plot_boxes true w d lg3 = Ok (panels, last) /\
    Forall2 (fun e panel => exists b1 b2, panel = ((fst (fst e) ++ ", " ++ snd (fst e))%string, [b1; b2]) /\
      b_label b1 = (fst (fst e) ++ " $\rightarrow$ " ++ snd (fst e))%string /\ b_label b2 = (snd (fst e) ++ " $\rightarrow$ " ++ fst (fst e))%string /\
      P e (fst (fst e)) (snd (fst e)) (b_values b1) /\ P e (snd (fst e)) (fst (fst e)) (b_values b2)) d panels /\
    List.length (snd last) = List.length (all_pairs mods) /\
    forall m1 m2, In m1 mods -> In m2 mods -> m1 <> m2 -> exists b, In b (snd last) /\ b_label b = (m1 ++ " $\rightarrow$ " ++ m2)%string /\ P3 m1 m2 (b_values b).
Proof.
  intros Nd H Ev Nv Kn H3. unfold plot_boxes.
  destruct (mapM_each (fun l : (string * string) * nat => let '((m1, m2), lg) := l in
    bind (plot_boxes_one_exp_pairs true w lg [m1; m2] true) (fun b => Ok (join_with ", " [m1; m2], b)))
    (fun e panel => exists b1 b2, panel = ((fst (fst e) ++ ", " ++ snd (fst e))%string, [b1; b2]) /\
      b_label b1 = (fst (fst e) ++ " $\rightarrow$ " ++ snd (fst e))%string /\ b_label b2 = (snd (fst e) ++ " $\rightarrow$ " ++ fst (fst e))%string /\
      P e (fst (fst e)) (snd (fst e)) (b_values b1) /\ P e (snd (fst e)) (fst (fst e)) (b_values b2)) d) as (panels & Ep & Fp).
  { intros [[m1 m2] lg] I. destruct (H m1 m2 lg I) as (K1 & K2 & D & S1 & S2). unfold plot_boxes_one_exp_pairs.
    assert (A : all_pairs [m1; m2] = [([m1], [m2]); ([m2], [m1])]).
    { unfold all_pairs. cbn [flat_map filter map]. rewrite !String.eqb_refl, (proj2 (String.eqb_neq m1 m2)), (proj2 (String.eqb_neq m2 m1)) by congruence. reflexivity. }
    destruct (boxes_ok w lg (all_pairs [m1; m2]) true (fun m xs => (m = ([m1], [m2]) -> P ((m1, m2), lg) m1 m2 xs) /\ (m = ([m2], [m1]) -> P ((m1, m2), lg) m2 m1 xs))) as (bs & Eb & F).
    { rewrite A. intros m [<-|[<-|[]]]; cbn [fst snd]; (split; [|apply color_some; auto]).
      - destruct S1 as (xs & Sc & Px). exists xs. split; [exact Sc|]. split; [auto|]. intro X. exfalso. apply D. congruence.
      - destruct S2 as (xs & Sc & Px). exists xs. split; [exact Sc|]. split; [|auto]. intro X. exfalso. apply D. congruence. }
    rewrite Eb. cbn [bind]. eexists. split; [reflexivity|]. rewrite A in F. inversion F as [|? b1 ? bs1 ((V1 & _) & _ & L1) F1]; subst. inversion F1 as [|? b2 ? bs2 ((_ & V2) & _ & L2) F2]; subst. inversion F2; subst.
    exists b1, b2. cbn [fst snd]. split; [reflexivity|]. split; [exact L1|]. split; [exact L2|]. auto. }
  rewrite Ep. cbn [bind]. destruct d as [|e d]; [congruence|]. cbn [bind]. rewrite Ev. cbn [bind]. rewrite Nv. cbn [bind].
  destruct (boxes_ok w lg3 (all_pairs mods) true (fun m xs => forall m1 m2, m = ([m1], [m2]) -> P3 m1 m2 xs)) as (bs & Eb & F).
  { intros [a b] I. apply pairs_in in I as (i & j & -> & -> & Ii & Ij & D). cbn [fst snd]. split; [|apply color_some; auto].
    destruct (H3 i j Ii Ij D) as (xs & Sc & Px). exists xs. split; [exact Sc|]. intros m1 m2 X. congruence. }
  unfold plot_boxes_one_exp_pairs at 1. rewrite Eb. cbn [bind]. eexists panels, _. split; [reflexivity|]. split; [exact Fp|]. cbn [snd].
  split; [now rewrite (f2_len _ _ _ F)|]. intros m1 m2 I1 I2 D. assert (I : In ([m1], [m2]) (all_pairs mods)) by (apply pairs_in; exists m1, m2; auto).
  apply In_nth_error in I as [q I]. destruct (f2_nth _ _ _ F q _ I) as (b & Eq & V & _ & Lb). exists b. split; [eapply nth_error_In; eauto|]. split; [exact Lb|]. now apply V.
Qed.

Definition entries (st : style) (w : world) (ks : list nat) (metric : string) (e : (string * string) * list nat) (l : list (string * curve)) : Prop :=
  exists c1 c2, l = [(mod_to_mod_str (fst (fst e)) (snd (fst e)), c1); (mod_to_mod_str (snd (fst e)) (fst (fst e)), c2)] /\ both w ks metric st true e c1 c2.
Lemma two_graphs w d2 d3 more ks metric :
  (forall e, In e d2 -> exists c1 c2, both w ks metric Solid true e c1 c2) ->
  (forall e, In e d3 -> exists c1 c2, both w ks metric Dashed true e c1 c2) ->
  exists l2 l3, plot_2k_graphs w (d2 :: d3 :: more) ks metric =
      Ok (map snd (List.concat l2 ++ List.concat l3), fold_left (fun d e => dict_set String.eqb d (fst e) (snd e)) (List.concat l2) []) /\
    Forall2 (entries Solid w ks metric) d2 l2 /\ Forall2 (entries Dashed w ks metric) d3 l3.
Proof.
  intros H2 H3. unfold plot_2k_graphs. cbn [combine mapM].
  assert (X : forall st d, (forall e, In e d -> exists c1 c2, both w ks metric st true e c1 c2) ->
    exists ls, mapM (fun l : (string * string) * list nat => let '((mod1, mod2), lg) := l in
      bind (plot_one_curve w lg ([mod1], [mod2]) ks metric st true) (fun l1 =>
      bind (plot_one_curve w lg ([mod2], [mod1]) ks metric st true) (fun l2 =>
      Ok [(mod_to_mod_str mod1 mod2, l1); (mod_to_mod_str mod2 mod1, l2)]))) d = Ok ls /\ Forall2 (entries st w ks metric) d ls).
  { intros st d H. apply mapM_each. intros [[m1 m2] lg] I. destruct (H _ I) as (c1 & c2 & B). pose proof B as [E1 E2]. cbn [fst snd] in E1, E2. rewrite E1. cbn [bind]. rewrite E2. cbn [bind].
    eexists. split; [reflexivity|]. exists c1, c2. auto. }
  destruct (X Solid d2 H2) as (l2 & E2 & F2). destruct (X Dashed d3 H3) as (l3 & E3 & F3). clear X. rewrite E2. cbn [bind]. rewrite E3. cbn [bind].
  assert (Z : match more with [] => [] | _ :: _ => [] end = (@nil (list (list (string * curve))))) by (now destruct more).
  exists l2, l3. split; [|auto]. destruct more; cbn [mapM bind]; cbn [py_nth]; unfold py_nth; cbn; rewrite app_nil_r, concat_app; reflexivity.
Qed.

(** ** Tables *)
Lemma print_ok {A} (f : A -> result line) (P : A -> line -> Prop) l : (forall a, In a l -> exists r, f a = Ok r /\ P a r) ->
  exists rs, print_lines f l = (rs, Ok tt) /\ Forall2 P l rs.
Proof.
  induction l as [|a l IH]; intro H; cbn [print_lines]; [exists []; split; [reflexivity|constructor]|].
  destruct (H a (or_introl eq_refl)) as (r & E & Pr). destruct IH as (rs & Er & F); [intros; apply H; now right|]. rewrite E, Er. exists (r :: rs). split; [reflexivity|constructor; auto].
Qed.
Lemma two_table rd x f : sound x -> legal x rd -> enough x rd -> x_kind x = Two -> (forall m, In m (x_mods x) -> clean m) -> 2 <= List.length (x_mods x) ->
  exists p splits w, prepare rd x = Ok p /\ p_generator p = Ok splits /\ run_world rd x f = (w, Ok tt) /\
  exists rows, print_two w x = (rows, Ok tt) /\
    Forall2 (fun c row => let '((m1, m2), cmp) := c in exists stats,
        row = ([mod_name (x_mods x) m1; mod_name (x_mods x) m2; match cmp with None => "internal"%string | Some k => mod_name (x_mods x) k end], stats) /\
        Forall2 (fun s ms => exists xs, Forall2 (two_score x p m1 m2 cmp s) splits xs /\ average_of xs (fst ms) /\ deviation_of xs (fst ms) (snd ms))
          [""; "_frob"; "_cosine"]%string stats)
      (list_prod [(0, 1); (1, 0)] (None :: map Some (seq 0 (List.length (x_mods x))))) rows.
Proof.
  intros S L E K Kn N2. destruct (run_clean rd x f S L E) as (p & splits & w & Ep & Eg & Ns & Er & G & H & _); auto; [congruence|congruence|].
  exists p, splits, w. split; [exact Ep|]. split; [exact Eg|]. split; [exact Er|]. specialize (H K). unfold print_two.
  set (n := List.length (x_mods x)) in *.
  set (full := fun c : (nat * nat) * option nat => (fst c, (snd c, match snd c with None => "internal"%string | Some k => mod_name (x_mods x) k end))).
  assert (Lp : list_prod [(0, 1); (1, 0)] ((None, "internal"%string) :: map (fun p => (Some (fst p), snd p)) (enumerate (x_mods x))) =
               map full (list_prod [(0, 1); (1, 0)] (None :: map Some (seq 0 n)))).
  { assert (X : map (fun p : nat * string => (Some (fst p), snd p)) (enumerate (x_mods x)) = map (fun k => (Some k, mod_name (x_mods x) k)) (seq 0 n)).
    { apply nth_error_same. intro q. rewrite !nth_error_map, pairing_proof.nth_error_enumerate.
      destruct (nth_error (x_mods x) q) as [a|] eqn:Ea.
      - assert (Hq : q < n) by (apply nth_error_Some; congruence). rewrite (nth_error_nth' _ 0) by (rewrite seq_length; exact Hq). rewrite seq_nth by exact Hq. cbn.
        rewrite names_nth in Ea by exact Hq. congruence.
      - apply nth_error_None in Ea. assert (Z : nth_error (seq 0 n) q = None) by (apply nth_error_None; rewrite seq_length; exact Ea). rewrite Z. reflexivity. }
    rewrite X. unfold list_prod, full. cbn [map app fst snd]. rewrite !app_nil_r, !map_app, !map_map. cbn [map fst snd]. rewrite ?map_map. reflexivity. }
  rewrite Lp. clear Lp.
  set (Pr := fun (c : (nat * nat) * option nat) (row : line) => let '((m1, m2), cmp) := c in exists stats,
        row = ([mod_name (x_mods x) m1; mod_name (x_mods x) m2; match cmp with None => "internal"%string | Some k => mod_name (x_mods x) k end], stats) /\
        Forall2 (fun s ms => exists xs, Forall2 (two_score x p m1 m2 cmp s) splits xs /\ average_of xs (fst ms) /\ deviation_of xs (fst ms) (snd ms))
          [""; "_frob"; "_cosine"]%string stats).
  assert (M : forall l, print_lines (two_line w x) (map full l) = print_lines (fun c => two_line w x (full c)) l). { induction l as [|a l IH]; cbn [map print_lines]; [reflexivity|]. now rewrite IH. }
  rewrite M. apply print_ok. intros [[m1 m2] cmp] I. apply in_prod_iff in I as [I1 I2].
  assert (B : m1 < n /\ m2 < n) by (destruct I1 as [I1|[I1|[]]]; injection I1 as <- <-; lia). destruct B as [B1 B2].
  assert (Bc : match cmp with None => True | Some c => c < n end). { destruct I2 as [<-|I2]; [exact I|]. apply in_map_iff in I2 as (k & <- & I2). apply in_seq in I2. lia. }
  unfold two_line, full. cbn [fst snd]. rewrite !py_nth_nat, !names_nth by assumption. cbn [bind].
  destruct (mapM_each (fun s => get_stats w 0 (score_key (x_mods x) m1 m2 cmp s)) (fun s ms => exists xs, Forall2 (two_score x p m1 m2 cmp s) splits xs /\ average_of xs (fst ms) /\ deviation_of xs (fst ms) (snd ms)) metrics) as (st & Es & Fs).
  { intros s Is. assert (Is' : In s suffixes) by (cbn in Is |- *; tauto). destruct (H m1 m2 cmp s B1 B2 Bc Is') as (xs & Sc & Fx).
    destruct (stats_ok _ _ _ _ Sc (runs_nonempty _ _ _ Ns Fx)) as (m & d & Eq & A & D). exists (m, d). split; [exact Eq|]. exists xs. auto. }
  rewrite Es. cbn [bind]. eexists. split; [reflexivity|]. exists st. split; [reflexivity|exact Fs].
Qed.
Lemma one_table w x : List.length (x_mods x) = 1 -> print_two w x = ([], Err IndexError).
Proof. intro L. destruct x as [kd mods ls k cs it ie sh md db]. cbn [x_mods] in L. destruct mods as [|a [|]]; try discriminate. reflexivity. Qed.
Lemma three_table rd x f py2 : sound x -> legal x rd -> enough x rd -> x_kind x = Three -> (forall m, In m (x_mods x) -> clean m) -> List.length (x_mods x) = 3 ->
  exists w, run_world rd x f = (w, Ok tt) /\ print_three py2 w x = ([], Err (if py2 then ValueError else TypeError)).
Proof.
  intros S L E K Kn N. destruct (run_clean rd x f S L E) as (p & splits & w & Ep & Eg & Ns & Er & G & _ & H); eauto using all_clean; [congruence|].
  exists w. split; [exact Er|]. specialize (H K). unfold print_three. rewrite N.
  destruct (tested_combinations 3) as [|[ms1 ms2] cs] eqn:Ec; [discriminate|]. assert (Ec' := Ec). cbv in Ec'. assert (ms1 = [0] /\ ms2 = [1]) as [-> ->] by (split; congruence).
  cbn [print_lines]. unfold three_line. cbn [fst snd mapM]. change 0%Z with (Z.of_nat 0). rewrite !py_nth_nat, !names_nth by lia. cbn [bind].
  destruct (H [0] [1] ""%string) as (xs & Sc & Fx); [now left|now left|]. destruct (stats_ok _ _ _ _ Sc (runs_nonempty _ _ _ Ns Fx)) as (m & d & Eq & _).
  unfold metrics. cbn [mapM]. rewrite Eq. reflexivity.
Qed.
