(** * Lemmas about the logs and figures of the launcher. *)

From Coq Require Import List ZArith Reals Bool Arith String Ascii QArith Qreals Lia.
Import ListNotations.
From Verif Require Import Py Py_proof nd_model logger_model logger_spec logger_proof logger_load logger_file experiment_model experiment_spec experiment_save
  figures_model figures_spec figures_proof figures_draw figures_exp figures_tables launcher_model launcher_spec launcher_names launcher_plan launcher_log launcher_run.
From Verif Require serial_model serial_spec serial_proof sound_model experiment_end.
Local Open Scope nat_scope.

Lemma each_exists {A B} (P : A -> B -> Prop) l : (forall a, In a l -> exists b, P a b) -> exists bs, Forall2 P l bs.
Proof.
  induction l as [|a l IH]; intro H; [exists []; constructor|]. destruct (H a (or_introl eq_refl)) as [b Hb]. destruct IH as [bs F]; [intros; apply H; now right|].
  exists (b :: bs). constructor; assumption.
Qed.

Lemma f2_imp {A B} (P Q : A -> B -> Prop) l l' : (forall a b, P a b -> Q a b) -> Forall2 P l l' -> Forall2 Q l l'.
Proof. intros H F. induction F; constructor; auto. Qed.

Section M.
Variable labels : list string.
Variable Ks : list nat.
Variable n_run : nat.
Notation exps := (exps labels Ks n_run).
Notation jobs := (jobs labels Ks n_run).
Variable data : serial_model.loader nd -> loader.
Variable rd : string -> random.
Notation done := (done labels Ks n_run data rd).
Notation repeated := (repeated labels Ks n_run data rd).
Variable workdir : string.
Variable f : fs nd.
Hypothesis some : 0 < n_run.

Definition merged (name : nat -> string) (kd : kind) (mods : list string) (w : world) (j : nat) : Prop :=
  j < length (w_logs w) /\ (exists v, get_value w j "modalities" = Ok v /\ names_of v = Ok mods) /\
  (kd = Two -> forall m1 m2 s, m1 < length mods -> m2 < length mods -> In s suffixes ->
     exists xs, scored w j (score_key mods m1 m2 None s) xs /\
       repeated name (fun x p split v => x_kind x = Two /\ x_mods x = mods /\ two_score x p m1 m2 None s split v) xs) /\
  (kd = Three -> forall ms1 ms2 s, In (ms1, ms2) (tested_combinations 3) -> In s suffixes ->
     exists xs, scored w j (three_key mods ms1 ms2 s) xs /\
       repeated name (fun x p split v => x_kind x = Three /\ x_mods x = mods /\ three_score x p ms1 ms2 s split v) xs).
Lemma merged_grows name kd mods w w' j : wf_world w -> grows w w' -> merged name kd mods w j -> merged name kd mods w' j.
Proof.
  intros W G (J & (v & E & N) & H2 & H3). split; [destruct G as (_ & _ & G); lia|]. split; [exists v; split; [now rewrite (grows_get w w')|exact N]|].
  split; [intros K m1 m2 s A B C; destruct (H2 K m1 m2 s A B C) as (xs & S & R)|intros K m1 m2 s A B; destruct (H3 K m1 m2 s A B) as (xs & S & R)]; exists xs; (split; [exact (grows_scored _ _ _ _ _ W G S)|exact R]).
Qed.
Lemma load_known e w : In e exps -> load_job labels Ks n_run workdir f (pl_name e) w = load w f (sound_model.path_join workdir (pl_name e)) false false.
Proof.
  intro I. unfold load_job, JOBS_BY_NAME. destruct (by_name (launcher_model.jobs labels Ks n_run) [] (pl_name e)) as (j & -> & Ej).
  - left. rewrite jobs_eq, map_map. apply in_map_iff. exists e. auto.
  - now rewrite Ej.
Qed.
Lemma concat_singles {A} (vs : list A) : List.concat (map (fun v => [v]) vs) = vs.
Proof. induction vs as [|v vs IH]; cbn; [reflexivity|now rewrite IH]. Qed.
(** One score of each job. *)
Lemma each_score name key (P : experiment -> prepared -> list nat * list nat -> R -> Prop) Ds l :
  Forall2 (fun (i : nat) D => exists x p split v, ran labels Ks n_run data rd (name i) x p split /\ P x p split v /\ scored D 0 key [v]) l Ds ->
  exists vs, Forall2 (fun D xs => scored D 0 key xs) Ds (map (fun v => [v]) vs) /\ Forall2 (fun i v => exists x p split, ran labels Ks n_run data rd (name i) x p split /\ P x p split v) l vs.
Proof.
  induction 1 as [|i D l Ds (x & p & sp & v & R & H & S) F (vs & A & B)]; [exists []; split; constructor|].
  exists (v :: vs). split; cbn [map]; constructor; auto. exists x, p, sp. auto.
Qed.
Lemma merged_ok name kd mods : (forall i, i < n_run -> exists e, In e exps /\ pl_name e = name i /\ pl_kind e = kd /\ serial_model.ex_modalities (pl_exper e) = mods /\
    exists D, done e D /\ holds f (sound_model.path_join workdir (pl_name e)) D) ->
  forall w, wf_world w -> exists w' j, load_merged labels Ks n_run workdir f name w = (w', Ok j) /\ wf_world w' /\ grows w w' /\ merged name kd mods w' j.
Proof.
  intros H w W.
  destruct (each_exists (fun i D => exists e, In e exps /\ pl_name e = name i /\ pl_kind e = kd /\ serial_model.ex_modalities (pl_exper e) = mods /\ done e D /\ holds f (sound_model.path_join workdir (name i)) D) (seq 0 n_run)) as [Ds F].
  { intros i I. apply in_seq in I. destruct (H i) as (e & Ie & En & Ek & Em & D & Dn & Ho); [lia|]. exists D, e. rewrite <- En. auto 10. }
  unfold load_merged. destruct (loads_all f (fun i => sound_model.path_join workdir (name i)) (seq 0 n_run) Ds (fun w i => load_job labels Ks n_run workdir f (name i) w)) with (w := w) as (w1 & -> & W1 & G1 & L1 & B1).
  { intros w0 i I. apply in_seq in I. destruct (H i) as (e & Ie & En & _); [lia|]. rewrite <- En. now apply load_known. }
  { clear - F. induction F as [|i D l Ds (e & _ & _ & _ & _ & _ & Ho) F IH]; constructor; auto. } { exact W. }
  cbn [wbind]. rewrite seq_length in *. pose proof (f2_len _ _ _ F) as Lf. rewrite seq_length in Lf.
  destruct Ds as [|D0 Ds]; [cbn [List.length] in Lf; lia|]. cbn [List.length] in Lf. rewrite Lf in B1 |- *. rewrite Lf in L1.
  set (K := fun k => In k (["train"; "test"; "dictionary"]%string ++ match kd with Two => two_keys mods | Three => three_keys mods | Base => [] end)).
  assert (Fd : forall q D, nth_error (D0 :: Ds) q = Some D -> exists e, In e exps /\ pl_name e = name q /\ pl_kind e = kd /\ serial_model.ex_modalities (pl_exper e) = mods /\ done e D).
  { intros q D Eq. assert (Q : q < n_run). { rewrite Lf. change (S (List.length Ds)) with (List.length (D0 :: Ds)). apply nth_error_Some. congruence. }
    destruct (f2_nth _ _ _ F q q) as (D' & E' & e & A & B & C & X & Y & _). { rewrite nth_error_seq, (proj2 (Nat.ltb_lt _ _) Q). reflexivity. }
    assert (D' = D) by congruence. subst. exists e. auto. }
  destruct (merged_loads w w1 K D0 Ds W1 G1 L1) as (w' & Em & W' & G' & J & Gv & Sc); [|exact B1|].
  { intros D I. apply In_nth_error in I as [q I]. destruct (Fd q D I) as (e & _ & _ & Ek & Mm & x & p & split & _ & Xk & Xm & (l & A & B) & _). exists l. split; [exact A|].
    intro k. rewrite B. unfold K, run_keys. now rewrite Xk, Xm, Ek, Mm. }
  exists w', (length (w_logs w)). split; [exact Em|]. split; [exact W'|]. split; [exact G'|].
  assert (All : forall key (P : experiment -> prepared -> list nat * list nat -> R -> Prop),
    (forall D e x p split, ran labels Ks n_run data rd (pl_name e) x p split -> pl_kind e = kd -> serial_model.ex_modalities (pl_exper e) = mods -> x_kind x = pl_kind e -> x_mods x = serial_model.ex_modalities (pl_exper e) ->
       (x_kind x = Two -> forall m1 m2 cmp s, m1 < length (x_mods x) -> m2 < length (x_mods x) ->
          match cmp with None => True | Some c => c < length (x_mods x) end -> In s suffixes ->
          exists v, scored D 0 (score_key (x_mods x) m1 m2 cmp s) [v] /\ two_score x p m1 m2 cmp s split v) ->
       (x_kind x = Three -> forall ms1 ms2 s, In (ms1, ms2) (tested_combinations 3) -> In s suffixes ->
          exists v, scored D 0 (three_key (x_mods x) ms1 ms2 s) [v] /\ three_score x p ms1 ms2 s split v) ->
       exists v, scored D 0 key [v] /\ P x p split v) ->
    exists xs, scored w' (length (w_logs w)) key xs /\ repeated name P xs).
  { intros key P HP. destruct (each_score name key P (D0 :: Ds) (seq 0 n_run)) as (vs & A & B).
    - clear - F HP. induction F as [|i D l Ds' (e & Ie & En & Ek & Mm & (x & p & split & Ra & Xk & Xm & _ & _ & H2 & H3) & _) F IH]; constructor; auto.
      destruct (HP D e x p split Ra Ek Mm Xk Xm H2 H3) as (v & Sv & Pv). exists x, p, split, v. rewrite <- En. auto.
    - exists vs. split; [rewrite <- (concat_singles vs); exact (Sc key _ A)|]. split; [rewrite <- (f2_len _ _ _ B); apply seq_length|].
      intros i v Ev. assert (Q : i < n_run). { pose proof (f2_len _ _ _ B) as Lb. rewrite seq_length in Lb. rewrite Lb. apply nth_error_Some. congruence. }
      destruct (f2_nth _ _ _ B i i) as (v' & Ev' & Hv). { rewrite nth_error_seq, (proj2 (Nat.ltb_lt _ _) Q). reflexivity. } assert (v' = v) by congruence. now subst. }
  split; [exact J|]. split; [|split].
  - destruct (Fd 0 D0 eq_refl) as (e & _ & _ & _ & Mm & x & p & split & _ & _ & Xm & _ & Gx & _). inversion B1 as [|? ? ? ? Bd _]; subst.
    destruct (recorded_names D0 w1 (length (w_logs w)) (x_mods x) Gx) as (v & Ev & Nv); [right; right; assumption|]. exists v. rewrite Gv, Nv, Xm. auto.
  - intros Kd m1 m2 s A B C. apply (All _ (fun x p split v => x_kind x = Two /\ x_mods x = mods /\ two_score x p m1 m2 None s split v)). intros D e x p split _ Ek Mm Xk Xm H2 _.
    rewrite Xm, Mm in H2. rewrite Xk, Ek in H2. destruct (H2 Kd m1 m2 None s A B I C) as (v & Sv & Tv). exists v. split; [exact Sv|]. split; [congruence|]. split; [congruence|exact Tv].
  - intros Kd m1 m2 s A B. apply (All _ (fun x p split v => x_kind x = Three /\ x_mods x = mods /\ three_score x p m1 m2 s split v)). intros D e x p split _ Ek Mm Xk Xm _ H3.
    rewrite Xm, Mm in H3. rewrite Xk, Ek in H3. destruct (H3 Kd m1 m2 s A B) as (v & Sv & Tv). exists v. split; [exact Sv|]. split; [congruence|]. split; [congruence|exact Tv].
Qed.
Hypothesis complete : forall e, In e exps -> exists D, done e D /\ holds f (sound_model.path_join workdir (pl_name e)) D.
Lemma merged_all name kd mods : (forall i, i < n_run -> exists e, In e exps /\ pl_name e = name i /\ pl_kind e = kd /\ serial_model.ex_modalities (pl_exper e) = mods) ->
  forall w, wf_world w -> exists w' j, load_merged labels Ks n_run workdir f name w = (w', Ok j) /\ wf_world w' /\ grows w w' /\ merged name kd mods w' j.
Proof.
  intros H. apply merged_ok. intros i Hi. destruct (H i Hi) as (e & A & B & C & X). exists e. auto 10.
Qed.

(** ** Scores under their names *)
Lemma two_scores name a b w j c d s : merged name Two [a; b] w j -> In (c, d) (directions (a, b)) -> In s suffixes ->
  exists xs, scored w j ("score_" ++ c ++ "2" ++ d ++ s)%string xs /\ repeated name (score_between c d s) xs.
Proof.
  intros (_ & _ & H & _) I Is. specialize (H eq_refl).
  assert (X : exists m1 m2, m1 < 2 /\ m2 < 2 /\ nth_error [a; b] m1 = Some c /\ nth_error [a; b] m2 = Some d).
  { cbn in I. destruct I as [[= <- <-]|[[= <- <-]|[]]]; [exists 0, 1|exists 1, 0]; cbn; auto. }
  destruct X as (m1 & m2 & L1 & L2 & E1 & E2). destruct (H m1 m2 s L1 L2 Is) as (xs & Sx & L & R). exists xs. split.
  - unfold score_key, exp_key in Sx. unfold mod_name in Sx. rewrite (nth_error_nth _ _ ""%string E1), (nth_error_nth _ _ ""%string E2) in Sx. exact Sx.
  - split; [exact L|]. intros i v Ev. destruct (R i v Ev) as (x & p & sp & Ra & Xk & Xm & T). exists x, p, sp. split; [exact Ra|]. exists m1, m2. rewrite Xm, Xk. auto.
Qed.
Notation three_mods := ["image"; "motion"; "sound"]%string.
Lemma three_scores name w j c d s : merged name Three three_mods w j -> known c -> known d -> c <> d -> In s suffixes ->
  exists xs, scored w j ("score_" ++ c ++ "2" ++ d ++ s)%string xs /\ repeated name (score_between c d s) xs.
Proof.
  intros (_ & _ & _ & H) Kc Kd N Is. specialize (H eq_refl).
  assert (X : exists m1 m2, In ([m1], [m2]) (tested_combinations 3) /\ nth_error three_mods m1 = Some c /\ nth_error three_mods m2 = Some d).
  { destruct Kc as [<-|[<-|[<-|[]]]]; destruct Kd as [<-|[<-|[<-|[]]]]; try congruence; [exists 0, 1|exists 0, 2|exists 1, 0|exists 1, 2|exists 2, 0|exists 2, 1]; (split; [cbn; tauto|auto]). }
  destruct X as (m1 & m2 & It & E1 & E2). destruct (H [m1] [m2] s It Is) as (xs & Sx & L & R). exists xs. split.
  - unfold three_key in Sx. cbn [map] in Sx. unfold mod_name in Sx. rewrite (nth_error_nth _ _ ""%string E1), (nth_error_nth _ _ ""%string E2) in Sx. exact Sx.
  - split; [exact L|]. intros i v Ev. destruct (R i v Ev) as (x & p & sp & Ra & Xk & Xm & T). exists x, p, sp. split; [exact Ra|]. exists m1, m2. rewrite Xm, Xk. auto.
Qed.

(** ** Curves *)
Lemma curve_color w loggers a b ks metric st bars c : plot_one_curve w loggers ([a], [b]) ks metric st bars = Ok c -> get_color_for_modalities [a] [b] true = Ok (c_color c).
Proof.
  unfold plot_one_curve. cbn [fst snd]. destruct (mapM _ (enumerate ks)) as [res|]; cbn [bind]; [|discriminate]. destruct (get_color_for_modalities [a] [b] true) as [col|]; cbn [bind]; [|discriminate].
  unfold plot_var. destruct (rectangular res); cbn [bind]; [|discriminate]. destruct (mapM (mapM number) res) as [rows|]; cbn [bind]; [|discriminate].
  destruct (_ =? _); [|discriminate]. intros [= <-]. reflexivity.
Qed.
Lemma curve_of w ls a b metric st (P : nat -> list R -> Prop) : known a -> known b -> a <> b -> Ks <> [] ->
  Forall2 (fun k j => exists xs, scored w j ("score_" ++ a ++ "2" ++ b)%string xs /\ length xs = n_run /\ P k xs) Ks ls ->
  exists c, plot_one_curve w ls ([a], [b]) Ks metric st true = Ok c /\ c_style c = st /\ get_color_for_modalities [a] [b] true = Ok (c_color c) /\
    map fst (c_points c) = Ks /\ length (c_var c) = length Ks /\
    forall q k m d, nth_error (c_points c) q = Some (k, m) -> nth_error (c_var c) q = Some d -> exists xs, P k xs /\ average_of xs m /\ deviation_of xs m d.
Proof.
  intros Ka Kb N Nk F.
  assert (X : exists xss, length xss = length Ks /\ (forall i xs, nth_error xss i = Some xs -> length xs = n_run /\ exists lg, nth_error ls i = Some lg /\ scored w lg ("score_" ++ a ++ "2" ++ b)%string xs) /\
    forall i k xs, nth_error Ks i = Some k -> nth_error xss i = Some xs -> P k xs).
  { clear - F. induction F as [|k j ks ls (xs & S & L & Px) F (xss & A & B & C)].
    - exists []. split; [reflexivity|]. split; intros [|i]; discriminate.
    - exists (xs :: xss). split; [cbn; congruence|]. split.
      + intros [|i] ys E; cbn in E; [assert (ys = xs) by congruence; subst ys; split; [exact L|]; exists j; auto|]. destruct (B i ys E) as (H & lg & X & Y). split; [exact H|]. exists lg. auto.
      + intros [|i] k' ys E E'; cbn in E, E'; [assert (ys = xs) by congruence; assert (k' = k) by congruence; subst ys k'; exact Px|]. exact (C i k' ys E E'). }
  destruct X as (xss & A & B & C). destruct (curve_drawn w ls a b Ks metric st true n_run xss Ka Kb N Nk) as (c & Ec & Es & _ & Lp & Lv & Pt); auto; [lia|].
  exists c. split; [exact Ec|]. split; [exact Es|]. split; [exact (curve_color _ _ _ _ _ _ _ _ _ Ec)|].
  assert (Each : forall q k, nth_error Ks q = Some k -> exists xs m s, P k xs /\ nth_error (c_points c) q = Some (k, m) /\ nth_error (c_var c) q = Some s /\ average_of xs m /\ deviation_of xs m s).
  { intros q k Ek. assert (Q : q < length xss) by (rewrite A; apply nth_error_Some; congruence). destruct (nth_error xss q) as [xs|] eqn:Ex; [|apply nth_error_Some in Q; contradiction].
    destruct (Pt q k xs Ek Ex) as (m & s & E1 & E2 & E3 & E4). exists xs, m, s. split; [exact (C q k xs Ek Ex)|auto]. }
  split; [|split; [exact Lv|]].
  - apply nth_error_same. intro q. rewrite nth_error_map. destruct (nth_error Ks q) as [k|] eqn:Ek.
    + destruct (Each q k Ek) as (xs & m & s & _ & -> & _). reflexivity.
    + assert (nth_error (c_points c) q = None) as ->; [|reflexivity]. apply nth_error_None. rewrite Lp. now apply nth_error_None.
  - intros q k m d E E'. assert (Q : q < length Ks) by (rewrite <- Lp; apply nth_error_Some; congruence). destruct (nth_error Ks q) as [k'|] eqn:Ek; [|apply nth_error_Some in Q; contradiction].
    destruct (Each q k' Ek) as (xs & m' & s & Px & E1 & E2 & Av & Dv). assert (k' = k) by congruence. assert (m' = m) by congruence. assert (s = d) by congruence. subst. eauto.
Qed.

(** ** The logs *)
Lemma pair_jobs mm k i : In mm the_pairs -> In k Ks -> i < n_run -> exists e, In e exps /\ pl_name e = jobs_of false mm k i /\ pl_kind e = Two /\ serial_model.ex_modalities (pl_exper e) = [fst mm; snd mm].
Proof.
  intros I A B. cbn in I. destruct I as [<-|[<-|[<-|[]]]]; eexists; (split; [apply in_exps; left; exists k, i; split; [exact A|split; [exact B|]]|]).
  - left. reflexivity.
  - repeat split; reflexivity.
  - right. right. left. reflexivity.
  - repeat split; reflexivity.
  - right. left. reflexivity.
  - repeat split; reflexivity.
Qed.
Lemma three_jobs k i : In k Ks -> i < n_run -> exists e, In e exps /\ pl_name e = three_name k i /\ pl_kind e = Three /\ serial_model.ex_modalities (pl_exper e) = three_mods.
Proof.
  intros A B. eexists. split; [apply in_exps; left; exists k, i; split; [exact A|split; [exact B|right; right; right; reflexivity]]|]. repeat split; reflexivity.
Qed.
Lemma feats_jobs d i : In d feature_sets -> i < n_run -> exists e, In e exps /\ pl_name e = feats_name d i /\ pl_kind e = Two /\ serial_model.ex_modalities (pl_exper e) = ["image"; "sound"]%string.
Proof. intros A B. eexists. split; [apply in_exps; right; exists d, i; split; [exact A|split; [exact B|reflexivity]]|]. repeat split; reflexivity. Qed.

Definition logs2 (w : world) (mm : string * string) (e : (string * string) * list nat) : Prop :=
  fst e = mm /\ Forall2 (fun k j => merged (jobs_of false mm k) Two [fst mm; snd mm] w j) Ks (snd e).
Lemma collected2 w : wf_world w -> exists w' l, collect_results labels Ks n_run workdir f w = (w', Ok l) /\ wf_world w' /\ grows w w' /\ Forall2 (logs2 w') the_pairs l.
Proof.
  intro W. unfold collect_results. apply wmap_ok; [| |exact W].
  - intros w0 mm I W0.
    destruct (wmap_ok (fun w k => load_merged labels Ks n_run workdir f (fun i => fst mm ++ "_" ++ snd mm ++ "_" ++ fmt k ++ "_" ++ fmt i)%string w) (fun w k j => merged (jobs_of false mm k) Two [fst mm; snd mm] w j) Ks) with (w := w0) as (w1 & ls & -> & W1 & G1 & F1); [| |exact W0|].
    + intros w2 k Ik W2. apply (merged_all (jobs_of false mm k)); [|exact W2]. intros i Hi. now apply pair_jobs.
    + intros. eapply merged_grows; eauto.
    + cbn [wbind]. exists w1, (mm, ls). split; [reflexivity|]. split; [exact W1|]. split; [exact G1|]. split; [reflexivity|exact F1].
  - intros w0 w1 mm e W0 G [E F]. split; [exact E|]. eapply f2_imp; [|exact F]. intros k j H. eapply merged_grows; eauto.
Qed.
Lemma collected3 w : wf_world w -> exists w' ls, collect_results3 labels Ks n_run workdir f w = (w', Ok (map (fun m => (m, ls)) the_pairs)) /\ wf_world w' /\ grows w w' /\
  Forall2 (fun k j => merged (three_name k) Three three_mods w' j) Ks ls.
Proof.
  intro W. unfold collect_results3.
  destruct (wmap_ok (fun w k => load_merged labels Ks n_run workdir f (fun i => "image_motion_sound_" ++ fmt k ++ "_" ++ fmt i)%string w) (fun w k j => merged (three_name k) Three three_mods w j) Ks) with (w := w) as (w1 & ls & -> & W1 & G1 & F1); [| |exact W|].
  - intros w2 k Ik W2. apply (merged_all (three_name k)); [|exact W2]. intros i Hi. now apply three_jobs.
  - intros. eapply merged_grows; eauto.
  - cbn [wbind]. exists w1, ls. split; [reflexivity|]. auto.
Qed.
Definition logs_feats (w : world) (d : list string) (e : list string * nat) : Prop := merged (feats_name d) Two ["image"; "sound"]%string w (snd e).
Lemma collected_feats w : wf_world w -> exists w' l, collect_results_image labels Ks n_run workdir f w = (w', Ok l) /\ wf_world w' /\ grows w w' /\ Forall2 (logs_feats w') feature_sets l.
Proof.
  intro W. unfold collect_results_image. apply wmap_ok; [| |exact W].
  - intros w0 d I W0. destruct (merged_all (feats_name d) Two ["image"; "sound"]%string) with (w := w0) as (w1 & j & E & W1 & G1 & M); [|exact W0|].
    + intros i Hi. now apply feats_jobs.
    + unfold feats_name in E. unfold fmt. rewrite E. cbn [wbind]. exists w1, (d, j). auto.
  - intros w0 w1 d e W0 G M. unfold logs_feats in *. eapply merged_grows; eauto.
Qed.

(** ** Boxes of two modalities *)
Lemma two_boxes w j (P : string * string -> list R -> Prop) : (forall d, In d (directions ("image", "sound")%string) -> exists xs, scored w j ("score_" ++ fst d ++ "2" ++ snd d ++ "_cosine")%string xs /\ P d xs) ->
  exists bs, plot_boxes_one_exp_pairs true w j ["image"; "sound"]%string true = Ok bs /\
    Forall2 (fun d b => b_label b = (fst d ++ " $\rightarrow$ " ++ snd d)%string /\ P d (b_values b)) (directions ("image", "sound")%string) bs.
Proof.
  intro H. unfold plot_boxes_one_exp_pairs. 
  destruct (boxes_ok w j (all_pairs ["image"; "sound"]%string) true (fun m xs => forall d, m = ([fst d], [snd d]) -> P d xs)) as (bs & E & F).
  - intros m I. cbn in I. destruct I as [<-|[<-|[]]]; (split; [|cbn; eauto]).
    + destruct (H ("image", "sound")%string) as (xs & S & Px); [now left|]. exists xs. split; [exact S|]. intros [a b] X. cbn [fst snd] in X. injection X as <- <-. exact Px.
    + destruct (H ("sound", "image")%string) as (xs & S & Px); [right; now left|]. exists xs. split; [exact S|]. intros [a b] X. cbn [fst snd] in X. injection X as <- <-. exact Px.
  - exists bs. split; [exact E|]. cbn in F. inversion F as [|? b1 ? bs1 (P1 & _ & L1) F1]; subst. inversion F1 as [|? b2 ? bs2 (P2 & _ & L2) F2]; subst. inversion F2; subst.
    constructor; [split; [exact L1|apply (P1 ("image", "sound")%string); reflexivity]|]. constructor; [split; [exact L2|apply (P2 ("sound", "image")%string); reflexivity]|constructor].
Qed.
Lemma index_of_ok k : In k Ks -> exists i, index_of Ks k = Ok (Z.of_nat i) /\ nth_error Ks i = Some k.
Proof.
  intro I. unfold index_of, list_index.
  assert (X : forall l p, In k l -> exists i, index_from Nat.eqb k l p 0 = Ok (p + i) /\ nth_error l i = Some k).
  { clear. induction l as [|a l IH]; intros p H; [destruct H|]. cbn [index_from]. destruct (Nat.leb_spec 0 p); [|lia]. cbn [andb].
    destruct (Nat.eqb_spec a k) as [->|N].
    - exists 0. rewrite Nat.add_0_r. auto.
    - destruct H as [->|H]; [congruence|]. destruct (IH (S p) H) as (i & E & Ei). exists (S i). rewrite Nat.add_succ_r. auto. }
  destruct (X Ks 0 I) as (i & -> & E). exists i. auto.
Qed.

Lemma pair_known mm a b : In mm the_pairs -> In (a, b) (directions mm) -> known a /\ known b /\ a <> b.
Proof.
  intros I J. cbn in I. destruct I as [<-|[<-|[<-|[]]]]; cbn in J; destruct J as [[= <- <-]|[[= <- <-]|[]]]; (split; [cbn; auto|split; [cbn; auto|discriminate]]).
Qed.
Notation shown_curve := (shown_curve labels Ks n_run data rd).
Lemma curve2 w mm e a b metric : Ks <> [] -> In mm the_pairs -> logs2 w mm e -> In (a, b) (directions mm) ->
  exists c, plot_one_curve w (snd e) ([a], [b]) Ks metric Solid true = Ok c /\ shown_curve (false, (mm, (a, b))) c.
Proof.
  intros Nk I [E F] J. destruct (pair_known mm a b I J) as (Ka & Kb & N).
  destruct (curve_of w (snd e) a b metric Solid (fun k xs => repeated (jobs_of false mm k) (score_between a b "") xs) Ka Kb N Nk) as (c & Ec & H); [|exists c; split; [exact Ec|exact H]].
  eapply f2_imp; [|exact F]. intros k j M. destruct (two_scores _ _ _ _ _ a b ""%string M) as (xs & Sx & R); [now destruct mm|now left|]. rewrite app_nil_s in Sx. exists xs. split; [exact Sx|]. split; [apply R|exact R].
Qed.
Lemma curve3 w mm ls a b metric : Ks <> [] -> In mm the_pairs -> Forall2 (fun k j => merged (three_name k) Three three_mods w j) Ks ls -> In (a, b) (directions mm) ->
  exists c, plot_one_curve w ls ([a], [b]) Ks metric Dashed true = Ok c /\ shown_curve (true, (mm, (a, b))) c.
Proof.
  intros Nk I F J. destruct (pair_known mm a b I J) as (Ka & Kb & N).
  destruct (curve_of w ls a b metric Dashed (fun k xs => repeated (jobs_of true mm k) (score_between a b "") xs) Ka Kb N Nk) as (c & Ec & H); [|exists c; split; [exact Ec|exact H]].
  eapply f2_imp; [|exact F]. intros k j M. destruct (three_scores _ _ _ a b ""%string M Ka Kb N) as (xs & Sx & R); [now left|]. rewrite app_nil_s in Sx. exists xs. split; [exact Sx|]. split; [apply R|exact R].
Qed.

Lemma all_entries w st three metric (d : list ((string * string) * list nat)) l : Forall2 (entries st w Ks metric) d l ->
  forall mms, Forall2 (fun mm e => fst e = mm /\ forall a b, In (a, b) (directions mm) -> exists c, plot_one_curve w (snd e) ([a], [b]) Ks metric st true = Ok c /\ shown_curve (three, (mm, (a, b))) c) mms d ->
  Forall2 shown_curve (flat_map (fun mm => map (fun d => (three, (mm, d))) (directions mm)) mms) (map snd (List.concat l)) /\
  map fst (List.concat l) = map (fun d => (fst d ++ " $\rightarrow$ " ++ snd d)%string) (flat_map directions mms).
Proof.
  induction 1 as [|e x d l (c1 & c2 & -> & B1 & B2) F IH]; intros mms G; inversion G as [|mm ? mms' ? (E & H) G']; subst.
  - split; [constructor|reflexivity].
  - destruct (IH _ G') as [A B]. destruct (fst e) as [m1 m2] eqn:Em. cbn [fst snd] in *. cbn [List.concat app map flat_map directions fst snd].
    destruct (H m1 m2) as (c & Ec & Sc); [now left|]. destruct (H m2 m1) as (c' & Ec' & Sc'); [right; now left|].
    assert (c = c1) as -> by congruence. assert (c' = c2) as -> by congruence. split; [constructor; [exact Sc|constructor; [exact Sc'|exact A]]|]. now rewrite B.
Qed.
Lemma dict_fresh {V} (l : list (string * V)) : forall d, NoDup (map fst (d ++ l)) -> fold_left (fun d e => dict_set String.eqb d (fst e) (snd e)) l d = d ++ l.
Proof.
  induction l as [|[k v] l IH]; intros d N; cbn [fold_left fst snd]; [now rewrite app_nil_r|].
  assert (S : dict_set String.eqb d k v = d ++ [(k, v)]).
  { rewrite map_app in N. cbn [map] in N. apply NoDup_remove_2 in N. assert (X : ~ In k (map fst d)) by (intro; apply N, in_or_app; auto). clear - X.
    induction d as [|[a b] d IH]; cbn in *; [reflexivity|]. destruct (String.eqb_spec a k) as [->|]; [tauto|]. rewrite IH by tauto. reflexivity. }
  rewrite S, IH; rewrite <- app_assoc; [reflexivity|exact N].
Qed.
Lemma six_labels : NoDup (map (fun d => (fst d ++ " $\rightarrow$ " ++ snd d)%string) (flat_map directions the_pairs)).
Proof. cbn. repeat (constructor; [cbn; intuition discriminate|]). constructor. Qed.

Lemma plotted w0 : wf_world w0 -> In 50 Ks -> exists w g, plot_action labels Ks n_run true workdir f w0 = (w, Ok g) /\ shown_figures labels Ks n_run data rd g.
Proof.
  intros W0 K50. assert (Nk : Ks <> []) by (intros E; rewrite E in K50; destruct K50). unfold plot_action.
  destruct (collected2 w0 W0) as (w1 & l2 & -> & W1 & G1 & F2). cbn [wbind].
  destruct (collected3 w1 W1) as (w2 & l3 & -> & W2 & G2 & F3). cbn [wbind].
  destruct (collected_feats w2 W2) as (w & lf & -> & W & G & Ff). cbn [wbind].
  assert (G' := grows_trans _ _ _ G2 G).
  assert (F2' : Forall2 (logs2 w) the_pairs l2).
  { eapply f2_imp; [|exact F2]. intros mm e [E F]. split; [exact E|]. eapply f2_imp; [|exact F]. intros k j M. exact (merged_grows _ _ _ _ _ _ W1 G' M). }
  assert (F3' : Forall2 (fun k j => merged (three_name k) Three three_mods w j) Ks l3).
  { eapply f2_imp; [|exact F3]. intros k j M. exact (merged_grows _ _ _ _ _ _ W2 G M). }
  clear F2 F3 G1 G2 G G' W1 W2. unfold lift.
  (* curves *)
  assert (C2 : forall e mm, In mm the_pairs -> logs2 w mm e -> forall a b, In (a, b) (directions mm) -> exists c, plot_one_curve w (snd e) ([a], [b]) Ks "_cosine" Solid true = Ok c /\ shown_curve (false, (mm, (a, b))) c).
  { intros e mm I L a b J. exact (curve2 w mm e a b "_cosine"%string Nk I L J). }
  assert (In2 : Forall2 (fun mm e => In mm the_pairs /\ logs2 w mm e) the_pairs l2).
  { clear - F2'. assert (X : forall l, incl l the_pairs -> forall l', Forall2 (logs2 w) l l' -> Forall2 (fun mm e => In mm the_pairs /\ logs2 w mm e) l l').
    { intros l I l' F. induction F; constructor; [split; [apply I; now left|assumption]|]. apply IHF. intros z Hz. apply I. now right. }
    apply X; [intros x H; exact H|exact F2']. }
  assert (X2 : Forall2 (fun mm e => fst e = mm /\ forall a b, In (a, b) (directions mm) -> exists c, plot_one_curve w (snd e) ([a], [b]) Ks "_cosine" Solid true = Ok c /\ shown_curve (false, (mm, (a, b))) c) the_pairs l2).
  { eapply f2_imp; [|exact In2]. intros mm e [I L]. split; [apply L|]. now apply C2. }
  assert (X3 : Forall2 (fun mm e => fst e = mm /\ forall a b, In (a, b) (directions mm) -> exists c, plot_one_curve w (snd e) ([a], [b]) Ks "_cosine" Dashed true = Ok c /\ shown_curve (true, (mm, (a, b))) c) the_pairs (map (fun m => (m, l3)) the_pairs)).
  { assert (X : forall l, incl l the_pairs -> Forall2 (fun mm e => fst e = mm /\ forall a b, In (a, b) (directions mm) -> exists c, plot_one_curve w (snd e) ([a], [b]) Ks "_cosine" Dashed true = Ok c /\ shown_curve (true, (mm, (a, b))) c) l (map (fun m => (m, l3)) l)).
    { induction l as [|mm l IH]; intro I; cbn [map]; constructor; [|apply IH; intros x H; apply I; now right]. split; [reflexivity|]. cbn [snd]. intros a b J. apply (curve3 w mm); auto. apply I. now left. }
    apply X. intros x H. exact H. }
  destruct (two_graphs w l2 (map (fun m => (m, l3)) the_pairs) [] Ks "_cosine") as (g2 & g3 & Eg & A2 & A3).
  { intros e I. apply In_nth_error in I as [q I]. assert (Q : exists mm, fst e = mm /\ forall a b, In (a, b) (directions mm) -> exists c, plot_one_curve w (snd e) ([a], [b]) Ks "_cosine" Solid true = Ok c).
    { clear - X2 I. revert q I. induction X2 as [|mm e' mms l (E & H) F IH]; intros [|q] I; try discriminate; [|exact (IH q I)]. cbn in I. assert (e' = e) by congruence. subst e'. exists mm. split; [exact E|]. intros a b J. destruct (H a b J) as (c & Ec & _). eauto. }
    destruct Q as (mm & E & H). destruct (H (fst mm) (snd mm)) as (c1 & E1); [left; now destruct mm|]. destruct (H (snd mm) (fst mm)) as (c2 & E2); [right; now left|]. exists c1, c2. unfold both. rewrite E. auto. }
  { intros e I. apply in_map_iff in I as (mm & <- & I). unfold both. cbn [fst snd]. destruct (curve3 w mm l3 (fst mm) (snd mm) "_cosine" Nk I F3') as (c1 & E1 & _); [left; now destruct mm|]. destruct (curve3 w mm l3 (snd mm) (fst mm) "_cosine" Nk I F3') as (c2 & E2 & _); [right; now left|]. exists c1, c2. auto. }
  change MOD_PAIRS with the_pairs. rewrite Eg. cbn [bind]. destruct (all_entries w Solid false "_cosine" l2 g2 A2 the_pairs X2) as [S2 N2]. destruct (all_entries w Dashed true "_cosine" _ g3 A3 the_pairs X3) as [S3 _].
  assert (Lg : fold_left (fun d e => dict_set String.eqb d (fst e) (snd e)) (List.concat g2) [] = List.concat g2).
  { rewrite dict_fresh; [reflexivity|]. cbn [app]. rewrite N2. apply six_labels. }
  rewrite Lg. 
  (* 50 *)
  destruct (index_of_ok 50 K50) as (i50 & -> & E50). cbn [bind].
  assert (At2 : exists at50, mapM (fun l : (string * string) * list nat => bind (py_nth (snd l) (Z.of_nat i50)) (fun lg => Ok (fst l, lg))) l2 = Ok at50 /\
     Forall2 (fun mm e => fst e = mm /\ merged (jobs_of false mm 50) Two [fst mm; snd mm] w (snd e)) the_pairs at50).
  { clear - F2' E50. induction F2' as [|mm e mms l [E F] F2 (r & Er & Fr)]; [exists []; split; [reflexivity|constructor]|].
    destruct (f2_nth _ _ _ F i50 50 E50) as (j & Ej & M). cbn [mapM]. rewrite experiment_proof.py_nth_nat, Ej. cbn [bind]. rewrite Er. cbn [bind]. eexists. split; [reflexivity|]. constructor; [split; [exact E|exact M]|exact Fr]. }
  destruct At2 as (at50 & -> & Fa). cbn [bind].
  change (dict_get pair_eqb (map (fun m => (m, l3)) the_pairs) ("image", "motion")%string) with (Some l3). cbn [bind].
  destruct (f2_nth _ _ _ F3' i50 50 E50) as (j3 & Ej3 & M3). rewrite experiment_proof.py_nth_nat, Ej3. cbn [bind].
  pose proof M3 as (_ & (v & Ev & Nv) & _ & H3).
  destruct (figure_boxes w at50 j3 v three_mods (fun e a b xs => In (a, b) (directions (fst e)) -> repeated (jobs_of false (fst e) 50) (score_between a b "_cosine") xs) (fun a b xs => repeated (three_name 50) (score_between a b "_cosine") xs)) as (panels & last & Ep & Fp & Ll & Hl); auto.
  { intro E. rewrite E in Fa. inversion Fa. }
  { intros m1 m2 lg I. apply In_nth_error in I as [q I].
    assert (Q : In (m1, m2) the_pairs /\ merged (jobs_of false (m1, m2) 50) Two [m1; m2] w lg).
    { assert (X : forall l, incl l the_pairs -> forall l', Forall2 (fun mm e => fst e = mm /\ merged (jobs_of false mm 50) Two [fst mm; snd mm] w (snd e)) l l' -> forall q, nth_error l' q = Some ((m1, m2), lg) -> In (m1, m2) the_pairs /\ merged (jobs_of false (m1, m2) 50) Two [m1; m2] w lg).
      { clear. intros l Il l' F. induction F as [|mm e mms l' [E M] F IH]; intros [|q] I; try discriminate; [|apply (IH (fun x H => Il x (or_intror H)) q I)]. cbn in I.
        assert (e = ((m1, m2), lg)) by congruence. subst e. cbn [fst snd] in *. subst mm. split; [apply Il; now left|exact M]. }
      exact (X the_pairs (fun x H => H) at50 Fa q I). }
    destruct Q as [Im M]. destruct (pair_known (m1, m2) m1 m2 Im) as (K1 & K2 & N); [now left|]. split; [exact K1|]. split; [exact K2|]. split; [exact N|]. cbn [fst].
    split; [destruct (two_scores _ _ _ _ _ m1 m2 "_cosine"%string M) as (xs & Sx & R)|destruct (two_scores _ _ _ _ _ m2 m1 "_cosine"%string M) as (xs & Sx & R)]; try (cbn; tauto); exists xs; auto. }
  { intros m1 m2 I1 I2 N. apply (three_scores _ _ _ m1 m2 "_cosine"%string M3); auto. right; right; right; now left. }
  rewrite Ep. cbn [bind].
  (* features *)
  assert (Bf : exists bf, plot_boxes_by_feats true w lf = Ok bf /\ Forall2 (fun fs bs => Forall2 (shown_box labels Ks n_run data rd (feats_name fs)) (directions ("image", "sound")%string) bs) feature_sets bf).
  { unfold plot_boxes_by_feats. assert (X : exists bf, mapM (fun l : list string * nat => plot_boxes_one_exp_pairs true w (snd l) ["image"; "sound"]%string true) lf = Ok bf /\ Forall2 (fun fs bs => Forall2 (shown_box labels Ks n_run data rd (feats_name fs)) (directions ("image", "sound")%string) bs) feature_sets bf).
    { clear - Ff. induction Ff as [|d e ds l M F (r & Er & Fr)]; [exists []; split; [reflexivity|constructor]|]. unfold logs_feats in M.
      destruct (two_boxes w (snd e) (fun dd xs => repeated (feats_name d) (score_between (fst dd) (snd dd) "_cosine") xs)) as (bs & Eb & Fb).
      - intros [a b] I. cbn [fst snd]. apply (two_scores _ "image"%string "sound"%string _ _ a b "_cosine"%string M I). right; right; right; now left.
      - cbn [mapM]. rewrite Eb. cbn [bind]. rewrite Er. cbn [bind]. eexists. split; [reflexivity|]. constructor; [exact Fb|exact Fr]. }
    destruct X as (bf & -> & Fb). exists bf. split; [|exact Fb]. cbn [bind]. destruct lf; [inversion Ff|reflexivity]. }
  destruct Bf as (bf & -> & Fb). cbn [bind].
  (* three modalities *)
  destruct (all_mods_boxes w j3 three_mods v (fun c xs => repeated (three_name 50) (fun x p split v => x_mods x = three_mods /\ three_score x p (fst c) (snd c) "_cosine" split v) xs)) as (bs & gr & Ea & Cg & Lgr & Hg & Fs); auto.
  { repeat (constructor; [cbn; intuition discriminate|]). constructor. }
  { intros [ms1 ms2] I. destruct (H3 eq_refl ms1 ms2 "_cosine"%string (shown_tested _ I)) as (xs & Sx & L & R); [right; right; right; now left|]. exists xs. split; [exact Sx|]. split; [exact L|].
    intros i u Eu. destruct (R i u Eu) as (x & p & sp & Ra & _ & Xm & T). exists x, p, sp. auto. }
  rewrite Ea. cbn [bind]. eexists w, _. split; [reflexivity|]. unfold shown_figures.
  assert (L6 : length (List.concat g2) = 6) by (rewrite <- (map_length fst), N2; reflexivity).
  split; [rewrite map_app; unfold the_curves; cbn [flat_map]; rewrite app_nil_r; apply Forall2_app; assumption|].
  split; [exact N2|]. split.
  { rewrite map_app, firstn_app, map_length, L6, Nat.sub_diag, firstn_O, app_nil_r. symmetry. apply firstn_all2. rewrite map_length. lia. }
  split.
  { clear - Fp Fa. revert panels Fp. induction Fa as [|mm e mms l [E M] F IH]; intros panels Fp; inversion Fp as [|? panel ? panels' (b1 & b2 & -> & L1 & L2 & P1 & P2) Fp']; subst; constructor; [|now apply IH].
    cbn [fst snd]. split; [reflexivity|]. destruct (fst e) as [m1 m2]. cbn [fst snd] in *. constructor; [split; [exact L1|apply P1; now left]|]. constructor; [split; [exact L2|apply P2; right; now left]|constructor]. }
  split; [rewrite Ll; reflexivity|]. split; [intros a b Ka Kb N; destruct (Hl a b Ka Kb N) as (bx & Ib & Lb & Rb); exists bx; split; [exact Ib|split; assumption]|].
  split; [exact Fb|]. split; [exact Fs|]. auto.
Qed.
End M.
