(** * Lemmas about the printed table: its lines. *)
From Coq Require Import List ZArith Reals Bool Arith String Ascii QArith Qreals Lia Lra.
From Flocq Require Import Core.
Import ListNotations.
From Verif Require Import Py nd_model nd_spec nd_proof logger_model experiment_model experiment_spec figures_model figures_spec figures_exp figures_tables
  table_model table_spec table_proof.
Open Scope py_scope.
Local Open Scope nat_scope.

(** ** Parts of 1 *)
Definition part (v : R) : Prop := (0 <= v <= 1)%R.
Lemma score_part x p m1 m2 cmp s split v : two_score x p m1 m2 cmp s split v -> part v.
Proof.
  intros (l & d & truth & a & b & found & f & _ & _ & _ & _ & _ & (q & E & _ & B1 & B2) & ->). injection E as ->.
  apply Qle_Rle in B1, B2. change (inject_Z 0) with 0%Q in *. rewrite RMicromega.Q2R_0 in B1. rewrite RMicromega.Q2R_1 in B2. split; assumption.
Qed.
Lemma sum_parts xs : Forall part xs -> (0 <= lsum xs <= INR (List.length xs))%R /\ (lsum (map (fun v => v * v) xs) <= lsum xs)%R.
Proof.
  induction 1 as [|v xs P F (I1 & I2)]; [cbn; lra|]. cbn [lsum map List.length]. rewrite S_INR. destruct P. split; [lra|]. nra.
Qed.
Lemma sum_squares xs m : lsum (map (fun v => (v - m) * (v - m))%R xs) = (lsum (map (fun v => v * v) xs) - 2 * m * lsum xs + m * m * INR (List.length xs))%R.
Proof. induction xs as [|v xs IH]; [cbn; lra|]. cbn [lsum map List.length]. rewrite S_INR, IH. ring. Qed.
Lemma parts_bounds xs m d : xs <> [] -> Forall part xs -> average_of xs m -> deviation_of xs m d -> (0 <= m <= 1)%R /\ (0 <= d <= 1 / 2)%R.
Proof.
  intros N F A (P & D). unfold average_of in A. destruct (sum_parts xs F) as ((S1 & S2) & S3). rewrite sum_squares in D. rewrite <- A in *.
  assert (L : (0 < INR (List.length xs))%R) by (apply lt_0_INR; destruct xs; [congruence|cbn; lia]). set (n := INR (List.length xs)) in *. clearbody n.
  assert (M : (0 <= m <= 1)%R) by (split; apply (Rmult_le_reg_r n); lra). split; [exact M|]. split; [exact P|].
  assert (Q : (d * d <= 1 / 4)%R). { apply (Rmult_le_reg_r n); [exact L|]. assert (0 <= n * ((m - 1 / 2) * (m - 1 / 2)))%R by (apply Rmult_le_pos; [lra|apply Rle_0_sqr]).
    assert (X : (n * ((m - 1 / 2) * (m - 1 / 2)) = m * m * n - m * n + n / 4)%R) by field. rewrite X in H. lra. }
  nra.
Qed.
(** ** Numbers with three decimals *)
Lemma znearest_upper x k : (x <= IZR k)%R -> (ZnearestE x <= k)%Z.
Proof. intro H. rewrite <- (Zrnd_IZR ZnearestE k). apply Zrnd_le; auto with typeclass_instances. Qed.
Lemma fixed_value x : (0 <= x)%R -> exists n, thousandths (fixed3 x) n /\ nearest3 x n /\ n = Z.to_nat (ZnearestE (x * 1000)).
Proof.
  intro H. unfold fixed3. rewrite Raux.Rlt_bool_false by exact H. rewrite Rabs_pos_eq by exact H.
  destruct (znearest_near (x * 1000)) as (n & -> & N1 & N2); [lra|]. exists n. split; [apply fixed_thousandths|]. split; [split; assumption|reflexivity].
Qed.
Lemma fixed_upper x k : (0 <= x)%R -> (x * 1000 <= INR k)%R -> exists n, thousandths (fixed3 x) n /\ nearest3 x n /\ n <= k.
Proof.
  intros H B. destruct (fixed_value x H) as (n & T & Ne & E). exists n. split; [exact T|]. split; [exact Ne|]. rewrite E.
  rewrite INR_IZR_INZ in B. apply znearest_upper in B. lia.
Qed.
Lemma fixed_length x : (0 <= x <= 9)%R -> String.length (fixed3 x) = 5.
Proof.
  intros (H & B). unfold fixed3. rewrite Raux.Rlt_bool_false by exact H. rewrite Rabs_pos_eq by exact H. set (n := Z.to_nat _).
  assert (Hn : n / 1000 <= 9). { apply Nat.div_le_upper_bound; [lia|]. unfold n. assert (U : (ZnearestE (x * 1000) <= 9000)%Z) by (apply znearest_upper; lra). lia. }
  rewrite !length_append. cbn [String.length digit]. generalize dependent (n / 1000). intros q Hq. do 10 (destruct q as [|q]; [reflexivity|]). lia.
Qed.
Lemma summary_text xs ms : xs <> [] -> Forall part xs -> average_of xs (fst ms) -> deviation_of xs (fst ms) (snd ms) ->
  summary xs (stats_text ms) /\ String.length (stats_text ms) = 13.
Proof.
  intros N F A D. destruct (parts_bounds xs _ _ N F A D) as ((M1 & M2) & (D1 & D2)). destruct ms as (m & d). cbn [fst snd] in *.
  destruct (fixed_upper m 1000 M1) as (n & Tn & Nn & Bn). { rewrite INR_IZR_INZ. change (Z.of_nat 1000) with 1000%Z. lra. }
  destruct (fixed_upper d 500 D1) as (k & Tk & Nk & Bk). { rewrite INR_IZR_INZ. change (Z.of_nat 500) with 500%Z. lra. }
  split.
  - exists m, d, (fixed3 m), (fixed3 d), n, k. split; [exact A|]. split; [exact D|]. split; [reflexivity|]. auto 10.
  - unfold stats_text. cbn [fst snd]. rewrite !length_append, !fixed_length by lra. reflexivity.
Qed.

(** ** Two modalities *)
Lemma f2_map_r {A B C} (P : A -> C -> Prop) (g : B -> C) l l' : Forall2 (fun a b => P a (g b)) l l' -> Forall2 P l (map g l').
Proof. induction 1; cbn; constructor; auto. Qed.
Lemma f2_weak {A B} (P Q : A -> B -> Prop) l l' : (forall a b, P a b -> Q a b) -> Forall2 P l l' -> Forall2 Q l l'.
Proof. intros H. induction 1; constructor; auto. Qed.
Lemma scores_parts x p m1 m2 cmp s splits xs : splits <> [] -> Forall2 (two_score x p m1 m2 cmp s) splits xs -> xs <> [] /\ Forall part xs.
Proof.
  intros N F. split; [destruct F; congruence|]. clear N. induction F; constructor; auto. eapply score_part; eauto.
Qed.
(** The text of each line, from its cells. *)
Lemma lines_text rd x f : sound x -> legal x rd -> enough x rd -> x_kind x = Two -> (forall m, In m (x_mods x) -> clean m) -> 2 <= List.length (x_mods x) ->
  exists p splits w rows, prepare rd x = Ok p /\ p_generator p = Ok splits /\ splits <> [] /\ run_world rd x f = (w, Ok tt) /\
    table_two w x = ((head_two ++ rows ++ [rule_two])%list, Ok tt) /\
    Forall2 (fun c row => exists names cells, line_for x p splits c names cells /\ row = row_of 13 (map (center 13) names ++ cells)%list /\
      List.length cells = 3 /\ forall t, In t cells -> String.length t = 13) (shown_lines x) rows.
Proof.
  intros S L E K Kn N2. destruct (two_table rd x f S L E K Kn N2) as (p & splits & w & Ep & Eg & Er & rows & Ep2 & F).
  destruct (run_clean rd x f S L E) as (p' & splits' & w' & Ep' & Eg' & Ns & _); auto; [congruence|congruence|].
  assert (p' = p) by congruence. subst p'. assert (splits' = splits) by congruence. subst splits'.
  exists p, splits, w, (map two_text rows). split; [exact Ep|]. split; [exact Eg|]. split; [exact Ns|]. split; [exact Er|]. split; [unfold table_two; rewrite Ep2; reflexivity|].
  apply f2_map_r. eapply f2_weak; [|exact F]. intros ((m1, m2), cmp) row (stats & -> & Fs).
  exists [mod_name (x_mods x) m1; mod_name (x_mods x) m2; match cmp with None => "internal"%string | Some k => mod_name (x_mods x) k end], (map stats_text stats).
  assert (G : Forall2 (fun s ms => (exists xs, Forall2 (two_score x p m1 m2 cmp s) splits xs /\ summary xs (stats_text ms)) /\ String.length (stats_text ms) = 13) [""; "_frob"; "_cosine"]%string stats).
  { eapply f2_weak; [|exact Fs]. intros s ms (xs & Fx & A & D). destruct (scores_parts _ _ _ _ _ _ _ _ Ns Fx) as (Nx & Px).
    destruct (summary_text xs ms Nx Px A D) as (T & Lt). split; [exists xs; auto|exact Lt]. }
  split; [split; [reflexivity|]; apply f2_map_r; eapply f2_weak; [|exact G]; intros s ms (H & _); exact H|]. split; [reflexivity|].
  split.
  - rewrite map_length. clear -G. inversion G as [|? ? ? ? ? G1]; subst. inversion G1 as [|? ? ? ? ? G2]; subst. inversion G2 as [|? ? ? ? ? G3]; subst. inversion G3; subst. reflexivity.
  - intros t Ht. apply in_map_iff in Ht. destruct Ht as (ms & <- & Hm). clear -G Hm. induction G; [destruct Hm|]. destruct Hm as [<-|Hm]; [tauto|auto].
Qed.
Lemma line_names x p splits c names cells : line_for x p splits c names cells -> List.length names = 3.
Proof. destruct c as ((m1, m2), cmp). intros (-> & _). reflexivity. Qed.
Lemma mod_name_in mods k : mod_name mods k = ""%string \/ In (mod_name mods k) mods.
Proof. unfold mod_name. destruct (nth_in_or_default k mods ""%string) as [H|H]; auto. Qed.
Lemma names_short x p splits c names cells : (forall m, In m (x_mods x) -> String.length m <= 13) -> line_for x p splits c names cells -> forall t, In t names -> String.length t <= 13.
Proof.
  intros H. destruct c as ((m1, m2), cmp). intros (-> & _) t Ht.
  assert (M : forall k, String.length (mod_name (x_mods x) k) <= 13) by (intro k; destruct (mod_name_in (x_mods x) k) as [->|I]; [cbn; lia|auto]).
  destruct Ht as [<-|[<-|[<-|[]]]]; auto. destruct cmp; auto. cbn. lia.
Qed.
Lemma center_row names cells : row_of 13 (map (center 13) names ++ cells)%list = row_of 13 (names ++ cells)%list.
Proof. unfold row_of. f_equal. rewrite !map_app, map_map. f_equal. apply map_ext. intro. apply center_twice. Qed.

Lemma separates s : forallb (fun c => Ascii.eqb c "-" || Ascii.eqb c " ") (chars s) = true -> separator s.
Proof. intros H c Hc. rewrite forallb_forall in H. specialize (H c Hc). apply orb_true_iff in H. destruct H as [H|H]; apply Ascii.eqb_eq in H; auto. Qed.
Lemma two_lines rd x f : sound x -> legal x rd -> enough x rd -> x_kind x = Two -> (forall m, In m (x_mods x) -> clean m) -> 2 <= List.length (x_mods x) ->
  (forall m, In m (x_mods x) -> String.length m <= 13) ->
  exists p splits w h1 h2 h3 h4 h5 rows, prepare rd x = Ok p /\ p_generator p = Ok splits /\ splits <> [] /\ run_world rd x f = (w, Ok tt) /\
    table_two w x = ([h1; h2; h3; h4; h5] ++ rows ++ [h1], Ok tt)%list /\
    (forall h, In h [h1; h3; h5] -> separator h /\ String.length h = 83) /\
    in_middle 41 "Modalities" (substring 0 41 h2) /\ in_middle 41 "Score: avg (std)" (substring 41 41 h2) /\
    columns 13 ["Test"; "Reference"; "Comparison"; "KL"; "Euclidean"; "Cosine"]%string h4 /\
    Forall2 (fun c row => exists names cells, line_for x p splits c names cells /\ columns 13 (names ++ cells) row) (shown_lines x) rows.
Proof.
  intros S L E K Kn N2 Sh. destruct (lines_text rd x f S L E K Kn N2) as (p & splits & w & rows & Ep & Eg & Ns & Er & Et & F).
  unfold head_two in Et. eexists p, splits, w, _, _, _, _, _, rows. split; [exact Ep|]. split; [exact Eg|]. split; [exact Ns|]. split; [exact Er|]. split; [exact Et|]. split; [|split; [|split; [|split]]].
  - intros h Hh. split.
    + apply separates. destruct Hh as [<-|[<-|[<-|[]]]]; reflexivity.
    + destruct Hh as [<-|[<-|[<-|[]]]]; reflexivity.
  - exists (repeated " " 16), (repeated " " 15).
    split; [reflexivity|]. split; [apply blank_repeated|]. split; [apply blank_repeated|]. split; [reflexivity|]. cbn. lia.
  - exists (repeated " " 13), (repeated " " 12). split; [reflexivity|]. split; [apply blank_repeated|]. split; [apply blank_repeated|]. split; [reflexivity|]. cbn. lia.
  - apply row_columns; [discriminate|]. intros t Ht. cbn in Ht. repeat (destruct Ht as [<-|Ht]; [cbn; lia|]). destruct Ht.
  - eapply f2_weak; [|exact F]. intros c row (names & cells & Hl & -> & Lc & Hc). exists names, cells. split; [exact Hl|]. rewrite center_row. apply row_columns.
    + pose proof (line_names _ _ _ _ _ _ Hl). destruct names; [discriminate|]. discriminate.
    + intros t Ht. apply in_app_iff in Ht. destruct Ht as [Ht|Ht]; [eapply names_short; eauto|rewrite (Hc t Ht); lia].
Qed.
(** With longer names the lines are longer. *)
Lemma sum_wide (l : list string) : list_sum (map (fun t => S (Nat.max 13 (String.length t))) l) = list_sum (map (fun t => S (13 + (String.length t - 13))) l).
Proof. f_equal. apply map_ext. intro t. lia. Qed.
Lemma long_names rd x f : sound x -> legal x rd -> enough x rd -> x_kind x = Two -> (forall m, In m (x_mods x) -> clean m) -> 2 <= List.length (x_mods x) ->
  exists w lines rows, run_world rd x f = (w, Ok tt) /\ table_two w x = (lines, Ok tt) /\ lines = (firstn 5 lines ++ rows ++ skipn (5 + List.length rows) lines)%list /\
    List.length rows = 2 * S (List.length (x_mods x)) /\ List.length lines = 6 + List.length rows /\
    ((forall r, In r rows -> String.length r = 83) <-> (forall m, In m (x_mods x) -> String.length m <= 13)) /\
    (forall r, In r rows -> 83 <= String.length r).
Proof.
  intros S L E K Kn N2. destruct (lines_text rd x f S L E K Kn N2) as (p & splits & w & rows & Ep & Eg & Ns & Er & Et & F).
  exists w, (head_two ++ rows ++ [rule_two])%list, rows. split; [exact Er|]. split; [exact Et|].
  assert (Lr : List.length rows = 2 * Datatypes.S (List.length (x_mods x))).
  { assert (X : List.length (shown_lines x) = List.length rows) by (clear -F; induction F; cbn; auto). rewrite <- X. unfold shown_lines. rewrite prod_length. cbn [List.length]. rewrite map_length, seq_length. reflexivity. }
  split; [unfold head_two; cbn [firstn app]; do 5 f_equal; cbn [skipn Nat.add]; f_equal; clear; induction rows; cbn; auto|].
  split; [exact Lr|]. split; [unfold head_two; cbn [app List.length]; rewrite app_length; cbn; lia|].
  assert (Len : forall c row, In (c, row) (combine (shown_lines x) rows) -> exists names cells, line_for x p splits c names cells /\
    String.length row = 83 + list_sum (map (fun t => String.length t - 13) names)).
  { intros c row I. clear Lr Et. induction F as [|c0 row0 cs rs H F IH]; [destruct I|]. destruct I as [I|I]; [|auto]. injection I as -> ->.
    destruct H as (names & cells & Hl & -> & Lc & Hc). exists names, cells. split; [exact Hl|]. rewrite center_row. pose proof (line_names _ _ _ _ _ _ Hl) as Ln.
    assert (X := row_length 13 (names ++ cells)%list). rewrite map_app, list_sum_app in X. specialize (X ltac:(destruct names; discriminate)).
    destruct names as [|n1 [|n2 [|n3 [|]]]]; try discriminate Ln. destruct cells as [|c1 [|c2 [|c3 [|]]]]; try discriminate Lc. cbn [map list_sum fold_right] in *.
    rewrite (Hc c1), (Hc c2), (Hc c3) in X by (cbn; auto). lia. }
  assert (In2 : forall r, In r rows -> exists c, In (c, r) (combine (shown_lines x) rows)).
  { clear -F. induction F as [|c0 row0 cs rs H F IH]; [intros r []|]. intros r [<-|I]; [exists c0; now left|]. destruct (IH r I) as (c & Hc). exists c. now right. }
  assert (In1 : forall c, In c (shown_lines x) -> exists r, In r rows /\ In (c, r) (combine (shown_lines x) rows)).
  { clear -F. induction F as [|c0 row0 cs rs H F IH]; [intros r []|]. intros r [<-|I]; [exists row0; split; now left|]. destruct (IH r I) as (c & Hc & Hc'). exists c. split; now right. }
  split; [split|].
  - intros H m Im. destruct (In_nth _ _ ""%string Im) as (k & Hk & Ek).
    destruct (In1 ((0, 1), Some k)) as (r & Ir & Ic).
    { unfold shown_lines. apply in_prod; [now left|]. right. apply in_map. apply in_seq. lia. }
    destruct (Len _ _ Ic) as (names & cells & Hl & El). rewrite (H r Ir) in El. destruct Hl as (-> & _). cbn [map list_sum fold_right] in El.
    unfold mod_name in El. rewrite Ek in El. lia.
  - intros H r Ir. destruct (In2 r Ir) as (c & Ic). destruct (Len _ _ Ic) as (names & cells & Hl & ->).
    assert (X : list_sum (map (fun t => String.length t - 13) names) = 0); [|lia].
    pose proof (names_short _ _ _ _ _ _ H Hl) as Sn. clear -Sn. induction names as [|n names IH]; [reflexivity|]. cbn [map]. change (list_sum (?a :: ?l)) with (a + list_sum l). rewrite (IH (fun t Ht => Sn t (or_intror Ht))).
    specialize (Sn n (or_introl eq_refl)). lia.
  - intros r Ir. destruct (In2 r Ir) as (c & Ic). destruct (Len _ _ Ic) as (names & cells & _ & ->). lia.
Qed.
(** ** Reading the numbers *)
Lemma split_end a b a' b' : (a ++ b = a' ++ b')%string -> String.length b = String.length b' -> a = a' /\ b = b'.
Proof.
  intros E Lb. assert (La : String.length a = String.length a') by (apply (f_equal String.length) in E; rewrite !length_append in E; lia).
  revert a' E La. induction a as [|c a IH]; intros [|c' a'] E La; try discriminate; [auto|]. injection E as -> E. injection La as La. destruct (IH a' E La) as (-> & ->). auto.
Qed.
Lemma thousandths_unique s n k : thousandths s n -> thousandths s k -> n = k.
Proof.
  intros (a & b & -> & _ & _ & _ & Lb & <- & _) (a' & b' & E & _ & _ & _ & Lb' & <- & _).
  apply split_end in E; [|cbn; congruence]. destruct E as (-> & E). now injection E as ->.
Qed.
Lemma fixed_order x y n k : (0 <= x <= y)%R -> thousandths (fixed3 x) n -> thousandths (fixed3 y) k -> n <= k.
Proof.
  intros (H & B) Tn Tk. destruct (fixed_value x H) as (n' & Tn' & _ & En). destruct (fixed_value y) as (k' & Tk' & _ & Ek); [lra|].
  rewrite (thousandths_unique _ _ _ Tn Tn'), (thousandths_unique _ _ _ Tk Tk'), En, Ek. apply Z2Nat.inj_le.
  - rewrite <- (Zrnd_IZR ZnearestE 0). apply Zrnd_le; auto with typeclass_instances. lra.
  - rewrite <- (Zrnd_IZR ZnearestE 0). apply Zrnd_le; auto with typeclass_instances. lra.
  - apply Zrnd_le; auto with typeclass_instances. lra.
Qed.
(** ** No line of results *)
Lemma three_lines rd x f py2 : sound x -> legal x rd -> enough x rd -> x_kind x = Three -> (forall m, In m (x_mods x) -> clean m) -> List.length (x_mods x) = 3 ->
  exists w h1 h2 h3 h4 h5, run_world rd x f = (w, Ok tt) /\ table_three py2 w x = ([h1; h2; h3; h4; h5], Err (if py2 then ValueError else TypeError)) /\
    (forall h, In h [h1; h3; h5] -> separator h) /\ String.length h1 = 80 /\ String.length h3 = 79 /\ String.length h5 = 79 /\
    in_middle 32 "Modalities" (substring 0 32 h2) /\ in_middle 47 "Score: avg (std)" (substring 32 47 h2) /\ String.length h2 = 79 /\
    columns 15 ["Test"; "Reference"; "KL"; "Euclidean"; "Cosine"]%string h4.
Proof.
  intros S L E K Kn N. destruct (three_table rd x f py2 S L E K Kn N) as (w & Er & Ep). exists w. unfold table_three. rewrite Ep. eexists _, _, _, _, _.
  split; [exact Er|]. split; [reflexivity|]. split; [intros h Hh; apply separates; destruct Hh as [<-|[<-|[<-|[]]]]; reflexivity|].
  split; [reflexivity|]. split; [reflexivity|]. split; [reflexivity|]. split; [|split; [|split; [reflexivity|]]].
  - exists (repeated " " 11), (repeated " " 11). split; [reflexivity|]. split; [apply blank_repeated|]. split; [apply blank_repeated|]. split; [reflexivity|]. cbn. lia.
  - exists (repeated " " 16), (repeated " " 15). split; [reflexivity|]. split; [apply blank_repeated|]. split; [apply blank_repeated|]. split; [reflexivity|]. cbn. lia.
  - apply row_columns; [discriminate|]. intros t Ht. cbn in Ht. repeat (destruct Ht as [<-|Ht]; [cbn; lia|]). destruct Ht.
Qed.
Lemma one_lines w x : List.length (x_mods x) = 1 -> exists h1 h2 h3 h4 h5, table_two w x = ([h1; h2; h3; h4; h5], Err IndexError).
Proof. intro N. unfold table_two. rewrite (one_table w x N). eexists _, _, _, _, _. reflexivity. Qed.
