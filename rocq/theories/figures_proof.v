(** * Lemmas about the figures and tables: scores of logs, statistics, curves and boxes. *)

From Coq Require Import List ZArith Reals Bool Arith String QArith Qreals Lia Lra.
Import ListNotations.
From Verif Require Import Py Py_proof nd_model nd_spec logger_model logger_spec logger_proof experiment_model experiment_spec figures_model figures_spec.
From Verif Require Import logger_load.
Local Open Scope nat_scope.

(** ** Statistics *)
Lemma fold_plus l : forall a, fold_left Rplus l a = (a + lsum l)%R.
Proof. induction l as [|v l IH]; intro a; cbn [fold_left lsum]; [lra|]. rewrite IH. lra. Qed.
Lemma np_sum_lsum l : np_sum l = lsum l.
Proof. unfold np_sum. rewrite fold_plus. lra. Qed.
Lemma INR_pos {A} (l : list A) : l <> [] -> (INR (List.length l) > 0)%R.
Proof. destruct l; [congruence|]. intros _. apply lt_0_INR. cbn. lia. Qed.
Lemma mean_average l : l <> [] -> average_of l (np_mean l).
Proof. intro N. unfold average_of, np_mean. rewrite np_sum_lsum. pose proof (INR_pos l N). field. lra. Qed.
Lemma squares_pos (m : R) l : (0 <= lsum (map (fun v => (v - m) * (v - m)) l))%R.
Proof. induction l as [|v l IH]; cbn [map lsum]; [lra|]. pose proof (Rle_0_sqr (v - m)). unfold Rsqr in *. lra. Qed.
Lemma std_deviation l : l <> [] -> deviation_of l (np_mean l) (np_std l).
Proof.
  intro N. unfold deviation_of, np_std. split; [apply sqrt_pos|].
  pose proof (INR_pos l N) as P. pose proof (squares_pos (np_mean l) l) as Q.
  assert (E : np_mean (map (fun v => (v - np_mean l) * (v - np_mean l))%R l) = (lsum (map (fun v => (v - np_mean l) * (v - np_mean l)) l) / INR (List.length l))%R).
  { unfold np_mean at 1. rewrite np_sum_lsum, map_length. reflexivity. }
  rewrite E. rewrite sqrt_sqrt. - field. lra. - apply Rmult_le_pos; [exact Q|]. apply Rlt_le, Rinv_0_lt_compat. exact P.
Qed.

(** ** Scores of a log *)
Lemma nth_error_same {A} (a : list A) : forall b, (forall q, nth_error a q = nth_error b q) -> a = b.
Proof.
  induction a as [|x a IH]; intros [|y b] H; auto; try (specialize (H 0); discriminate).
  pose proof (H 0) as H0. cbn in H0. f_equal; [congruence|]. apply IH. intro q. exact (H (S q)).
Qed.
Lemma scored_values w i key xs : scored w i key xs <-> exists fs, get_values w i key = Ok (map VFloat fs) /\ xs = map Q2R fs.
Proof.
  split.
  - intros [R H]. unfold runs_of in R. destruct (nth_error (w_logs w) i) as [l|] eqn:El; [|discriminate]. cbn in R.
    assert (Rl : List.length (lg_exps l) = List.length xs) by congruence. clear R.
    unfold get_values, get_logger. rewrite El. cbn [bind].
    assert (S : forall n ys es, List.length ys = List.length es -> (forall q v, nth_error ys q = Some v -> exists f r d, v = Q2R f /\ nth_error es q = Some r /\ nth_error (w_runs w) r = Some d /\ dict_get String.eqb d key = Some (VFloat f)) -> n = List.length ys ->
      exists fs, mapM (fun r => bind (get_run w r) (fun d => Ok match dict_get String.eqb d key with Some v => v | None => VNone end)) es = Ok (map VFloat fs) /\ ys = map Q2R fs).
    { clear. intro n. induction n as [|n IH]; intros [|y ys] [|e es] L H E; try discriminate.
      - exists []. auto.
      - cbn in L. destruct (IH ys es) as (fs & E1 & E2); [lia| |cbn in E; lia|].
        { intros q v Hq. exact (H (S q) v Hq). }
        destruct (H 0 y eq_refl) as (f & r & d & -> & Er & Ed & Ef). cbn in Er. assert (e = r) by congruence. subst e.
        exists (f :: fs). split; [|cbn; congruence]. cbn [mapM]. unfold get_run at 1. rewrite Ed. cbn [bind]. rewrite Ef. cbn [bind].
        rewrite E1. reflexivity. }
    destruct (S (List.length xs) xs (lg_exps l)) as (fs & E1 & E2); auto.
    + intros q v Hq. destruct (H q v Hq) as (f & V & ->). unfold value_at in V. rewrite El in V.
      destruct (nth_error (lg_exps l) q) as [r|]; [|discriminate]. destruct (nth_error (w_runs w) r) as [d|] eqn:Ed; [|discriminate]. exists f, r, d. auto.
    + exists fs. auto.
  - intros (fs & E & ->). unfold get_values, get_logger in E. destruct (nth_error (w_logs w) i) as [l|] eqn:El; [|discriminate]. cbn [bind] in E.
    apply mapM_ok in E. unfold scored, runs_of, value_at. rewrite El. cbn [option_map].
    assert (L : List.length (lg_exps l) = List.length fs). { rewrite <- (map_length (@VFloat nd) fs). clear - E. induction E; cbn; congruence. }
    split; [rewrite map_length; congruence|]. intros q v Hq. rewrite nth_error_map in Hq. destruct (nth_error fs q) as [f|] eqn:Ef; [|discriminate].
    cbn in Hq. exists f. split; [|congruence]. clear L El Hq.
    remember (map (@VFloat nd) fs) as vs eqn:Ev. revert q fs Ev Ef. induction E as [|r v' es vs E1 E IH]; intros q [|g fs] Ev Ef; try discriminate; [now destruct q|].
    destruct q as [|q]; cbn in Ef |- *.
    + unfold get_run in E1. destruct (nth_error (w_runs w) r) as [d|]; [|discriminate]. cbn [bind] in E1. cbn [map] in Ev.
      destruct (dict_get String.eqb d key) as [u|]; congruence.
    + apply (IH q fs); auto. cbn [map] in Ev. congruence.
Qed.
Lemma scored_get w i key xs : scored w i key xs -> exists vs, get_values w i key = Ok vs /\ mapM number vs = Ok xs /\ List.length vs = List.length xs.
Proof.
  intro H. apply scored_values in H as (fs & E & ->). exists (map VFloat fs). split; [exact E|]. split; [|now rewrite !map_length].
  clear. induction fs as [|f fs IH]; cbn [map mapM number bind]; [reflexivity|]. now rewrite IH.
Qed.
Lemma stats_ok w i key xs : scored w i key xs -> xs <> [] -> exists m s, get_stats w i key = Ok (m, s) /\ average_of xs m /\ deviation_of xs m s.
Proof.
  intros H N. destruct (scored_get _ _ _ _ H) as (vs & E & E2 & _). exists (np_mean xs), (np_std xs). unfold get_stats. rewrite E. cbn [bind]. rewrite E2.
  cbn [bind]. split; [reflexivity|]. split; [now apply mean_average|now apply std_deviation].
Qed.

(** A run without the value. *)
Lemma lacking_values w i l key q vs : nth_error (w_logs w) i = Some l -> q < List.length (lg_exps l) -> value_at w i q key = None ->
  get_values w i key = Ok vs -> In (@VNone nd) vs.
Proof.
  intros El Hq V E. unfold get_values, get_logger in E. rewrite El in E. cbn [bind] in E. apply mapM_ok in E. unfold value_at in V. rewrite El in V.
  clear El. revert q Hq V. induction E as [|r v es vs E1 E IH]; intros q Hq V; [cbn in Hq; lia|]. destruct q as [|q]; cbn in Hq, V.
  - left. unfold get_run in E1. destruct (nth_error (w_runs w) r) as [d|]; [|discriminate]. cbn [bind] in E1. rewrite V in E1. congruence.
  - right. apply (IH q); auto. lia.
Qed.
Lemma none_number (vs : list val) : In (@VNone nd) vs -> mapM number vs = Err TypeError.
Proof.
  induction vs as [|v vs IH]; [intros []|]. intro H. cbn [mapM].
  destruct v; cbn [number bind]; try reflexivity; (destruct H as [H|H]; [discriminate|]; now rewrite (IH H)).
Qed.
Lemma stats_missing w i l key q : wf_world w -> nth_error (w_logs w) i = Some l -> q < List.length (lg_exps l) -> value_at w i q key = None ->
  get_stats w i key = Err TypeError.
Proof.
  intros W El Hq V. destruct (get_values_ok w i l key W El) as (vs & E & _). unfold get_stats. rewrite E. cbn [bind].
  rewrite (none_number vs); [reflexivity|]. exact (lacking_values _ _ _ _ _ _ El Hq V E).
Qed.

(** ** Logs that are merged *)
Lemma merged_scored w w' i key vss js xss : Forall2 (fun j vs => get_values w j key = Ok vs) js vss ->
  Forall2 (fun j xs => scored w j key xs) js xss -> get_values w' i key = Ok (List.concat vss) -> scored w' i key (List.concat xss).
Proof.
  intros A B E. apply scored_values. rewrite E. clear E.
  assert (X : exists fs, List.concat vss = map VFloat fs /\ List.concat xss = map Q2R fs).
  { revert xss B. induction A as [|j vs js vss A1 A IH]; intros xss B; inversion B as [|? xs ? xss' B1 B2 E0 E1]; subst; cbn [List.concat].
    - exists []. auto.
    - apply scored_values in B1 as (fs & F1 & ->). destruct (IH _ B2) as (gs & G1 & G2). exists (fs ++ gs). rewrite !map_app, G1, G2. split; congruence. }
  destruct X as (fs & -> & ->). eauto.
Qed.

(** ** Saving and loading *)
Lemma recorded_scored w w' j key xs : scored w 0 key xs -> recorded w w' j -> scored w' j key xs.
Proof.
  intros [R H] [[-> ->]|[(l & l' & El & El' & L & _ & V & _)|(l & l' & El & El' & L & _ & V & _)]]; [split; assumption| |];
    unfold scored, runs_of in *; rewrite El in R; cbn in R; rewrite El'; cbn; (split; [congruence|]); intros q v Hq;
    destruct (H q v Hq) as (f & E & ->); specialize (V q key); rewrite E in V.
  - destruct (value_at w' j q key) as [v'|]; [|destruct V]. cbn in V. inversion V as [|? ? J]; subst. inversion J; subst. eauto.
  - cbn in V. destruct V as (v' & E' & J). inversion J; subst. eauto.
Qed.
Lemma images_names ms : forall l', images (map (@VStr nd) ms) l' -> l' = map VStr ms.
Proof.
  induction ms as [|m ms IH]; intros l' H; cbn [map] in H; inversion H as [|? ? ? ? J I]; subst; [reflexivity|]. inversion J; subst. cbn. f_equal. now apply IH.
Qed.
Lemma names_strs ms : mapM (fun s : val => match s with VStr s => Ok s | _ => Err TypeError end) (map (@VStr nd) ms) = Ok ms.
Proof. induction ms as [|m ms IH]; cbn [map mapM bind]; [reflexivity|]. now rewrite IH. Qed.
Lemma recorded_names w w' j ms : get_value w 0 "modalities"%string = Ok (VList (map VStr ms)) -> recorded w w' j ->
  exists v, get_value w' j "modalities"%string = Ok v /\ names_of v = Ok ms.
Proof.
  intros E [[-> ->]|[(l & l' & El & El' & _ & G & _)|(l & l' & El & El' & _ & G & _)]]; [eexists; split; [exact E|]; apply names_strs| |];
    unfold get_value, get_logger in E |- *; rewrite El in E; rewrite El'; cbn [bind] in *; specialize (G "modalities"%string); unfold global_at in G;
    rewrite El, El' in G; (destruct (dict_get String.eqb (lg_glob l) "modalities"%string) as [v|]; [|discriminate]); assert (v = VList (map VStr ms)) by congruence; subst v.
  - destruct (dict_get String.eqb (lg_glob l') "modalities"%string) as [v'|]; [|destruct G]. exists v'. split; [reflexivity|]. cbn in G.
    inversion G as [|? ? J]; subst. inversion J as [| | | | |? ? I| |]; subst. apply images_names in I as ->. apply names_strs.
  - cbn in G. destruct G as (v' & E' & J). rewrite E'. exists v'. split; [reflexivity|]. inversion J as [| | | | |? ? I| |]; subst. apply images_names in I as ->. apply names_strs.
Qed.

(** ** Pairs of modalities *)
Lemma pairs_in l a b : In (a, b) (all_pairs l) <-> exists i j, a = [i] /\ b = [j] /\ In i l /\ In j l /\ i <> j.
Proof.
  unfold all_pairs. rewrite in_flat_map. split.
  - intros (i & Hi & H). apply in_map_iff in H as (j & E & Hj). apply filter_In in Hj as [Hj N]. exists i, j.
    assert (a = [i] /\ b = [j]) as [-> ->] by (split; congruence). repeat split; auto. apply negb_true_iff in N. now apply String.eqb_neq.
  - intros (i & j & -> & -> & Hi & Hj & N). exists i. split; [exact Hi|]. apply in_map_iff. exists j. split; [reflexivity|]. apply filter_In. split; [exact Hj|].
    apply negb_true_iff. now apply String.eqb_neq.
Qed.
Lemma nodup_flat {A B} (f : A -> list B) l : NoDup l -> (forall a, In a l -> NoDup (f a)) ->
  (forall a a' b, In b (f a) -> In b (f a') -> a = a') -> NoDup (flat_map f l).
Proof.
  intros N H D. induction N as [|a l Na N IH]; cbn; [constructor|].
  assert (X : forall l1 l2 : list B, NoDup l1 -> NoDup l2 -> (forall b, In b l1 -> ~ In b l2) -> NoDup (l1 ++ l2)).
  { clear. induction l1 as [|b l1 IH]; intros l2 N1 N2 D; cbn; auto. inversion N1; subst. constructor.
    - rewrite in_app_iff. intros [?|?]; [contradiction|]. apply (D b); cbn; auto.
    - apply IH; auto. intros c Hc. apply D. now right. }
  apply X; [apply H; now left|apply IH; intros; apply H; now right|].
  intros b Hb Hf. apply in_flat_map in Hf as (a' & Ha' & Hb'). rewrite (D a a' b Hb Hb') in Na. contradiction.
Qed.
Lemma nodup_map {A B} (f : A -> B) l : (forall a b, f a = f b -> a = b) -> NoDup l -> NoDup (map f l).
Proof. intros I N. induction N as [|a l Na N IH]; cbn; constructor; auto. rewrite in_map_iff. intros (b & E & Hb). apply I in E. congruence. Qed.
Lemma pairs_nodup l : NoDup l -> NoDup (all_pairs l).
Proof.
  intro N. apply nodup_flat; auto.
  - intros a _. apply nodup_map; [intros; congruence|]. now apply NoDup_filter.
  - intros a a' b H H'. apply in_map_iff in H as (j & <- & _). apply in_map_iff in H' as (j' & E & _). congruence.
Qed.
Lemma filter_other l1 i l2 : NoDup (l1 ++ i :: l2) -> filter (fun j => negb (String.eqb j i)) (l1 ++ i :: l2) = l1 ++ l2.
Proof.
  intro N. apply NoDup_remove in N as [_ N]. rewrite filter_app. cbn [filter]. rewrite String.eqb_refl. cbn [negb]. rewrite in_app_iff in N.
  assert (X : forall l, ~ In i l -> filter (fun j => negb (String.eqb j i)) l = l).
  { clear. induction l as [|a l IH]; intro N; cbn; [reflexivity|]. cbn in N. destruct (String.eqb_spec a i) as [->|]; [tauto|]. cbn. now rewrite IH by tauto. }
  rewrite !X by tauto. reflexivity.
Qed.
Lemma combinations_in l a b : NoDup l -> In (a, b) (combinations l) <->
  (exists i j, a = [i] /\ b = [j] /\ In i l /\ In j l /\ i <> j) \/ exists l1 i l2, l = l1 ++ i :: l2 /\ a = l1 ++ l2 /\ b = [i].
Proof.
  intro N. unfold combinations. rewrite in_app_iff, pairs_in, in_map_iff. split.
  - intros [H|(i & E & Hi)]; [now left|right]. apply in_split in Hi as (l1 & l2 & ->). exists l1, i, l2. rewrite filter_other in E by exact N. split; [reflexivity|]. split; congruence.
  - intros [H|(l1 & i & l2 & -> & -> & ->)]; [now left|right]. exists i. rewrite filter_other by exact N. split; [reflexivity|]. rewrite in_app_iff. cbn. auto.
Qed.
Lemma pairs_length l : NoDup l -> List.length (all_pairs l) = List.length l * (List.length l - 1).
Proof.
  intro N. unfold all_pairs.
  assert (X : forall l', incl l' l -> List.length (flat_map (fun i => map (fun j => ([i], [j])) (filter (fun j => negb (String.eqb i j)) l)) l') = List.length l' * (List.length l - 1)).
  { induction l' as [|i l' IH]; intro I; cbn [flat_map List.length]; [reflexivity|]. rewrite app_length, map_length, IH by (intros ? ?; apply I; now right).
    assert (Hi : In i l) by (apply I; now left). apply in_split in Hi as (l1 & l2 & E).
    assert (F : filter (fun j => negb (String.eqb i j)) l = l1 ++ l2).
    { rewrite (filter_ext _ (fun j => negb (String.eqb j i))) by (intro; now rewrite String.eqb_sym). rewrite E. apply filter_other. now rewrite <- E. }
    rewrite F. rewrite E, !app_length. cbn. lia. }
  apply X. apply incl_refl.
Qed.

(** ** Colours *)
Lemma color_some a b : known a -> known b -> a <> b -> exists c, get_color_for_modalities [a] [b] true = Ok c.
Proof.
  intros [<-|[<-|[<-|[]]]] [<-|[<-|[<-|[]]]] N; try congruence; cbn; eauto.
Qed.
Lemma color_other a b : known b -> exists c, get_color_for_modalities a [b] false = Ok c.
Proof. intros [<-|[<-|[<-|[]]]]; cbn; eauto. Qed.
Lemma color_in a b c : get_color_for_modalities [a] [b] true = Ok c -> In ((a, b), c) PAIRS_COLORS.
Proof.
  change (match dict_get pair_eqb PAIRS_COLORS (a, b) with Some c => Ok c | None => Err KeyError end = Ok c -> In ((a, b), c) PAIRS_COLORS).
  generalize PAIRS_COLORS. induction l as [|[[k1 k2] v] l IH]; cbn [dict_get]; [discriminate|]. unfold pair_eqb at 1. cbn [fst snd].
  destruct (String.eqb_spec k1 a) as [->|]; destruct (String.eqb_spec k2 b) as [->|]; cbn [andb]; try (intro H; right; now apply IH). intros H. left. congruence.
Qed.
Lemma color_inj a b a' b' c : get_color_for_modalities [a] [b] true = Ok c -> get_color_for_modalities [a'] [b'] true = Ok c -> a = a' /\ b = b'.
Proof.
  intros H H'. apply color_in in H. apply color_in in H'. cbn in H, H'.
  repeat (destruct H as [H|H]; [|]); try contradiction; repeat (destruct H' as [H'|H']; [|]); try contradiction; inversion H; subst; inversion H'; subst; auto.
Qed.
Lemma color_none a b : ~ (known a /\ known b /\ a <> b) -> get_color_for_modalities [a] [b] true = Err KeyError.
Proof.
  intro N. destruct (get_color_for_modalities [a] [b] true) as [c|e] eqn:E.
  - exfalso. apply N. apply color_in in E. cbn in E. unfold known. clear N.
    repeat (destruct E as [E|E]; [inversion E; subst; cbn; repeat split; auto; discriminate|]). destruct E.
  - change (match dict_get pair_eqb PAIRS_COLORS (a, b) with Some c => Ok c | None => Err KeyError end = Err e) in E. destruct (dict_get pair_eqb PAIRS_COLORS (a, b)); congruence.
Qed.
