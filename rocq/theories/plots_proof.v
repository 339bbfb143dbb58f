From Coq Require Import List ZArith QArith Bool String Sorted Arith Lia Lqa.
Import ListNotations.
From Verif Require Import Py Py_proof ListUtil utils_proof pairing_model pairing_proof window_model window_spec window_proof window_concat sound_proof motion_proof plots_model plots_spec.
Local Open Scope Q_scope.
Notation length := List.length.

(** ** Lists. *)
Lemma filter_map_swap {A B} (f : B -> bool) (g : A -> B) l : filter f (map g l) = map g (filter (fun a => f (g a)) l).
Proof. induction l as [|a l IH]; [reflexivity|]. cbn [map filter]. destruct (f (g a)); cbn [map]; now rewrite IH. Qed.
Lemma filter_numbers {A} (f : A -> bool) (d : A) l :
  filter f l = map (fun i => nth i l d) (filter (fun i => f (nth i l d)) (seq 0 (length l))).
Proof.
  induction l as [|a l IH]; [reflexivity|]. cbn [length seq filter nth]. rewrite <- seq_shift, filter_map_swap. cbn [nth].
  destruct (f a); cbn [map nth]; rewrite map_map; cbn [nth]; now rewrite IH.
Qed.
Lemma sorted_filter {f} n s : StronglySorted lt (filter f (seq s n)).
Proof.
  revert s. induction n as [|n IH]; intro s; cbn [seq filter]; [constructor|]. destruct (f s); [|apply IH]. constructor; [apply IH|].
  apply Forall_forall. intros j I. apply filter_In in I as [I _]. apply in_seq in I. lia.
Qed.
Lemma Forall2_map_r {A B} (R : A -> B -> Prop) (g : A -> B) l : (forall a, In a l -> R a (g a)) -> Forall2 R l (map g l).
Proof. induction l as [|a l IH]; intro H; cbn [map]; constructor; [apply H; now left|]. apply IH. intros; apply H; now right. Qed.
Lemma combine_map {A B C} (f : A -> B) (g : A -> C) l : combine (map f l) (map g l) = map (fun a => (f a, g a)) l.
Proof. induction l as [|a l IH]; [reflexivity|]. cbn [map combine]. now rewrite IH. Qed.

(** ** Dictionaries of options. *)
Lemma update_get u : forall d k, NoDup (map fst u) ->
  dict_get String.eqb (update_settings d u) k =
  match find (fun kv => String.eqb (fst kv) k) u with Some kv => Some (snd kv) | None => dict_get String.eqb d k end.
Proof.
  unfold update_settings. induction u as [|[k0 v0] u IH]; intros d k N; [reflexivity|]. cbn [fold_left find fst snd map] in *. inversion_clear N as [|? ? N0 N1].
  rewrite IH by auto. rewrite sget_set.
  destruct (String.eqb_spec k0 k) as [->|D].
  - destruct (find (fun kv => (fst kv =? k)%string) u) as [[k1 v1]|] eqn:F.
    + exfalso. apply N0. apply find_some in F as [I E]. apply String.eqb_eq in E. cbn in E. subst. now apply (in_map fst) in I.
    + reflexivity.
  - destruct (find _ u); auto.
Qed.

Lemma rc_value rc k dflt : NoDup (map fst rc) -> dict_get String.eqb default_rc k = Some dflt ->
  setting (update_settings default_rc rc) k = Ok (chosen rc k dflt).
Proof. intros N E. unfold setting, chosen. rewrite update_get, E by auto. now destruct (find _ rc). Qed.

Lemma py_nth_rows {A} (l : list A) k x : py_nth l (Z.of_nat k) = Ok x <-> nth_error l k = Some x.
Proof.
  unfold py_nth. rewrite norm_index_nonneg. destruct (Nat.ltb_spec k (length l)) as [L|L]; cbn [bind].
  - destruct (nth_error l k) eqn:E; [split; congruence|]. apply nth_error_None in E. lia.
  - split; [discriminate|]. intro E. assert (nth_error l k <> None) by congruence. apply nth_error_Some in H. lia.
Qed.

Lemma py_nth_number {A} (l : list A) k : py_nth l (Z.of_nat k) = match nth_error l k with Some a => Ok a | None => Err IndexError end.
Proof.
  unfold py_nth. rewrite norm_index_nonneg. destruct (Nat.ltb_spec k (length l)); cbn [bind]; auto.
  now rewrite (proj2 (nth_error_None l k)).
Qed.

(** ** Largest elements and clipping. *)
Lemma max2_spec a b : (a <= b -> max2 a b == b) /\ (b <= a -> max2 a b == a) /\ (max2 a b = a \/ max2 a b = b) /\ a <= max2 a b /\ b <= max2 a b.
Proof. unfold max2. destruct (Qlt_bool a b) eqn:E; [apply Qlt_bool_iff in E|apply Qlt_bool_false in E]; repeat split; auto; intros; lra. Qed.
Lemma min2_spec a b : (a <= b -> min2 a b == a) /\ (b <= a -> min2 a b == b).
Proof. unfold min2. destruct (Qlt_bool b a) eqn:E; [apply Qlt_bool_iff in E|apply Qlt_bool_false in E]; split; intros; lra. Qed.
Lemma fold_max l : forall a, let y := fold_left max2 l a in (y = a \/ In y l) /\ a <= y /\ Forall (fun v => v <= y) l.
Proof.
  induction l as [|b l IH]; intro a; cbn [fold_left]; [repeat split; auto; lra|]. destruct (IH (max2 a b)) as (I & L & F). destruct (max2_spec a b) as (_ & _ & C & La & Lb).
  split; [|split].
  - destruct I as [->|I]; [|cbn; auto]. destruct C as [->| ->]; cbn; auto.
  - cbn in *. lra.
  - constructor; auto. lra.
Qed.
Lemma py_max_ok row y : py_max row = Ok y -> largest y row.
Proof.
  destruct row as [|a l]; [discriminate|]. intros [= <-]. destruct (fold_max l a) as (I & L & F). split; [cbn; destruct I as [->|]; auto|constructor; auto].
Qed.
Lemma py_max_some row : row <> [] -> exists y, py_max row = Ok y.
Proof. destruct row; [congruence|]. cbn. eauto. Qed.

Section Plots.
Context {O A P : Type} (files : wavfiles P A).
Notation plot := (@score_plot O A P).
Implicit Types rc : settings.

Definition at_row (rows : list (list Q)) (i : nat) (w : Q * Q) (s : basic (list Q)) : Prop :=
  exists row, nth_error rows i = Some row /\ s = Basic (fst w) (snd w) (Some row).

Lemma built records sliding x labels (rc : option settings) t (p : plot) : new_score_plot records sliding x labels rc t = Ok p ->
  exists sim u, rc = Some u /\ p = ScorePlot (0, 20) records sliding sim labels (update_settings default_rc u) t /\
    forall rows, x = Array rows -> length sim = length sliding /\
      forall i w, nth_error sliding i = Some w -> exists s, nth_error sim i = Some s /\ at_row rows i w s.
Proof.
  unfold new_score_plot. match goal with |- bind ?m _ = _ -> _ => destruct m as [sim|] eqn:E end; cbn [bind]; [|discriminate]. destruct rc as [u|]; [|discriminate].
  intros [= <-]. exists sim, u. split; auto. split; auto. intros rows ->. split; [now rewrite (mapM_length _ _ _ E), enumerate_length|].
  intros i w Ew. apply mapM_ok in E. assert (Ei : nth_error (enumerate sliding) i = Some (i, w)) by (now rewrite nth_error_enumerate, Ew).
  destruct (Forall2_nth _ _ _ E _ _ Ei) as (s & Es & H). exists s. split; auto. cbn [fst snd get_row] in H.
  destruct (py_nth rows (Z.of_nat i)) as [row|] eqn:Er; cbn [bind] in H; [|discriminate]. exists row. split; [now apply py_nth_rows|]. congruence.
Qed.

Lemma in_current (p : plot) t : time_in_current p t = true <-> within (fst (sp_current p)) (snd (sp_current p)) t.
Proof.
  unfold time_in_current. destruct (check_time_case (fst (sp_current p)) (snd (sp_current p)) t) as [[-> H]|[-> H]]; (split; [intro X; first [exact H|discriminate]|intro X; first [reflexivity|contradiction]]).
Qed.
Lemma mean_middle w : mean_of w == middle w.
Proof. unfold mean_of, middle. field. Qed.

(** The numbers of the windows that are kept. *)
Definition kept (p : plot) : list nat :=
  filter (fun i => time_in_current p (mean_of (nth i (sp_sliding p) (0, 0)))) (seq 0 (length (sp_sliding p))).
Lemma kept_in p i : In i (kept p) <-> exists w, nth_error (sp_sliding p) i = Some w /\ within (fst (sp_current p)) (snd (sp_current p)) (middle w).
Proof.
  unfold kept. rewrite filter_In, in_seq, in_current. unfold within. split.
  - intros [L H]. exists (nth i (sp_sliding p) (0, 0)). split; [apply nth_error_nth'; lia|]. now rewrite <- mean_middle.
  - intros (w & E & H). assert (nth_error (sp_sliding p) i <> None) as L by congruence. apply nth_error_Some in L. split; [lia|].
    rewrite (nth_error_nth _ _ _ E). now rewrite mean_middle.
Qed.
Lemma kept_visible p : visible (fst (sp_current p)) (snd (sp_current p)) (sp_sliding p) (kept p).
Proof. split; [apply sorted_filter|]. apply kept_in. Qed.
Lemma sliding_kept p : filter_windows (fun w => w) p (sp_sliding p) = map (fun i => nth i (sp_sliding p) (0, 0)) (kept p).
Proof. unfold filter_windows, kept. exact (filter_numbers (fun w => time_in_current p (mean_of w)) (0, 0) (sp_sliding p)). Qed.
Lemma similarity_kept p rows : length (sp_similarity p) = length (sp_sliding p) ->
  (forall i w, nth_error (sp_sliding p) i = Some w -> exists s, nth_error (sp_similarity p) i = Some s /\ at_row rows i w s) ->
  map obj_of (filter_windows (fun w => (b_start w, b_end w)) p (sp_similarity p)) = map (fun i => nth i rows []) (kept p).
Proof.
  intros L H. unfold filter_windows. rewrite (filter_numbers _ (Basic 0 0 None)), L. unfold kept. rewrite map_map.
  assert (K : forall i, In i (seq 0 (length (sp_sliding p))) -> exists row, nth_error rows i = Some row /\
     nth i (sp_similarity p) (Basic 0 0 None) = Basic (fst (nth i (sp_sliding p) (0, 0))) (snd (nth i (sp_sliding p) (0, 0))) (Some row)).
  { intros i I. apply in_seq in I. destruct (H i (nth i (sp_sliding p) (0, 0))) as (s & Es & row & Er & ->); [apply nth_error_nth'; lia|]. exists row. split; auto. exact (nth_error_nth _ _ _ Es). }
  rewrite (filter_ext_in _ (fun i => time_in_current p (mean_of (nth i (sp_sliding p) (0, 0))))).
  2:{ intros i I. destruct (K i I) as (row & _ & ->). cbn [b_start b_end]. now destruct (nth i (sp_sliding p) (0, 0)). }
  apply map_ext_in. intros i I. apply filter_In in I as [I _]. destruct (K i I) as (row & Er & ->). cbn. symmetry. exact (nth_error_nth _ _ _ Er).
Qed.

(** ** C90: what is drawn. *)
Lemma rel_origin relative (p : plot) t : relative_time relative p t == t - origin relative (fst (sp_current p)).
Proof. unfold relative_time, origin. destruct relative; lra. Qed.

Lemma points records sliding rows labels rc t (p : plot) a b d : NoDup (map fst rc) ->
  new_score_plot records sliding (Array rows) labels (Some rc) t = Ok p -> draw files (with_current p a b) = Ok d ->
  exists idx, let o := origin (chosen rc "use_relative_time" false) a in
    visible a b sliding idx /\
    Forall2 (fun i x => exists w, nth_error sliding i = Some w /\ x == middle w - o) idx (d_times d) /\
    Forall2 (fun i row => nth_error rows i = Some row) idx (d_rows d) /\
    Forall2 (fun i s => exists w row, nth_error sliding i = Some w /\ nth_error rows i = Some row /\
               clipped a b w (fst (fst s) + o, snd (fst s) + o) /\ largest (snd s) row) idx (d_segments d) /\
    fst (d_axis d) == a - o /\ snd (d_axis d) == b - o /\ d_legend d = labels.
Proof.
  intros N B. destruct (built _ _ _ _ _ _ _ B) as (sim & u & Eu & -> & H). assert (u = rc) as -> by congruence. destruct (H rows eq_refl) as [L R].
  unfold with_current. cbn [sp_records sp_sliding sp_similarity sp_labels sp_rc sp_is_test]. set (p := ScorePlot (a, b) records sliding sim labels _ t).
  unfold draw. change (sp_rc p) with (update_settings default_rc rc) at 1. rewrite (rc_value rc "use_relative_time" false N eq_refl). cbn [bind]. set (rel := chosen rc "use_relative_time" false).
  rewrite sliding_kept. rewrite (similarity_kept p rows L R). rewrite !map_map, combine_map.
  match goal with |- bind ?m _ = _ -> _ => destruct m as [segs|] eqn:Es end; cbn [bind]; [|discriminate].
  destruct (subwindows files p) as [subs|]; cbn [bind]; [|discriminate].
  destruct (setting (sp_rc p) "print_sentences") as [text|]; cbn [bind]; [|discriminate].
  destruct (setting (sp_rc p) "draw_sentence_boundaries") as [lines|]; cbn [bind]; [|discriminate].
  destruct (if text then _ else _) as [sents|]; cbn [bind]; [|discriminate]. intro E.
  assert (Ed : d = Drawing (map (fun x => relative_time rel p (mean_of (nth x (sp_sliding p) (0, 0)))) (kept p)) (map (fun i => nth i rows []) (kept p)) segs sents
     (if lines then map (fun w => relative_time rel p (w_end w)) subs else []) (relative_time rel p (fst (sp_current p)), relative_time rel p (snd (sp_current p))) (sp_labels p)) by congruence.
  subst d. clear E. exists (kept p). cbn zeta. cbn [d_times d_rows d_segments d_axis d_legend fst snd].
  assert (K : forall i, In i (kept p) -> exists w row, nth_error sliding i = Some w /\ nth i sliding (0, 0) = w /\ nth_error rows i = Some row /\ nth i rows [] = row).
  { intros i I. apply kept_in in I as (w & Ew & _). destruct (R i w Ew) as (s & _ & row & Er & _). exists w, row. repeat split; auto using nth_error_nth. }
  split; [exact (kept_visible p)|]. split; [|split; [|split; [|split; [|split]]]].
  - apply Forall2_map_r. intros i I. destruct (K i I) as (w & row & Ew & Nw & _). exists w. split; auto. cbn [sp_sliding p]. rewrite Nw, rel_origin, mean_middle. cbn [sp_current p fst]. reflexivity.
  - apply Forall2_map_r. intros i I. destruct (K i I) as (w & row & _ & _ & Er & ->). auto.
  - apply mapM_ok in Es. revert Es. assert (KK : forall i, In i (kept p) -> In i (kept p)) by auto. revert KK. generalize (kept p) at 1 3 4. intros l. revert segs.
    induction l as [|i l IH]; intros segs KK F; cbn [map] in F; inversion F as [|x y l1 l2 Hy F']; subst; constructor; [|apply IH; auto; intros; apply KK; now right].
    destruct (K i (KK i (or_introl eq_refl))) as (w & row & Ew & Nw & Er & Nr). exists w, row. split; auto. split; auto. cbn [fst snd sp_sliding p] in Hy. rewrite Nw, Nr in Hy.
    destruct (py_max row) as [m|] eqn:Em; cbn [bind] in Hy; [|discriminate]. injection Hy as <-. cbn [fst snd]. split; [|now apply py_max_ok].
    unfold clipped. cbn [fst snd sp_current p].
    pose proof (max2_spec (relative_time rel p (fst w)) (relative_time rel p a)) as (M1 & M2 & _). pose proof (min2_spec (relative_time rel p (snd w)) (relative_time rel p b)) as (N1 & N2).
    pose proof (rel_origin rel p (fst w)) as R1. pose proof (rel_origin rel p (snd w)) as R2. pose proof (rel_origin rel p a) as R3. pose proof (rel_origin rel p b) as R4. cbn [fst sp_current p] in R1, R2, R3, R4.
    change (let '(x, _) := w in x) with (fst w). change (let '(_, y) := w in y) with (snd w).
    do 2 (split; [intro; rewrite ?M1, ?M2 by lra; lra|]). split; intro; rewrite ?N1, ?N2 by lra; lra.
  - rewrite rel_origin. reflexivity.
  - rewrite rel_origin. reflexivity.
  - reflexivity.
Qed.

(** ** C91: when a drawing is made. *)
Lemma points_made records sliding rows labels rc t (p : plot) a b : NoDup (map fst rc) -> (forall row, In row rows -> row <> []) ->
  new_score_plot records sliding (Array rows) labels (Some rc) t = Ok p ->
  exists x y z, forall (q : plot), q = with_current p a b -> draw files q =
    (subs <- subwindows files q ;;
     sentences <- (if chosen rc "print_sentences" true then mapM (sentence (chosen rc "use_relative_time" false) q) subs else Ok []) ;;
     Ok (Drawing x y z sentences
          (if chosen rc "draw_sentence_boundaries" true then map (fun w => relative_time (chosen rc "use_relative_time" false) q (w_end w)) subs else [])
          (relative_time (chosen rc "use_relative_time" false) q a, relative_time (chosen rc "use_relative_time" false) q b) labels))%py.
Proof.
  intros N NE B. destruct (built _ _ _ _ _ _ _ B) as (sim & u & Eu & -> & H). assert (u = rc) as -> by congruence. destruct (H rows eq_refl) as [L R].
  unfold with_current. cbn [sp_records sp_sliding sp_similarity sp_labels sp_rc sp_is_test]. set (p := ScorePlot (a, b) records sliding sim labels _ t).
  assert (K : forall i, In i (kept p) -> In (nth i rows []) rows).
  { intros i I. apply kept_in in I as (w & Ew & _). destruct (R i w Ew) as (s & _ & row & Er & _). rewrite (nth_error_nth _ _ _ Er). now apply nth_error_In in Er. }
  set (rel := chosen rc "use_relative_time" false).
  assert (M : exists segs, mapM (fun q : Q * Q * list Q => (y <- py_max (snd q) ;; Ok (fst q, y))%py)
     (combine (map (fun w => (max2 (relative_time rel p (fst w)) (relative_time rel p (fst (sp_current p))), min2 (relative_time rel p (snd w)) (relative_time rel p (snd (sp_current p)))))
        (filter_windows (fun w => w) p (sp_sliding p))) (map obj_of (filter_windows (fun w => (b_start w, b_end w)) p (sp_similarity p)))) = Ok segs).
  { rewrite sliding_kept, (similarity_kept p rows L R), map_map, combine_map. revert K. generalize (kept p). intros l. induction l as [|i l IH]; intro K; cbn [map mapM]; [eauto|].
    cbn [snd fst]. destruct (py_max_some (nth i rows [])) as [y ->]; [apply NE, K; now left|]. cbn [bind]. destruct IH as [segs ->]; [intros; apply K; now right|]. cbn [bind]. eauto. }
  destruct M as [segs M]. do 3 eexists. intros q ->. unfold draw.
  replace (setting (sp_rc p) "use_relative_time") with (Ok rel) by (symmetry; exact (rc_value rc "use_relative_time" false N eq_refl)). cbn [bind]. rewrite M. cbn [bind].
  destruct (subwindows files p) as [subs|e]; cbn [bind]; [|reflexivity].
  replace (setting (sp_rc p) "print_sentences") with (Ok (chosen rc "print_sentences" true)) by (symmetry; exact (rc_value rc "print_sentences" true N eq_refl)). cbn [bind].
  replace (setting (sp_rc p) "draw_sentence_boundaries") with (Ok (chosen rc "draw_sentence_boundaries" true)) by (symmetry; exact (rc_value rc "draw_sentence_boundaries" true N eq_refl)). cbn [bind].
  destruct (if chosen rc "print_sentences" true then _ else _) as [sents|e]; cbn [bind]; reflexivity.
Qed.

Definition test_of (t : option (O -> bool)) (r : O) : bool := match t with None => true | Some f => f r end.

Lemma sentences_made (q : plot) rel ws new : Forall2 piece_of ws new -> (forall w, In w ws -> b_obj w <> None) ->
  exists l, mapM (sentence (A := A) (P := P) rel q) (map LB new) = Ok l /\
    sentences_of (test_of (sp_is_test q)) (origin rel (fst (sp_current q))) ws (map bspan new) l.
Proof.
  intros F. induction F as [|w n ws new Pw F IH]; intro NN; [exists []; split; [reflexivity|constructor]|].
  destruct IH as (l & E & Hl); [intros; apply NN; now right|]. destruct Pw as (Eo & _). cbn [map mapM sentence]. rewrite Eo.
  destruct (b_obj w) as [r|] eqn:Er; [|now apply NN in Er; [|left]]. cbn [bind]. rewrite E. cbn [bind]. eexists. split; [reflexivity|].
  constructor; auto. cbn [fst snd]. split; auto. split; [|reflexivity]. rewrite rel_origin, mean_middle. reflexivity.
Qed.

Lemma drawn bs lo hi sliding rows labels rc t (p : plot) a b : NoDup (map fst rc) -> (forall row, In row rows -> row <> []) -> recordings bs lo hi ->
  new_score_plot (map LB bs) sliding (Array rows) labels (Some rc) t = Ok p -> lo <= a -> a <= b -> b <= hi ->
  exists d i pieces, draw files (with_current p a b) = Ok d /\ let o := origin (chosen rc "use_relative_time" false) a in
    cut bs a b i pieces /\
    (if chosen rc "print_sentences" true
     then sentences_of (test_of t) o (segment bs i (i + length pieces)) pieces (d_sentences d)
     else d_sentences d = []) /\
    (if chosen rc "draw_sentence_boundaries" true
     then Forall2 (fun piece x => x == snd piece - o) pieces (d_lines d)
     else d_lines d = []).
Proof.
  intros N NE (Nb & T & Ob) B L1 L2 L3. destruct (points_made _ _ _ _ _ _ _ a b N NE B) as (x & y & z & D). specialize (D _ eq_refl).
  destruct (built _ _ _ _ _ _ _ B) as (sim & u & Eu & -> & _). assert (u = rc) as -> by congruence. unfold with_current in *. cbn [sp_records sp_sliding sp_similarity sp_labels sp_rc sp_is_test] in *.
  set (p := ScorePlot (a, b) _ sliding sim labels _ t) in *. rewrite D. unfold subwindows. cbn [sp_records sp_current p fst snd].
  destruct (concat_basic_sub files lo bs hi a b Nb T L1 L2 L3) as (i & j & new & E & Lij & Lj & Tn & Nn & F & Before & _ & Ln). unfold leaves in E. rewrite E. cbn [bind].
  assert (Es : segment bs i (i + length (map bspan new)) = segment bs i (S j)) by (rewrite map_length, Ln; f_equal; lia).
  destruct (sentences_made p (chosen rc "use_relative_time" false) _ _ F) as (l & El & Hl).
  { intros w I. apply Ob. unfold segment in I. rewrite <- (firstn_skipn i bs). apply in_or_app. right. rewrite <- (firstn_skipn (S j - i) (skipn i bs)). apply in_or_app. now left. }
  assert (Lines : Forall2 (fun piece x => x == snd piece - origin (chosen rc "use_relative_time" false) a) (map bspan new)
     (map (fun w : leaf O A P => relative_time (chosen rc "use_relative_time" false) p (w_end w)) (map LB new))).
  { clear. induction new as [|n new IH]; cbn [map]; constructor; auto. cbn [w_end]. rewrite rel_origin. reflexivity. }
  assert (C : cut bs a b i (map bspan new)).
  { split; [destruct new; [congruence|discriminate]|]. split; auto. split; auto. rewrite Es. clear - F. induction F as [|w n ws new (_ & S1 & _ & S2) F IH]; cbn [map]; constructor; auto. }
  destruct (chosen rc "print_sentences" true).
  - rewrite El. cbn [bind]. eexists _, i, (map bspan new). split; [reflexivity|]. cbn zeta. cbn [d_sentences d_lines]. split; auto. split; [rewrite Es; exact Hl|]. destruct (chosen rc "draw_sentence_boundaries" true); auto.
  - cbn [bind]. eexists _, i, (map bspan new). split; [reflexivity|]. cbn zeta. cbn [d_sentences d_lines]. split; auto. split; auto. destruct (chosen rc "draw_sentence_boundaries" true); auto.
Qed.

(** A window that is not inside the recordings cannot be drawn. *)
Lemma tiles_ends bs lo hi : bs <> [] -> tiles lo (map bspan bs) hi -> exists s e : Q,
  @concat_start O A P (map LB bs) = Ok s /\ @concat_end O A P (map LB bs) = Ok e /\ s == lo /\ e == hi.
Proof.
  intros Nb T. destruct bs as [|b0 bs]; [congruence|]. unfold concat_start, concat_end. 
  exists (b_start b0). rewrite logger_proof.py_nth_last. revert lo b0 T Nb. induction bs as [|b1 bs IH]; intros lo b0 T Nb.
  - cbn in T. destruct T as (T1 & T2 & T3). exists (b_end b0). cbn. repeat split; auto.
  - destruct T as (T1 & T2 & T3). destruct (IH (b_end b0) b1) as (e & _ & E & _ & He); [exact T3|discriminate|]. exists e. split; [reflexivity|]. split; [|split; auto].
    cbn [map length] in *. rewrite Nat.sub_succ, Nat.sub_0_r in *. exact E.
Qed.
Lemma outside bs lo hi sliding rows labels rc t (p : plot) a b : NoDup (map fst rc) -> (forall row, In row rows -> row <> []) -> recordings bs lo hi ->
  new_score_plot (map LB bs) sliding (Array rows) labels (Some rc) t = Ok p -> ~ (within lo hi a /\ within lo hi b) ->
  draw files (with_current p a b) = Err TimeOutOfBound.
Proof.
  intros N NE (Nb & T & Ob) B W. destruct (points_made _ _ _ _ _ _ _ a b N NE B) as (x & y & z & D). rewrite (D _ eq_refl). clear D.
  destruct (built _ _ _ _ _ _ _ B) as (sim & u & Eu & -> & _). unfold with_current, subwindows. cbn [sp_records sp_current fst snd].
  destruct (tiles_ends _ _ _ Nb T) as (s & e & Es & Ee & Hs & He). unfold concat_get_subwindow, get_file_index. rewrite Es, Ee. cbn [bind].
  destruct (check_time_case s e a) as [[-> Ha]|[-> _]]; cbn [bind]; [|reflexivity].
  destruct (check_time_case s e b) as [[-> Hb]|[-> _]]; cbn [bind]; [|reflexivity]. exfalso. apply W. unfold within in *. rewrite <- Hs, <- He. tauto.
Qed.
Lemma same_current (p : plot) records sliding x labels (rc : option settings) t : new_score_plot records sliding x labels rc t = Ok p -> with_current p 0 20 = p.
Proof. intro B. destruct (built _ _ _ _ _ _ _ B) as (sim & u & Eu & -> & _). reflexivity. Qed.

Lemma made records sliding rows labels rc t : (length sliding <= length rows)%nat -> exists p : plot, new_score_plot records sliding (Array rows) labels (Some rc) t = Ok p.
Proof.
  intro L. unfold new_score_plot. destruct (mapM _ (enumerate sliding)) as [sim|e] eqn:E; cbn [bind]; [eauto|]. exfalso.
  apply mapM_fails in E as ([i w] & I & E). cbn [fst snd get_row] in E. apply In_nth_error in I as [k I]. rewrite nth_error_enumerate in I.
  destruct (nth_error sliding k) as [w'|] eqn:Ek; [|discriminate]. assert (i = k) by congruence. subst k.
  assert (Li : (i < length sliding)%nat) by (apply nth_error_Some; congruence). destruct (nth_error rows i) as [row|] eqn:Er.
  - rewrite (proj2 (py_nth_rows _ _ _) Er) in E. discriminate.
  - apply nth_error_None in Er. lia.
Qed.
Lemma too_few records sliding rows labels (rc : option settings) t : (length rows < length sliding)%nat -> @new_score_plot O A P records sliding (Array rows) labels rc t = Err IndexError.
Proof.
  intro L. unfold new_score_plot. destruct (mapM _ (enumerate sliding)) as [sim|e] eqn:E; cbn [bind].
  - exfalso. apply mapM_ok in E. destruct (nth_error sliding (length rows)) as [w|] eqn:Ew; [|apply nth_error_None in Ew; lia].
    assert (Ei : nth_error (enumerate sliding) (length rows) = Some (length rows, w)) by (now rewrite nth_error_enumerate, Ew).
    destruct (Forall2_nth _ _ _ E _ _ Ei) as (s & _ & H). cbn [fst snd get_row] in H.
    destruct (py_nth rows (Z.of_nat (length rows))) as [row|] eqn:Er; cbn [bind] in H; [|discriminate]. apply py_nth_rows in Er. assert (nth_error rows (length rows) <> None) by congruence. apply nth_error_Some in H0. lia.
  - apply mapM_fails in E as ([i w] & I & E). cbn [fst snd get_row] in E. rewrite py_nth_number in E. destruct (nth_error rows i); cbn [bind] in E; congruence.
Qed.

Lemma interactive_short bs hi sliding rows labels rc t : NoDup (map fst rc) -> (forall row, In row rows -> row <> []) -> recordings bs 0 hi -> (length sliding <= length rows)%nat -> hi < 20 ->
  @new_interactive O A P files (map LB bs) sliding (Array rows) labels t (Some rc) = Err TimeOutOfBound.
Proof.
  intros N NE R L H. destruct (made (map LB bs) sliding rows labels rc t L) as [p B]. unfold new_interactive. rewrite B. cbn [bind]. rewrite <- (same_current p _ _ _ _ _ _ B).
  rewrite (outside bs 0 hi sliding rows labels rc t p 0 20 N NE R B); [reflexivity|]. intros [_ [_ W]]. lra.
Qed.
Lemma interactive_made bs hi sliding rows labels rc t : NoDup (map fst rc) -> (forall row, In row rows -> row <> []) -> recordings bs 0 hi -> (length sliding <= length rows)%nat -> 20 <= hi ->
  exists p d, @new_interactive O A P files (map LB bs) sliding (Array rows) labels t (Some rc) = Ok (p, d) /\
    new_score_plot (map LB bs) sliding (Array rows) labels (Some rc) t = Ok p /\
    forall start width, 0 <= start -> 0 <= width -> start + width <= hi -> exists d', snd (update files p start width) = Ok d'.
Proof.
  intros N NE R L H. destruct (made (map LB bs) sliding rows labels rc t L) as [p B]. unfold new_interactive. rewrite B. cbn [bind].
  destruct (drawn bs 0 hi sliding rows labels rc t p 0 20 N NE R B) as (d & _ & _ & E & _); try lra. rewrite (same_current p _ _ _ _ _ _ B) in E. rewrite E. cbn [bind].
  destruct R as (Nb & T & Ob). destruct (tiles_ends _ _ _ Nb T) as (s & e & _ & Ee & _). rewrite Ee. cbn [bind]. exists p, d. split; auto. split; auto.
  intros start width H1 H2 H3. unfold update. cbn [snd]. destruct (drawn bs 0 hi sliding rows labels rc t p start (start + width) N NE (conj Nb (conj T Ob)) B) as (d' & _ & _ & E' & _); try lra. eauto.
Qed.
Lemma slider_fails bs hi sliding rows labels rc t (p : plot) start width : NoDup (map fst rc) -> (forall row, In row rows -> row <> []) -> recordings bs 0 hi ->
  new_score_plot (map LB bs) sliding (Array rows) labels (Some rc) t = Ok p -> hi < start + width ->
  snd (update files p start width) = Err TimeOutOfBound.
Proof. intros N NE R B H. unfold update. cbn [snd]. apply (outside bs 0 hi sliding rows labels rc t); auto. intros [_ [_ W]]. lra. Qed.

(** ** C92: the parameters. *)
Lemma named records sliding rows names (rc : option settings) t : sliding <> [] -> @new_interactive O A P files records sliding (Names names) (Array rows) t rc = Err TypeError.
Proof. intro N. unfold new_interactive, new_score_plot. destruct sliding; [congruence|]. reflexivity. Qed.
Lemma default_rc_fails records sliding rows labels t : (length sliding <= length rows)%nat -> @new_interactive O A P files records sliding (Array rows) labels t None = Err TypeError.
Proof.
  intros L. unfold new_interactive. destruct (made records sliding rows labels [] t L) as [p B]. revert B. unfold new_score_plot. destruct (mapM _ (enumerate sliding)); cbn [bind]; [reflexivity|discriminate].
Qed.
Lemma sentence_named w sliding rows names rc : sliding <> [] -> @plot_one_sentence O A P files w sliding (Names names) (Array rows) rc = Err TypeError.
Proof. intro N. unfold plot_one_sentence. destruct sliding; [congruence|]. destruct w; reflexivity. Qed.

(** ** One sentence. *)
Lemma chosen_get rc k dflt : chosen rc k dflt = match dict_get String.eqb rc k with Some b => b | None => dflt end.
Proof. unfold chosen. induction rc as [|[k0 v] rc IH]; [reflexivity|]. cbn [find dict_get fst snd]. destruct (String.eqb k0 k); auto. Qed.
Lemma set_keys (d : settings) k v : NoDup (map fst d) -> NoDup (map fst (dict_set String.eqb d k v)).
Proof.
  induction d as [|[k0 v0] d IH]; intro N; cbn; [constructor; auto|]. inversion_clear N as [|? ? N0 N1]. destruct (String.eqb_spec k0 k) as [->|D]; cbn; [constructor; auto|].
  constructor; auto. intro I. apply N0. clear - I D. induction d as [|[k1 v1] d IH]; cbn in *; [destruct I; congruence|].
  destruct (String.eqb_spec k1 k) as [->|]; cbn in *; [tauto|]. destruct I; auto.
Qed.
Lemma update_keys u : forall d : settings, NoDup (map fst d) -> NoDup (map fst (update_settings d u)).
Proof. unfold update_settings. induction u as [|[k v] u IH]; intros d N; cbn; auto using set_keys. Qed.
Definition sentence_rc : settings := [("draw_sentence_boundaries", false); ("use_relative_time", true); ("print_sentences", false)]%string.
Lemma sentence_rc_value rc k v dflt : NoDup (map fst rc) -> dict_get String.eqb sentence_rc k = Some v -> chosen (update_settings sentence_rc rc) k dflt = chosen rc k v.
Proof. intros N E. rewrite chosen_get, update_get, E by auto. unfold chosen. now destruct (find _ rc). Qed.

Lemma one_sentence (w : basic O) sliding rows labels rc : NoDup (map fst rc) -> (forall row, In row rows -> row <> []) -> (length sliding <= length rows)%nat ->
  b_start w <= b_end w -> b_obj w <> None ->
  exists p d, @plot_one_sentence O A P files (LB w) sliding (Array rows) labels rc = Ok (p, d) /\
  exists idx, let o := origin (chosen rc "use_relative_time" true) (b_start w) in
    visible (b_start w) (b_end w) sliding idx /\
    Forall2 (fun i x => exists w, nth_error sliding i = Some w /\ x == middle w - o) idx (d_times d) /\
    Forall2 (fun i row => nth_error rows i = Some row) idx (d_rows d) /\
    fst (d_axis d) == b_start w - o /\ snd (d_axis d) == b_end w - o.
Proof.
  intros N NE L Lw Ow. unfold plot_one_sentence. fold sentence_rc. set (u := update_settings sentence_rc rc).
  assert (Nu : NoDup (map fst u)) by (apply update_keys; repeat constructor; cbn; intuition discriminate).
  change (@new_concat O A P [LB w]) with (@Ok (list (leaf O A P)) (map LB [w])). cbn [bind].
  destruct (made (map LB [w]) sliding rows labels u None L) as [p B]. rewrite B. cbn [bind w_start w_end].
  assert (R : recordings [w] (b_start w) (b_end w)).
  { split; [discriminate|]. split; [cbn; repeat split; auto; reflexivity|]. intros b [<-|[]]. auto. }
  destruct (drawn [w] _ _ sliding rows labels u None p (b_start w) (b_end w) Nu NE R B) as (d & _ & _ & E & _); try lra. rewrite E. cbn [bind].
  exists (with_current p (b_start w) (b_end w)), d. split; auto. destruct (points _ _ _ _ _ _ _ _ _ _ Nu B E) as (idx & V & T & Rw & _ & A1 & A2 & _).
  unfold u in T, A1, A2. rewrite (sentence_rc_value rc "use_relative_time" true false N eq_refl) in T, A1, A2. exists idx. cbn zeta. auto.
Qed.
End Plots.

(** ** Keys *)
Lemma keys_move (start width : Q) :
  (exists s, on_key "right" start width = Some s /\ 2 * s == start + (start + width))%Q /\
  (exists s, on_key "left" start width = Some s /\ 2 * start == s + (s + width))%Q /\
  forall key, key <> "right"%string -> key <> "left"%string -> on_key key start width = None.
Proof.
  split; [eexists; split; [reflexivity|ring]|]. split; [eexists; split; [reflexivity|ring]|].
  intros key R L. unfold on_key. now rewrite (proj2 (String.eqb_neq _ _) R), (proj2 (String.eqb_neq _ _) L).
Qed.
