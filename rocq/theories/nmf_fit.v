(** * Lemmas about fit_transform, transform and sequences of calls. *)

From Coq Require Import List ZArith Reals Bool Arith Lia Lra Sorted.
Import ListNotations.
From Verif Require Import Py Py_proof nd_model nd_spec nd_proof sparse_model array_utils_model array_utils_proof
  metrics_model metrics_proof nmf_model nmf_spec nmf_proof nmf_laws.
Local Open Scope R_scope.

(** ** The data after removal of stored zeros. *)
Lemma alike_refl x n m : proper x n m -> alike x x n m.
Proof. intro P. repeat split; auto. Qed.
Lemma alike_trans x y z n m : alike x y n m -> alike y z n m -> alike x z n m.
Proof. intros (A1 & A2 & A3) (B1 & B2 & B3). split; [congruence|]. split; auto. intros. rewrite B3, A3; auto. Qed.
Lemma alike_ratio x x' n m eps k w h i j : alike x x' n m -> (i < n)%nat -> (j < m)%nat ->
  ratio_of x' eps k (mvalue x') w h i j = ratio_of x eps k (mvalue x) w h i j.
Proof.
  intros (A & _ & E) Hi Hj. specialize (E i j Hi Hj). unfold ratio_of. destruct x, x'; cbn in A; try discriminate;
  unfold ratio_sparse, ratio; rewrite E; reflexivity.
Qed.
Lemma alike_step x x' n k m eps fit w h w' h' : alike x x' n m -> step eps x' n k m fit w h w' h' -> step eps x n k m fit w h w' h'.
Proof.
  intros A (S1 & S2 & L1 & L2). assert (R := fun i j => alike_ratio x x' n m eps k w h i j A).
  split; auto. split; auto. split.
  - intros i l Hi Hl. rewrite L1 by auto. unfold new_coefficient. f_equal. apply sum_to_ext. intros j Hj. now rewrite R.
  - destruct fit; auto. intros l j Hl Hj.
    assert (E : forall j', (j' < m)%nat -> raw_atom (ratio_of x' eps k (mvalue x') w h) n w' h l j' = raw_atom (ratio_of x eps k (mvalue x) w h) n w' h l j').
    { intros j' Hj'. unfold raw_atom. f_equal. apply sum_to_ext. intros i Hi. now rewrite R. }
    rewrite L2 by auto. rewrite E by auto. f_equal. f_equal. now apply sum_to_ext.
Qed.
Lemma divergence_ext eps n k m a b w h : (forall i j, (i < n)%nat -> (j < m)%nat -> el a [i; j] = el b [i; j]) ->
  divergence eps n k m a w h = divergence eps n k m b w h.
Proof. intro E. unfold divergence, cells. apply sum_to_ext. intros i Hi. apply sum_to_ext. intros j Hj. now rewrite E. Qed.
Lemma alike_runs x x' n k m fit w h errs w' h' : alike x x' n m -> runs x' n k m fit w h errs w' h' -> runs x n k m fit w h errs w' h'.
Proof.
  intros A. induction 1; [constructor|]. rewrite (divergence_ext _ n k m _ (mvalue x)) by apply A.
  econstructor; [eapply alike_step; eauto|auto].
Qed.
Lemma error_value x w h n k m : proper x n m -> shape w = [n; k] -> shape h = [k; m] ->
  exists x', error EPS x w h = Ok (divergence EPS n k m (mvalue x) w h, x') /\ alike x x' n m.
Proof.
  intros P Sw Sh. destruct x as [a|s]; cbn [proper] in P.
  - exists (Dense a). split; [now apply error_dense|]. now apply alike_refl.
  - destruct P as [Hs Hc]. exists (Sparse (eliminate_zeros s)). split; [now apply error_sparse|]. split; auto. split.
    + split; [now apply elim_shape|now apply elim_canonical].
    + intros i j Hi Hj. apply (elim_value s n m Hs i j Hi Hj).
Qed.

(** ** The loop. *)
Definition follows (t : R) (prev : option R) (l : list R) : Prop :=
  spaced t (match prev with None => l | Some p => p :: l end).
Lemma spaced_nil t : spaced t [].
Proof. intros [|i] a b H; discriminate. Qed.
Lemma spaced_one t a : spaced t [a].
Proof. intros [|i] x b H H'; [discriminate|destruct i; discriminate]. Qed.
Lemma spaced_cons t a b l : t <= a - b -> spaced t (b :: l) -> spaced t (a :: b :: l).
Proof. intros H S [|i] x y E1 E2; [cbn in *; injection E1 as <-; injection E2 as <-; auto|]. apply (S i); auto. Qed.

Lemma iterate_value fuel : forall x w h prev t fit errs n k m, proper x n m -> shape w = [n; k] -> shape h = [k; m] ->
  exists x' w' h' errs' limit, iterate fuel x w h prev t fit errs = (h', Ok (x', w', errs ++ errs', limit)) /\
    runs x n k m fit w h errs' w' h' /\ (length errs' <= fuel)%nat /\ follows t prev errs' /\ alike x x' n m /\
    (prev = None -> (0 < fuel)%nat -> errs' <> []).
Proof.
  induction fuel as [|fuel IH]; intros x w h prev t fit errs n k m P Sw Sh; cbn [iterate].
  - exists x, w, h, [], true. rewrite app_nil_r. split; auto. split; [constructor|]. split; auto. split; [|split; [now apply alike_refl|lia]].
    destruct prev; cbn; [apply spaced_one|apply spaced_nil].
  - destruct (error_value x w h n k m P Sw Sh) as (x1 & -> & A). set (e := divergence EPS n k m (mvalue x) w h).
    destruct (match prev with None => false | Some p => Rlt_bool (p - e) t end) eqn:B.
    + exists x1, w, h, [], (fuel =? 0)%nat. rewrite app_nil_r. split; auto. split; [constructor|]. split; [cbn; lia|].
      split; [|split; [auto|destruct prev; [discriminate|discriminate]]]. destruct prev; cbn; [apply spaced_one|apply spaced_nil].
    + destruct (update_value EPS x1 w h n k m fit (proj1 (proj2 A)) Sw Sh) as (w1 & h1 & -> & S). cbn iota.
      pose proof S as (S1 & S2 & _).
      destruct (IH x1 w1 h1 (Some e) t fit (errs ++ [e]) n k m (proj1 (proj2 A)) S1 S2) as (x' & w' & h' & errs' & limit & -> & Hr & Hl & Hf & HA & _).
      exists x', w', h', (e :: errs'), limit. rewrite <- app_assoc. split; [reflexivity|]. split.
      { apply (runs_step x n k m fit w h w1 h1); [apply (alike_step x x1); auto|]. apply (alike_runs x x1); auto. }
      split; [cbn; lia|]. split; [|split; [apply (alike_trans x x1); auto|discriminate]].
      unfold follows in *. destruct prev as [p|]; auto. apply spaced_cons; auto. unfold Rlt_bool in B. destruct (Rlt_dec (p - e) t); [discriminate|lra].
Qed.

(** ** Invariants of a run. *)
Section Runs.
Context (x : matrix) (n k m : nat) (fit : bool).
Context (Px : proper x n m) (Nx : nonneg (mvalue x)).
Lemma E8 : 0 < / 100000000.
Proof. apply Rinv_0_lt_compat. lra. Qed.

Lemma runs_nil_inv w h w' h' : runs x n k m fit w h [] w' h' -> w' = w /\ h' = h.
Proof using. intro R. inversion R; auto. Qed.
Lemma runs_shapes w h errs w' h' : shape w = [n; k] -> shape h = [k; m] -> runs x n k m fit w h errs w' h' ->
  shape w' = [n; k] /\ shape h' = [k; m].
Proof using. intros Sw Sh R. induction R as [|w h w1 h1 errs w2 h2 S R IH]; auto. destruct S as (S1 & S2 & _). auto. Qed.

Lemma runs_nonneg w h errs w' h' : shape w = [n; k] -> shape h = [k; m] -> nonneg w -> nonneg h -> runs x n k m fit w h errs w' h' ->
  nonneg w' /\ nonneg h'.
Proof using Px Nx.
  intros Sw Sh Nw Nh R. induction R as [|w h w1 h1 errs w2 h2 S R IH]; auto. pose proof S as (S1 & S2 & _). apply IH; auto.
  - exact (step_w_nonneg _ x n k m w h E8 Px Nx Sw Sh Nw Nh fit w1 h1 S).
  - exact (step_h_nonneg _ x n k m w h E8 Px Nx Sw Sh Nw Nh fit w1 h1 S).
Qed.
Lemma runs_w_zero w h errs w' h' : runs x n k m fit w h errs w' h' ->
  forall i l, (i < n)%nat -> (l < k)%nat -> el w [i; l] = 0 -> el w' [i; l] = 0.
Proof using. induction 1 as [|w h w1 h1 errs w2 h2 S R IH]; auto. intros i l Hi Hl Z. apply IH; auto. eapply step_w_zero; eauto. Qed.
Lemma runs_h_zero w h errs w' h' : runs x n k m fit w h errs w' h' ->
  forall l j, (l < k)%nat -> (j < m)%nat -> el h [l; j] = 0 -> el h' [l; j] = 0.
Proof using. induction 1 as [|w h w1 h1 errs w2 h2 S R IH]; auto. intros l j Hl Hj Z. apply IH; auto. eapply step_h_zero; eauto. Qed.
Lemma ratio_below s : 0 <= s -> 0 <= s / (s + / 10000000000000000) < 1.
Proof using.
  intro Hs. assert (0 < / 10000000000000000) by (apply Rinv_0_lt_compat; lra). assert (0 < s + / 10000000000000000) by lra. split.
  - apply Rmult_le_pos; auto. left. now apply Rinv_0_lt_compat.
  - apply Rmult_lt_reg_r with (s + / 10000000000000000); auto. unfold Rdiv. rewrite Rmult_assoc, Rinv_l by lra. lra.
Qed.
(** After at least one update every row sums to s / (s + 1e-16). *)
Lemma runs_rows w h errs w' h' : shape w = [n; k] -> shape h = [k; m] -> nonneg w -> nonneg h -> fit = true -> errs <> [] ->
  runs x n k m fit w h errs w' h' ->
  forall l, (l < k)%nat -> exists s, 0 <= s /\ lsum (row h' l) = s / (s + / 10000000000000000) /\
    (s = 0 -> forall j, (j < m)%nat -> el h' [l; j] = 0).
Proof using Px Nx.
  intros Sw Sh Nw Nh F N R l Hl. induction R as [|w h w1 h1 errs w2 h2 S R IH]; [tauto|]. pose proof S as (S1 & S2 & _).
  destruct errs as [|e errs].
  - apply runs_nil_inv in R as [-> ->]. eexists. split; [|split].
    + exact (raw_sum_nonneg _ x n k m w h E8 Px Nx Sw Sh Nw Nh fit w1 h1 S l Hl).
    + exact (step_row_sum _ x n k m w h fit w1 h1 S l F Hl).
    + intro Z. exact (step_row_zero _ x n k m w h E8 Px Nx Sw Sh Nw Nh fit w1 h1 S l F Hl Z).
  - apply IH; auto; [| |discriminate].
    + exact (step_w_nonneg _ x n k m w h E8 Px Nx Sw Sh Nw Nh fit w1 h1 S).
    + exact (step_h_nonneg _ x n k m w h E8 Px Nx Sw Sh Nw Nh fit w1 h1 S).
Qed.
Lemma runs_mass w h errs w' h' : shape w = [n; k] -> shape h = [k; m] -> nonneg w -> nonneg h -> errs <> [] ->
  runs x n k m fit w h errs w' h' ->
  forall i, (i < n)%nat -> lsum (row w' i) <= lsum (row (mvalue x) i) + INR m * / 100000000.
Proof using Px Nx.
  intros Sw Sh Nw Nh N R i Hi. induction R as [|w h w1 h1 errs w2 h2 S R IH]; [tauto|]. pose proof S as (S1 & S2 & _).
  destruct errs as [|e errs].
  - apply runs_nil_inv in R as [-> ->]. eapply Rle_trans; [exact (step_mass _ x n k m w h E8 Px Nx Sw Sh Nw Nh fit w1 h1 S i Hi)|].
    unfold row. rewrite (value_shape x n m Px). cbn [nth]. rewrite <- rsum_lsum, sum_to_rsum, <- rsum_const, <- rsum_plus. apply rsum_le.
    intros j Hj. assert (X : 0 <= el (mvalue x) [i; j]) by (apply (proj1 (nonneg2 _ _ _ (value_shape x n m Px)) Nx); auto).
    pose proof E8. unfold weight. destruct x; [lra|]. destruct (Req_EM_T _ 0); lra.
  - apply IH; auto; [| |discriminate].
    + exact (step_w_nonneg _ x n k m w h E8 Px Nx Sw Sh Nw Nh fit w1 h1 S).
    + exact (step_h_nonneg _ x n k m w h E8 Px Nx Sw Sh Nw Nh fit w1 h1 S).
Qed.
Lemma runs_objective w h errs w' h' : shape w = [n; k] -> shape h = [k; m] -> nonneg w -> nonneg h -> fit = false ->
  (forall l, (l < k)%nat -> lsum (row h l) = 1) -> runs x n k m fit w h errs w' h' ->
  h' = h /\ objective x (/ 100000000) n k m (mvalue x) w' h <= objective x (/ 100000000) n k m (mvalue x) w h.
Proof using Px Nx.
  intros Sw Sh Nw Nh F U R. induction R as [|w h w1 h1 errs w2 h2 S R IH]; [split; auto; lra|]. pose proof S as (S1 & S2 & _ & Eh). rewrite F in Eh. subst h1.
  destruct IH as [E L]; auto.
  - exact (step_w_nonneg _ x n k m w h E8 Px Nx Sw Sh Nw Nh fit w1 h S).
  - split; auto. eapply Rle_trans; [exact L|]. pose proof (objective_step _ x n k m w h E8 Px Nx Sw Sh Nw Nh fit w1 h S) as B.
    rewrite excess_zero in B by auto. lra.
Qed.
End Runs.

(** ** fit_transform. *)
Lemma any_negative_false x n m : proper x n m -> nonneg (mvalue x) -> any_negative x = false.
Proof.
  intros P N. destruct x as [a|s]; cbn [proper mvalue] in *.
  - cbn. unfold any_negative_entry. apply negb_false_iff, Req_bool_true. rewrite sum_over_indices. apply lsum_zero. intros idx Hi.
    apply in_indices in Hi. specialize (N idx Hi). unfold Rlt_bool. destruct (Rlt_dec _ 0); [lra|reflexivity].
  - destruct P as [Hs Hc]. cbn. destruct (existsb _ _) eqn:E; auto. apply existsb_exists in E as (v & Hv & B). exfalso.
    unfold data in Hv. apply in_concat in Hv as (d & Hd & Hv). apply in_map_iff in Hd as (l & <- & Hl). apply in_map_iff in Hv as ([c u] & <- & Hc').
    cbn in B. unfold Rlt_bool in B. destruct (Rlt_dec u 0) as [U|]; [|discriminate]. clear B.
    unfold canonical in Hc. rewrite Forall_forall in Hc. destruct (Hc l Hl) as [S F]. rewrite Forall_forall in F.
    assert (C : (c < ncol s)%nat) by (apply F; apply in_map_iff; exists (c, u); auto).
    destruct (In_nth _ _ [] Hl) as (i & Hi & El). assert (V : 0 <= el (toarray s) [i; c]) by (apply N; cbn; auto).
    cbn in V. rewrite El in V. rewrite (at_col_in c u l) in V; auto using sorted_nodup. lra.
Qed.
Lemma atleast2d_proper x n m : proper x n m -> atleast2d_or_csr x = x.
Proof. destruct x as [a|s]; cbn; auto. unfold atleast2d. intro S. now rewrite S. Qed.
Lemma proper_mshape x n m : proper x n m -> mshape x = [n; m].
Proof. destruct x; cbn; tauto. Qed.
Lemma opt_list_eqb_true a b : opt_list_eqb a b = true <-> a = b.
Proof. unfold opt_list_eqb. destruct (list_eq_dec _ a b); split; congruence. Qed.

Lemma init_H_value rnd o k m : (forall d, init_dictionary o = Some d -> shape d = [k; m]) ->
  exists h o', init_H rnd o k m = (o', Ok h) /\ shape h = [k; m] /\ first_dictionary rnd o k m h /\
    o' = match init_dictionary o with None => count_draw o | Some _ => o end.
Proof.
  intro H. unfold init_H, first_dictionary. destruct (init_dictionary o) as [d|].
  - exists d, o. rewrite (proj2 (opt_list_eqb_true (shape d) [k; m])) by auto. auto.
  - set (u := map1 _ _). assert (Su : shape u = [k; m]) by reflexivity.
    destruct (normalize_sum_value u 1 EPS_SUM 1) as (h & -> & S & L); [rewrite Su; reflexivity|]. eexists h, _. split; [reflexivity|].
    rewrite Su in *. split; auto. split; auto. split; auto. intros l j Hl Hj. rewrite L by (cbn; auto). unfold u at 1. cbn [map1 el]. f_equal.
    now rewrite Rplus_comm.
Qed.

Lemma fit_transform_value rnd o x weights scale_W fit n m : proper x n m -> nonneg (mvalue x) ->
  let k := number o m in
  (forall d, init_dictionary o = Some d -> shape d = [k; m]) ->
  (fit = false -> exists c, components o = Some c /\ shape c = [k; m]) ->
  (1 <= max_iter o)%Z ->
  exists o' w errs warn x' w0 h0 h,
    fit_transform rnd o x weights scale_W fit = (o', Ok (w, errs, warn, x')) /\
    first_dictionary rnd o k m h0 /\ shape h0 = [k; m] /\ first_coefficients n k m (mvalue x) h0 w0 /\
    runs x n k m fit w0 (if fit then h0 else match components o with Some c => c | None => h0 end) errs w h /\
    errs <> [] /\ (length errs <= Z.to_nat (max_iter o))%nat /\ spaced (tol o * INR n * INR m) errs /\
    alike x x' n m /\
    components o' = (if fit then Some h else components o) /\ init_dictionary o' = init_dictionary o /\ n_components o' = Some k /\
    tol o' = tol o /\ max_iter o' = max_iter o.
Proof.
  intros P N k Hi Hc Hm. unfold fit_transform. rewrite (atleast2d_proper x n m P), (any_negative_false x n m P N), (proper_mshape x n m P).
  fold (number o m). fold k.
  destruct (init_H_value rnd (set_n k o) k m) as (h0 & o1 & -> & Sh & F & E1); [exact Hi|]. change (init_dictionary (set_n k o)) with (init_dictionary o) in *.
  destruct (mdot_l_value x (transpose h0) n m k P) as (w0 & -> & Sw & Lw); [cbn; rewrite Sh; reflexivity|].
  assert (FC : first_coefficients n k m (mvalue x) h0 w0).
  { split; auto. intros i l Hi' Hl. rewrite Lw by auto. rewrite sum_to_rsum. reflexivity. }
  assert (F' : first_dictionary rnd o k m h0) by exact F.
  assert (A1 : init_dictionary o1 = init_dictionary o /\ components o1 = components o /\ n_components o1 = Some k /\ tol o1 = tol o /\ max_iter o1 = max_iter o).
  { rewrite E1. destruct (init_dictionary o) eqn:Ei; repeat split; auto. } destruct A1 as (A1 & A2 & A3 & A4 & A5).
  set (o2 := if fit then set_components h0 o1 else o1).
  assert (M : (max_iter o2 <=? 0)%Z = false). { apply Z.leb_gt. replace (max_iter o2) with (max_iter o); [lia|]. unfold o2. destruct fit; cbn; congruence. }
  rewrite M. set (c := if fit then h0 else match components o with Some c => c | None => h0 end).
  assert (Ec : components o2 = Some c /\ shape c = [k; m]).
  { unfold o2, c. destruct fit; [cbn; auto|]. destruct (Hc eq_refl) as (c' & C & S). rewrite A2, C. auto. }
  destruct Ec as [-> Sc].
  assert (T : tol o2 * INR n * INR m = tol o * INR n * INR m) by (unfold o2; destruct fit; cbn; congruence).
  assert (M2 : max_iter o2 = max_iter o) by (unfold o2; destruct fit; cbn; congruence). rewrite T, M2.
  destruct (iterate_value (Z.to_nat (max_iter o)) x w0 c None (tol o * INR n * INR m) fit [] n k m P Sw Sc)
    as (x' & w & h & errs & limit & -> & R & Hl & Hf & A & Ne). cbn iota zeta. cbn [app].
  do 3 eexists. eexists. exists x', w0, h0, h. split; [reflexivity|]. split; auto. split; auto. split; auto. split; auto.
  split; [apply Ne; auto; lia|]. split; auto. split; auto. split; auto.
  assert (G : components (if fit then set_components h o2 else o2) = (if fit then Some h else components o)) by (unfold o2; destruct fit; cbn; auto).
  split; [exact G|]. unfold o2; destruct fit; cbn; auto.
Qed.

(** ** Calls that raise. *)
Lemma fit_transform_negative rnd o x weights scale_W fit n m i j : proper x n m -> (i < n)%nat -> (j < m)%nat -> el (mvalue x) [i; j] < 0 ->
  fit_transform rnd o x weights scale_W fit = (o, Err ValueError).
Proof.
  intros P Hi Hj L. unfold fit_transform. rewrite (atleast2d_proper x n m P). replace (any_negative x) with true; auto. symmetry.
  destruct x as [a|s]; cbn [proper mvalue] in *.
  - cbn. unfold any_negative_entry. apply negb_true_iff, Req_bool_false. intro Z. rewrite sum_over_indices in Z. apply lsum_pos_zero in Z.
    + rewrite Forall_forall in Z. specialize (Z (ind (Rlt_bool (el a [i; j]) 0))). unfold Rlt_bool in Z. destruct (Rlt_dec (el a [i; j]) 0); [|lra].
      cbn in Z. apply R1_neq_R0. apply Z. apply in_map_iff. exists [i; j]. destruct (Rlt_dec (el a [i; j]) 0); [|lra]. split; auto. apply in_indices. rewrite P. cbn. auto.
    + apply Forall_forall. intros v Hv. apply in_map_iff in Hv as (idx & <- & _). unfold ind. destruct (Rlt_bool _ _); lra.
  - destruct P as [Hs Hc]. cbn. apply existsb_exists. cbn in L. injection Hs as S1 S2.
    assert (Hl : In (nth i (lines s) []) (lines s)) by (apply nth_In; lia).
    unfold canonical in Hc. rewrite Forall_forall in Hc. destruct (Hc _ Hl) as [S F].
    destruct (at_col_one j _ (sorted_nodup _ S)) as [[_ Z]|I]; [lra|]. exists (at_col j (nth i (lines s) [])). split.
    + unfold data. apply in_concat. exists (map snd (nth i (lines s) [])). split; [now apply in_map|]. apply in_map_iff. eexists. split; [|exact I]. reflexivity.
    + unfold Rlt_bool. destruct (Rlt_dec _ 0); auto.
Qed.
Lemma fit_transform_mismatch rnd o x weights scale_W fit n m d : proper x n m -> nonneg (mvalue x) ->
  init_dictionary o = Some d -> shape d <> [number o m; m] ->
  fit_transform rnd o x weights scale_W fit = (set_n (number o m) o, Err AssertionError).
Proof.
  intros P N Hd S. unfold fit_transform. rewrite (atleast2d_proper x n m P), (any_negative_false x n m P N), (proper_mshape x n m P).
  fold (number o m). unfold init_H. cbn [init_dictionary set_n]. rewrite Hd.
  destruct (opt_list_eqb (shape d) [number o m; m]) eqn:E; [apply opt_list_eqb_true in E; congruence|reflexivity].
Qed.
Lemma fit_transform_no_iteration rnd o x weights scale_W fit n m : proper x n m -> nonneg (mvalue x) ->
  (forall d, init_dictionary o = Some d -> shape d = [number o m; m]) -> (max_iter o <= 0)%Z ->
  snd (fit_transform rnd o x weights scale_W fit) = Err UnboundLocalError.
Proof.
  intros P N Hi Hm. unfold fit_transform. rewrite (atleast2d_proper x n m P), (any_negative_false x n m P N), (proper_mshape x n m P).
  fold (number o m). destruct (init_H_value rnd (set_n (number o m) o) (number o m) m) as (h0 & o1 & -> & Sh & _ & E1); [exact Hi|].
  destruct (mdot_l_value x (transpose h0) n m (number o m) P) as (w0 & -> & _); [cbn; rewrite Sh; reflexivity|].
  replace (_ <=? 0)%Z with true; [reflexivity|]. symmetry. apply Z.leb_le. rewrite E1. destruct (init_dictionary _), fit; exact Hm.
Qed.

(** ** Objects over time. *)
Lemma fit_transform_keeps rnd o x weights scale_W fit : let o' := fst (fit_transform rnd o x weights scale_W fit) in
  init_dictionary o' = init_dictionary o /\ (fit = false -> components o' = components o) /\
  (components o <> None -> components o' <> None) /\ tol o' = tol o /\ max_iter o' = max_iter o.
Proof.
  unfold fit_transform. destruct (any_negative _); [cbn; auto|]. destruct (mshape _) as [|n [|m [|]]]; try (cbn; auto; fail).
  fold (number o m). set (k := number o m). destruct (init_H rnd (set_n k o) k m) as [o1 r] eqn:E.
  assert (A : init_dictionary o1 = init_dictionary o /\ components o1 = components o /\ tol o1 = tol o /\ max_iter o1 = max_iter o).
  { unfold init_H in E. cbn in E. destruct (init_dictionary o) eqn:Ed.
    - injection E as <- _. cbn. auto.
    - injection E as <- _. cbn. auto. }
  destruct A as (A1 & A2 & A3 & A4). destruct r as [h|e]; [|cbn; rewrite A2; auto 6].
  destruct (mdot_l _ _) as [w|]; [|cbn; rewrite A2; auto 6].
  set (o2 := if fit then set_components h o1 else o1).
  assert (B : init_dictionary o2 = init_dictionary o /\ (fit = false -> components o2 = components o) /\ (components o <> None -> components o2 <> None) /\ tol o2 = tol o /\ max_iter o2 = max_iter o).
  { unfold o2. destruct fit; cbn; rewrite ?A2; repeat split; auto; discriminate. }
  destruct (_ <=? 0)%Z; [exact B|]. destruct (components o2) as [h0|] eqn:Ec; [|cbn; rewrite Ec; exact B].
  destruct (iterate _ _ _ _ _ _ _ _) as [h' r] eqn:Ei.
  assert (C : forall o', o' = (if fit then set_components h' o2 else o2) -> init_dictionary o' = init_dictionary o /\ (fit = false -> components o' = components o) /\ (components o <> None -> components o' <> None) /\ tol o' = tol o /\ max_iter o' = max_iter o).
  { intros o' ->. destruct fit; cbn.
    - destruct B as (? & ? & ? & ? & ?). repeat split; auto; discriminate.
    - rewrite Ec. exact B. }
  destruct r as [[[[x1 w1] e1] l1]|]; cbn [fst]; apply C; reflexivity.
Qed.
Lemma transform_keeps rnd o x weights scale_W d : components o = Some d ->
  let o' := fst (transform rnd o x weights scale_W) in components o' = Some d /\ init_dictionary o' = Some d.
Proof.
  intro H. unfold transform. rewrite H. destruct (fit_transform_keeps rnd (set_init (Some d) o) x weights scale_W false) as (A & B & _).
  cbn in A, B. rewrite A, (B eq_refl). auto.
Qed.
Lemma fit_not_random rnd rnd' o x weights scale_W fit d : init_dictionary o = Some d ->
  fit_transform rnd o x weights scale_W fit = fit_transform rnd' o x weights scale_W fit.
Proof.
  intro H. unfold fit_transform. destruct (any_negative _); auto. destruct (mshape _) as [|n [|m [|]]]; auto.
  unfold init_H. cbn [init_dictionary set_n]. rewrite H. reflexivity.
Qed.

(** ** Consequences. *)
Lemma first_dictionary_nonneg rnd o k m h : (forall d, init_dictionary o = Some d -> nonneg d) -> shape h = [k; m] ->
  first_dictionary rnd o k m h -> nonneg h.
Proof.
  intros N S F. unfold first_dictionary in F. destruct (init_dictionary o); [subst; auto|]. destruct F as [_ L].
  apply (nonneg2 _ _ _ S). intros l j Hl Hj. rewrite L by auto.
  assert (P : forall j, 0 <= Rabs (rnd (draws o) [l; j]) + / 100) by (intro; pose proof (Rabs_pos (rnd (draws o) [l; j0])); lra).
  apply Rmult_le_pos; auto. left. apply Rinv_0_lt_compat. assert (0 < / 10000000000000000) by (apply Rinv_0_lt_compat; lra).
  assert (0 <= sum_to m (fun j => Rabs (rnd (draws o) [l; j]) + / 100)) by (apply sum_to_nonneg; auto). lra.
Qed.
Lemma first_coefficients_nonneg n k m x h w : shape x = [n; m] -> shape h = [k; m] -> nonneg x -> nonneg h ->
  first_coefficients n k m x h w -> nonneg w.
Proof.
  intros Sx Sh Nx Nh [S L]. apply (nonneg2 _ _ _ S). intros i l Hi Hl. rewrite L by auto. apply sum_to_nonneg. intros j Hj.
  apply Rmult_le_pos; [apply (proj1 (nonneg2 _ _ _ Sx) Nx)|apply (proj1 (nonneg2 _ _ _ Sh) Nh)]; auto.
Qed.

(** What a successful call has in common: everything about it, in one place. *)
Section Call.
Context (rnd : nat -> list nat -> R) (o : nmf) (x : matrix) (weights : R) (scale_W fit : bool) (n m : nat).
Context (P : proper x n m) (N : nonneg (mvalue x)).
Let k := number o m.
Context (Hi : forall d, init_dictionary o = Some d -> shape d = [k; m] /\ nonneg d).
Context (Hc : fit = false -> exists c, components o = Some c /\ shape c = [k; m] /\ nonneg c).
Context (Hm : (1 <= max_iter o)%Z).
Context (o' : nmf) (w : nd) (errs : list R) (warn : bool) (x' : matrix).
Context (E : fit_transform rnd o x weights scale_W fit = (o', Ok (w, errs, warn, x'))).

Lemma call_runs : exists w0 h0 hs h, first_dictionary rnd o k m h0 /\ shape h0 = [k; m] /\ nonneg h0 /\
  first_coefficients n k m (mvalue x) h0 w0 /\ nonneg w0 /\
  (if fit then hs = h0 else components o = Some hs) /\ shape hs = [k; m] /\ nonneg hs /\
  runs x n k m fit w0 hs errs w h /\ errs <> [] /\ (length errs <= Z.to_nat (max_iter o))%nat /\ spaced (tol o * INR n * INR m) errs /\
  alike x x' n m /\ components o' = (if fit then Some h else components o).
Proof using All.
  destruct (fit_transform_value rnd o x weights scale_W fit n m P N (fun d Hd => proj1 (Hi d Hd))
    ltac:(intro F; destruct (Hc F) as (c & C & S & _); eauto) Hm)
    as (o1 & w1 & e1 & b1 & x1 & w0 & h0 & h & E1 & F & Sh & FC & R & Ne & Le & Sp & A & C & _).
  rewrite E in E1. injection E1 as <- <- <- <- <-.
  assert (N0 : nonneg h0) by (eapply first_dictionary_nonneg; eauto; intros; apply Hi; auto).
  assert (Nw : nonneg w0) by (exact (first_coefficients_nonneg n k m (mvalue x) h0 w0 (value_shape x n m P) Sh N N0 FC)).
  exists w0, h0. destruct fit.
  - exists h0, h. repeat (split; auto).
  - destruct (Hc eq_refl) as (c & Cc & Sc & Nc). rewrite Cc in R. exists c, h. repeat (split; auto).
Qed.

Lemma call_signs : shape w = [n; k] /\ nonneg w /\ exists h, components o' = Some h /\ shape h = [k; m] /\ nonneg h.
Proof using All.
  destruct call_runs as (w0 & h0 & hs & h & F & S0 & N0 & FC & Nw & Eh & Ss & Ns & R & Ne & Le & Sp & A & C).
  pose proof (proj1 FC) as Sw. destruct (runs_shapes x n k m fit w0 hs errs w h Sw Ss R) as [S1 S2].
  destruct (runs_nonneg x n k m fit P N w0 hs errs w h Sw Ss Nw Ns R) as [N1 N2]. split; auto. split; auto.
  exists (if fit then h else hs). rewrite C. destruct fit; auto.
Qed.
Lemma call_zeros : forall d, init_dictionary o = Some d ->
  (forall i l, (i < n)%nat -> (l < k)%nat -> sum_to m (fun j => el (mvalue x) [i; j] * el d [l; j]) = 0 -> el w [i; l] = 0) /\
  (fit = true -> forall h, components o' = Some h -> forall l j, (l < k)%nat -> (j < m)%nat -> el d [l; j] = 0 -> el h [l; j] = 0).
Proof using All.
  intros d Hd. destruct call_runs as (w0 & h0 & hs & h & F & S0 & N0 & FC & Nw & Eh & Ss & Ns & R & Ne & Le & Sp & A & C).
  unfold first_dictionary in F. rewrite Hd in F. subst h0. split.
  - intros i l Hi' Hl Z. eapply runs_w_zero; eauto. rewrite (proj2 FC) by auto. exact Z.
  - intros Ft h1 H1 l j Hl Hj Z. rewrite Ft in Eh, C. subst hs. rewrite C in H1. injection H1 as <-. eapply runs_h_zero; eauto.
Qed.
Lemma call_rows : fit = true -> exists h, components o' = Some h /\ forall l, (l < k)%nat ->
  exists s, 0 <= s /\ lsum (row h l) = s / (s + / 10000000000000000) /\ 0 <= lsum (row h l) < 1 /\
    (s = 0 -> forall j, (j < m)%nat -> el h [l; j] = 0).
Proof using All.
  intro Ft. destruct call_runs as (w0 & h0 & hs & h & F & S0 & N0 & FC & Nw & Eh & Ss & Ns & R & Ne & Le & Sp & A & C).
  exists h. split; [now rewrite Ft in C|]. intros l Hl.
  destruct (runs_rows x n k m fit P N w0 hs errs w h (proj1 FC) Ss Nw Ns Ft Ne R l Hl) as (s & Hs & Er & Z). exists s. split; auto. split; auto.
  split; auto. rewrite Er. now apply ratio_below.
Qed.
Lemma call_mass : forall i, (i < n)%nat -> lsum (row w i) <= lsum (row (mvalue x) i) + INR m * / 100000000.
Proof using All.
  destruct call_runs as (w0 & h0 & hs & h & F & S0 & N0 & FC & Nw & Eh & Ss & Ns & R & Ne & Le & Sp & A & C).
  exact (runs_mass x n k m fit P N w0 hs errs w h (proj1 FC) Ss Nw Ns Ne R).
Qed.
Lemma call_objective : fit = false -> forall c, components o = Some c -> (forall l, (l < k)%nat -> lsum (row c l) = 1) ->
  exists w0 h0, first_dictionary rnd o k m h0 /\ first_coefficients n k m (mvalue x) h0 w0 /\
    objective x (/ 100000000) n k m (mvalue x) w c <= objective x (/ 100000000) n k m (mvalue x) w0 c.
Proof using All.
  intros Ft c Cc U. destruct call_runs as (w0 & h0 & hs & h & F & S0 & N0 & FC & Nw & Eh & Ss & Ns & R & Ne & Le & Sp & A & C).
  rewrite Ft in Eh. rewrite Cc in Eh. injection Eh as <-. exists w0, h0. split; auto. split; auto.
  apply (runs_objective x n k m fit P N w0 c errs w h (proj1 FC) Ss Nw Ns Ft U R).
Qed.
End Call.

(** ** Histories. *)
Lemma perform_transform rnd o x s : components (perform rnd o (CTransform x s)) = components o.
Proof.
  cbn. unfold transform. destruct (components o) as [h|] eqn:E; [|cbn; auto].
  destruct (fit_transform_keeps rnd (set_init (Some h) o) x 1 s false) as (_ & B & _). rewrite (B eq_refl). exact E.
Qed.
Lemma history_fits rnd cs : forall o, Forall is_fit cs -> init_dictionary (history rnd o cs) = init_dictionary o.
Proof.
  induction cs as [|c cs IH]; intros o F; auto. inversion F; subst. cbn. fold (history rnd (perform rnd o c) cs). rewrite IH by auto.
  destruct c as [x s|x s]; [|cbn in *; tauto]. apply (fit_transform_keeps rnd o x 1 s true).
Qed.
Lemma history_transform rnd o cs1 x s cs2 d : components (history rnd o cs1) = Some d -> Forall is_fit cs2 ->
  init_dictionary (history rnd o (cs1 ++ CTransform x s :: cs2)) = Some d.
Proof.
  intros C F. unfold history. rewrite fold_left_app. cbn [fold_left]. fold (history rnd o cs1). set (o1 := history rnd o cs1) in *.
  fold (history rnd (perform rnd o1 (CTransform x s)) cs2). rewrite history_fits by auto. apply (transform_keeps rnd o1 x 1 s d C).
Qed.

(** ** Sparse and dense. *)
Lemma error_agrees s w h n k m : csr_shape s = [n; m] -> canonical s -> shape w = [n; k] -> shape h = [k; m] ->
  error EPS (Sparse s) w h = Ok (divergence (/ 100000000) n k m (toarray s) w h, Sparse (eliminate_zeros s)) /\
  error EPS (Dense (toarray s)) w h = Ok (divergence (/ 100000000) n k m (toarray s) w h, Dense (toarray s)).
Proof. intros Hs Hc Sw Sh. split; [now apply error_sparse|now apply error_dense]. Qed.
Lemma special_masked s w h n k m : csr_shape s = [n; m] -> canonical s -> shape w = [n; k] -> shape h = [k; m] ->
  exists c, special_sparse_dot w h (eliminate_zeros s) = Ok c /\ csr_shape c = [n; m] /\ canonical c /\
    forall i j, (i < n)%nat -> (j < m)%nat ->
      el (toarray c) [i; j] = if Req_EM_T (el (toarray s) [i; j]) 0 then 0 else prod k w h i j.
Proof.
  intros Hs Hc Sw Sh. eexists. split; [apply (special_value s n m Hs Hc w h k Sw Sh)|]. split; [|split].
  - unfold csr_shape. cbn [lines ncol]. rewrite length_relabel. now rewrite (elim_rows s n m Hs).
  - apply canonical_relabel. pose proof (elim_canonical s Hc) as C. rewrite <- (elim_ncol s n m Hs). now destruct (eliminate_zeros s).
  - intros i j Hi' Hj. rewrite (relabel_value s n m Hs Hc) by auto. unfold prod. cbn [fst]. now rewrite sum_to_rsum.
Qed.
Lemma unsorted_differs : exists s w h v v', in_range s /\ csr_shape s = [1; 2]%nat /\ shape w = [1; 1]%nat /\ shape h = [1; 2]%nat /\
  error EPS (Sparse s) w h = Ok (v, Sparse (eliminate_zeros s)) /\
  error EPS (Dense (toarray s)) w h = Ok (v', Dense (toarray s)) /\ v <> v'.
Proof.
  set (s := Csr 2 [[(1%nat, 2); (0%nat, 1)]]). set (w := mat 1 [[1]]). set (h := mat 2 [[1; 3]]).
  assert (R : in_range s) by (repeat constructor).
  assert (El : eliminate_zeros s = s).
  { unfold s, eliminate_zeros. cbn. rewrite !(proj2 (Req_bool_false _ _)) by lra. reflexivity. }
  assert (Sp : special_sparse_dot w h s = Ok (Csr 2 [[(0%nat, 1); (1%nat, 3)]])).
  { unfold special_sparse_dot. cbn. unfold coo_tocsr. cbn. do 6 f_equal; [f_equal; lra|]. f_equal. f_equal. lra. }
  assert (D := error_dense EPS (toarray s) w h 1 1 2 eq_refl eq_refl eq_refl).
  eexists s, w, h, _, _. split; [exact R|]. split; [reflexivity|]. split; [reflexivity|]. split; [reflexivity|]. split; [|split; [exact D|]].
  - unfold error. cbv zeta. rewrite El, Sp. cbn. reflexivity.
  - intro H. cbv [divergence cells sum_to prod] in H. cbn in H. unfold EPS in H.
    set (e := / 100000000) in *. assert (He : 0 < e) by (apply Rinv_0_lt_compat; lra).
    assert (A : ln ((2 + e) / (1 + e)) = ln (2 + e) - ln (1 + e)) by (unfold Rdiv; rewrite ln_mult, ln_Rinv; try apply Rinv_0_lt_compat; lra).
    assert (B : ln ((1 + e) / (3 + e)) = ln (1 + e) - ln (3 + e)) by (unfold Rdiv; rewrite ln_mult, ln_Rinv; try apply Rinv_0_lt_compat; lra).
    assert (C : ln ((2 + e) / (3 + e)) = ln (2 + e) - ln (3 + e)) by (unfold Rdiv; rewrite ln_mult, ln_Rinv; try apply Rinv_0_lt_compat; lra).
    assert (L : ln (1 + e) < ln (3 + e)) by (apply ln_increasing; lra).
    replace (1 + 0 + e) with (1 + e) in H by lra. replace (2 + 0 + e) with (2 + e) in H by lra.
    replace (1 * 1 + 0 + e) with (1 + e) in H by lra. replace (1 * 3 + 0 + e) with (3 + e) in H by lra.
    change (Pos.to_nat 1) with 1%nat in H. cbn in H.
    rewrite A, B, C in H. unfold Rdiv in H. rewrite Rinv_r in H by lra. rewrite ln_1 in H. lra.
Qed.

Lemma unnormalised_increases : exists x w h w', shape x = [1; 1]%nat /\ shape w = [1; 1]%nat /\ shape h = [1; 1]%nat /\
  nonneg x /\ nonneg w /\ nonneg h /\ update EPS (Dense x) w h false = Ok (w', h) /\
  smoothed EPS 1 1 1 x w h < smoothed EPS 1 1 1 x w' h.
Proof.
  set (x := mat 1 [[1]]). set (w := mat 1 [[/ 2]]). set (h := mat 1 [[2]]).
  destruct (update_value EPS (Dense x) w h 1 1 1 false eq_refl eq_refl eq_refl) as (w' & h' & E & S1 & S2 & L & ->).
  assert (N : forall v, 0 <= v -> nonneg (mat 1 [[v]])).
  { intros v Hv. apply (nonneg2 (mat 1 [[v]]) 1 1 eq_refl). intros [|i] [|j] Hi Hj; cbn; try lia. exact Hv. }
  exists x, w, h, w'. split; [reflexivity|]. split; [reflexivity|]. split; [reflexivity|].
  split; [apply N; lra|]. split; [apply N; lra|]. split; [apply N; lra|]. split; [exact E|].
  assert (He : 0 < EPS) by (apply Rinv_0_lt_compat; lra).
  assert (W : el w' [0; 0]%nat = 1).
  { rewrite L by lia. unfold new_coefficient, ratio_of, ratio, sum_to, prod, sum_to. cbn. field. lra. }
  unfold smoothed, cells, sum_to, prod, sum_to. cbn [seq map lsum]. rewrite W. cbn.
  replace (/ 2 * 2 + 0 + EPS) with (1 + EPS) by lra. replace (1 * 2 + 0 + EPS) with (2 + EPS) by lra.
  unfold Rdiv. rewrite Rinv_r by lra. rewrite ln_1.
  rewrite ln_mult by (try apply Rinv_0_lt_compat; lra). rewrite ln_Rinv by lra.
  assert (B : ln (2 + EPS) - ln (1 + EPS) < / (1 + EPS)).
  { assert (I : 0 < / (1 + EPS)) by (apply Rinv_0_lt_compat; lra).
    pose proof (exp_ineq1 (/ (1 + EPS)) ltac:(lra)) as X. apply ln_increasing in X; [|lra]. rewrite ln_exp in X.
    replace (1 + / (1 + EPS)) with ((2 + EPS) * / (1 + EPS)) in X by (field; lra).
    rewrite ln_mult in X by (auto; lra). rewrite ln_Rinv in X by lra. lra. }
  assert ((1 + EPS) * (ln (2 + EPS) - ln (1 + EPS)) < (1 + EPS) * / (1 + EPS)) by (apply Rmult_lt_compat_l; lra).
  rewrite Rinv_r in H by lra. lra.
Qed.

(** ** scale. *)
Lemma scale_value o w h f n k m : shape w = [n; k] -> shape h = [k; m] -> shape f = [k] -> k <> 1%nat ->
  exists w' h', scale o w h f = Ok (w', h') /\ shape w' = [n; k] /\ shape h' = [k; m] /\
    (forall i l, (i < n)%nat -> (l < k)%nat -> el w' [i; l] = el w [i; l] * (el f [l] + self_eps o)) /\
    (forall l j, (l < k)%nat -> (j < m)%nat -> el h' [l; j] = el h [l; j] * (1 / (el f [l] + self_eps o))).
Proof.
  intros Sw Sh Sf K. apply Nat.eqb_neq in K. unfold scale, scale_matrix, ndim. rewrite Sw, Sh. cbn [length Nat.eqb negb Z.eqb orb].
  unfold squeeze, map1. cbn [shape el]. rewrite Sf. cbn [filter]. rewrite K. cbn [negb length Nat.eqb bind]. unfold expand_dims. cbn [ndim shape length].
  change (norm_axis 2 1) with (Ok 1%nat). cbn [bind insert firstn skipn app].
  match goal with |- context [map2 Rmult w ?f0] => destruct (map2_bcast Rmult w f0 [n; k]) as (w' & -> & Sw' & Lw) end.
  { rewrite Sw. unfold bcast. cbn. rewrite Nat.eqb_refl. cbn. reflexivity. }
  cbn [bind Pos.eqb negb].
  match goal with |- context [map2 Rmult h ?f0] => destruct (map2_bcast Rmult h f0 [k; m]) as (h' & -> & Sh' & Lh) end.
  { rewrite Sh. unfold bcast. cbn. rewrite Nat.eqb_refl. destruct (m =? 1)%nat eqn:M; [apply Nat.eqb_eq in M; subst; reflexivity|]. 
    cbn. destruct m as [|[|]]; cbn; try reflexivity. }
  cbn [bind]. exists w', h'. split; [reflexivity|]. split; auto. split; auto. split.
  - intros i l Hi Hl. rewrite Lw. rewrite <- Sw, view_same by (rewrite Sw; cbn; auto). cbn. rewrite K. cbn. rewrite ?K. reflexivity.
  - intros l j Hl Hj. rewrite Lh. rewrite <- Sh, view_same by (rewrite Sh; cbn; auto). cbn. rewrite K. cbn. rewrite ?K. reflexivity.
Qed.
Lemma scale_product o w h f n k m : shape w = [n; k] -> shape h = [k; m] -> shape f = [k] -> k <> 1%nat ->
  (forall l, (l < k)%nat -> el f [l] + self_eps o <> 0) ->
  exists w' h', scale o w h f = Ok (w', h') /\ shape w' = [n; k] /\ shape h' = [k; m] /\
    (forall i l, (i < n)%nat -> (l < k)%nat -> el w' [i; l] = el w [i; l] * (el f [l] + self_eps o)) /\
    (forall i j, (i < n)%nat -> (j < m)%nat -> prod k w' h' i j = prod k w h i j).
Proof.
  intros Sw Sh Sf K Z. destruct (scale_value o w h f n k m Sw Sh Sf K) as (w' & h' & E & S1 & S2 & L1 & L2).
  exists w', h'. repeat (split; auto). intros i j Hi Hj. unfold prod. apply sum_to_ext. intros l Hl. rewrite L1, L2 by auto. field. auto.
Qed.
Lemma scale_one o w h f n m : shape w = [n; 1%nat] -> shape h = [1%nat; m] -> shape f = [1%nat] ->
  scale o w h f = Err IndexError.
Proof.
  intros Sw Sh Sf. unfold scale, scale_matrix, ndim. rewrite Sw, Sh. cbn [length Nat.eqb negb Z.eqb orb].
  unfold squeeze, map1. cbn [shape el]. rewrite Sf. cbn [filter Nat.eqb negb bind].
  match goal with |- context [map2 Rmult w ?f0] => destruct (map2_bcast Rmult w f0 [n; 1%nat]) as (w' & -> & _) end.
  { rewrite Sw. reflexivity. }
  reflexivity.
Qed.

(** ** One update. *)
Section Update.
Context (eps : R) (x : matrix) (n k m : nat) (w h : nd).
Context (He : 0 < eps) (P : proper x n m) (N : nonneg (mvalue x)) (Sw : shape w = [n; k]) (Sh : shape h = [k; m]).
Context (Nw : nonneg w) (Nh : nonneg h).

Lemma update_signs_ fit : exists w' h', update eps x w h fit = Ok (w', h') /\ shape w' = [n; k] /\ shape h' = [k; m] /\ nonneg w' /\ nonneg h' /\
    (forall i l, (i < n)%nat -> (l < k)%nat -> el w [i; l] = 0 -> el w' [i; l] = 0) /\
    (forall l j, (l < k)%nat -> (j < m)%nat -> el h [l; j] = 0 -> el h' [l; j] = 0).
Proof using All.
  destruct (update_value eps x w h n k m fit P Sw Sh) as (w' & h' & E & S). exists w', h'. split; auto. pose proof S as (S1 & S2 & _).
  split; auto. split; auto. split; [exact (step_w_nonneg eps x n k m w h He P N Sw Sh Nw Nh fit w' h' S)|].
  split; [exact (step_h_nonneg eps x n k m w h He P N Sw Sh Nw Nh fit w' h' S)|].
  split; intros; [eapply step_w_zero|eapply step_h_zero]; eauto.
Qed.
Lemma update_objective_bound_ : exists w', update eps x w h false = Ok (w', h) /\
    objective x eps n k m (mvalue x) w' h <= objective x eps n k m (mvalue x) w h +
      cells n k (fun i l => el w [i; l] * (exp (lsum (row h l) - 1) - lsum (row h l))).
Proof using All.
  destruct (update_value eps x w h n k m false P Sw Sh) as (w' & h' & E & S). pose proof S as (_ & _ & _ & Eh). cbn in Eh. subst h'.
  exists w'. split; auto. exact (objective_step eps x n k m w h He P N Sw Sh Nw Nh false w' h S).
Qed.
Lemma update_objective_ : (forall l, (l < k)%nat -> lsum (row h l) = 1) -> exists w', update eps x w h false = Ok (w', h) /\
    objective x eps n k m (mvalue x) w' h <= objective x eps n k m (mvalue x) w h.
Proof using All.
  intro U. destruct update_objective_bound_ as (w' & E & B). exists w'. split; auto. pose proof (excess_zero n k w h U) as Z. unfold excess in Z.
  rewrite Z in B. lra.
Qed.
Lemma update_rows_ : exists w' h', update eps x w h true = Ok (w', h') /\ forall l, (l < k)%nat ->
    let s := sum_to m (raw_atom (ratio_of x eps k (mvalue x) w h) n w' h l) in
    0 <= s /\ lsum (row h' l) = s / (s + / 10000000000000000) /\ 0 <= lsum (row h' l) < 1 /\
    (0 < s -> 1 - lsum (row h' l) <= / 10000000000000000 / s) /\
    (s = 0 -> forall j, (j < m)%nat -> el h' [l; j] = 0).
Proof using All.
  destruct (update_value eps x w h n k m true P Sw Sh) as (w' & h' & E & S). exists w', h'. split; auto. intros l Hl s.
  assert (Hs : 0 <= s) by exact (raw_sum_nonneg eps x n k m w h He P N Sw Sh Nw Nh true w' h' S l Hl).
  assert (R := step_row_sum eps x n k m w h true w' h' S l eq_refl Hl). change (lsum (row h' l) = s / (s + / 10000000000000000)) in R.
  split; auto. split; auto. rewrite R. split; [now apply ratio_below|]. split.
  - intro Hp. set (e := / 10000000000000000). assert (0 < e) by (apply Rinv_0_lt_compat; lra).
    replace (1 - s / (s + e)) with (e / (s + e)) by (field; lra). unfold Rdiv. apply Rmult_le_compat_l; [lra|]. apply Rinv_le_contravar; lra.
  - intro Z. exact (step_row_zero eps x n k m w h He P N Sw Sh Nw Nh true w' h' S l eq_refl Hl Z).
Qed.
End Update.
Lemma update_signs eps x n k m w h fit : 0 < eps -> proper x n m -> nonneg (mvalue x) -> shape w = [n; k] -> shape h = [k; m] -> nonneg w -> nonneg h ->
  exists w' h', update eps x w h fit = Ok (w', h') /\ shape w' = [n; k] /\ shape h' = [k; m] /\ nonneg w' /\ nonneg h' /\
    (forall i l, (i < n)%nat -> (l < k)%nat -> el w [i; l] = 0 -> el w' [i; l] = 0) /\
    (forall l j, (l < k)%nat -> (j < m)%nat -> el h [l; j] = 0 -> el h' [l; j] = 0).
Proof. intros. now apply update_signs_. Qed.
Definition update_objective := update_objective_.
Definition update_objective_bound := update_objective_bound_.
Definition update_rows := update_rows_.

Lemma Q_agrees eps s w h n k m : 0 < eps -> csr_shape s = [n; m] -> canonical s -> shape w = [n; k] -> shape h = [k; m] -> nonneg w -> nonneg h ->
  exists qs qd, Q eps (Sparse s) w h = Ok (Sparse qs) /\ Q eps (Dense (toarray s)) w h = Ok (Dense qd) /\
    forall i j, (i < n)%nat -> (j < m)%nat ->
      el qd [i; j] = (el (toarray s) [i; j] + eps) / (prod k w h i j + eps) /\
      el (toarray qs) [i; j] = if Req_EM_T (el (toarray s) [i; j]) 0 then 0 else el qd [i; j].
Proof.
  intros _ Hs Hc Sw Sh _ _. destruct (Q_value eps (Sparse s) w h n k m (conj Hs Hc) Sw Sh) as (q1 & E1 & _ & L1).
  destruct (Q_value eps (Dense (toarray s)) w h n k m Hs Sw Sh) as (q2 & E2 & _ & L2).
  assert (X1 : exists a, q1 = Sparse a).
  { unfold Q in E1. destruct (special_sparse_dot _ _ _); [|discriminate]. cbn [bind] in E1. destruct (map2 _ _ _); [|discriminate]. cbn [bind] in E1. injection E1 as <-. eauto. }
  assert (X2 : exists a, q2 = Dense a).
  { unfold Q in E2. destruct (dot _ _); [|discriminate]. cbn [bind] in E2. destruct (map2 _ _ _); [|discriminate]. cbn [bind] in E2. injection E2 as <-. eauto. }
  destruct X1 as [a ->], X2 as [b ->]. exists a, b. split; auto. split; auto. intros i j Hi Hj. specialize (L1 i j Hi Hj). specialize (L2 i j Hi Hj).
  cbn [mvalue] in L1, L2. split; [exact L2|]. rewrite L1, L2. reflexivity.
Qed.

Lemma call_reconstruction rnd o x weights scale_W fit n m : proper x n m -> nonneg (mvalue x) ->
  (forall d, init_dictionary o = Some d -> shape d = [number o m; m] /\ nonneg d) ->
  (fit = false -> exists c, components o = Some c /\ shape c = [number o m; m] /\ nonneg c) ->
  (1 <= max_iter o)%Z ->
  forall o' w errs warn x', fit_transform rnd o x weights scale_W fit = (o', Ok (w, errs, warn, x')) ->
  forall (h : nd) (c : R), components o' = Some h -> (forall l, (l < number o m)%nat -> lsum (row h l) <= c) -> 0 <= c ->
  forall i, (i < n)%nat ->
    sum_to m (fun j => prod (number o m) w h i j) <= c * (lsum (row (mvalue x) i) + INR m * / 100000000).
Proof.
  intros P N Hi Hc Hm o' w errs warn x' E h c Ch Hr Cp i Hn. set (k := number o m) in *.
  destruct (call_signs rnd o x weights scale_W fit n m P N Hi Hc Hm o' w errs warn x' E) as (Sw & Nw & h1 & C1 & Sh & Nh).
  rewrite Ch in C1. injection C1 as <-. fold k in Sw, Sh.
  pose proof (call_mass rnd o x weights scale_W fit n m P N Hi Hc Hm o' w errs warn x' E i Hn) as M.
  apply Rle_trans with (c * lsum (row w i)); [|apply Rmult_le_compat_l; auto].
  unfold row at 1. rewrite Sw. cbn [nth]. fold (sum_to k (fun l => el w [i; l])). rewrite !sum_to_rsum.
  rewrite (rsum_ext m _ (fun j => rsum k (fun l => el w [i; l] * el h [l; j]))) by (intros; unfold prod; now rewrite sum_to_rsum).
  rewrite (rsum_swap m k (fun j l => el w [i; l] * el h [l; j])). rewrite <- rsum_scal. apply rsum_le. intros l Hl. rewrite rsum_scal.
  specialize (Hr l Hl). unfold row in Hr. rewrite Sh in Hr. cbn [nth] in Hr. rewrite <- rsum_lsum in Hr. rewrite (Rmult_comm c).
  apply Rmult_le_compat_l; auto. apply (proj1 (nonneg2 _ _ _ Sw) Nw); auto.
Qed.
