From Coq Require Import List ZArith Bool Arith Reals QArith String Lia Lra Sorted Permutation.
Import ListNotations.
From Verif Require Import Py Py_proof ListUtil pairing_model pairing_proof pairing_props experiment_proof munkres_model munkres_spec munkres_props nd_model nd_spec metrics_model metrics_props nmf_laws
  words_spec words_proof plots_proof info_model info_spec.
Local Open Scope nat_scope.
Notation length := List.length.

(** ** Bins *)
Lemma Req_bool_iff x y : Req_bool x y = true <-> x = y.
Proof. unfold Req_bool. destruct (Req_EM_T x y); split; congruence. Qed.
Lemma Rle_bool_iff x y : Rle_bool x y = true <-> (x <= y)%R.
Proof. unfold Rle_bool. destruct (Rle_dec x y); split; congruence. Qed.
Lemma real_interval lo hi : (lo <= hi)%R -> let '(a, b) := real_range lo hi in interval lo hi a b /\ (a < b)%R /\ (a <= lo)%R /\ (hi <= b)%R.
Proof.
  intro H. unfold real_range, interval. destruct (Req_bool lo hi) eqn:E; [apply Req_bool_iff in E; subst; split; [right; repeat split; lra|lra]|].
  assert (lo <> hi) by (intro C; apply Req_bool_iff in C; congruence). split; [left; repeat split; lra|lra].
Qed.
Lemma bin_ok lo hi v : (lo <= v <= hi)%R -> let '(a, b) := real_range lo hi in
  in_range lo hi v = true /\ forall k, k < 10 -> (bin_of lo hi v = k <-> in_bin a b k v).
Proof.
  intro H. pose proof (real_interval lo hi ltac:(lra)) as RI. unfold in_range, bin_of. destruct (real_range lo hi) as [a b]. destruct RI as (_ & Hab & Ha & Hb). split; [apply andb_true_iff; rewrite !Rle_bool_iff; lra|].
  intros k Hk. set (x := ((v - a) / (b - a))%R). assert (X : (v = a + (b - a) * x)%R) by (unfold x; field; lra).
  assert (Hx : (0 <= x <= 1)%R). { split; [apply Rmult_le_pos; [lra|left; apply Rinv_0_lt_compat; lra]|]. apply (Rmult_le_reg_r (b - a)); [lra|]. unfold x. replace ((v - a) / (b - a) * (b - a))%R with (v - a)%R by (field; lra). lra. }
  destruct (archimed (INR 10 * x)) as [A1 A2]. set (u := up (INR 10 * x)) in *. assert (I10 : INR 10 = 10%R) by (cbn; lra). rewrite I10 in *.
  assert (U1 : (1 <= u)%Z) by (apply le_IZR; apply IZR_le; assert (0 < u)%Z by (apply lt_IZR; lra); lia).
  set (f := Z.to_nat (u - 1)). assert (F : INR f = (IZR u - 1)%R) by (unfold f; rewrite INR_IZR_INZ, Z2Nat.id by lia; now rewrite minus_IZR).
  assert (F1 : (INR f <= 10 * x < INR f + 1)%R) by lra. assert (F2 : f <= 10) by (apply INR_le; rewrite I10; lra).
  assert (E : forall j, (edge a b j <= v <-> INR j <= 10 * x)%R).
  { intro j. unfold edge. rewrite X at 1. split; intro Q.
    - apply Rplus_le_reg_l in Q. apply Rmult_le_reg_l in Q; lra.
    - apply Rplus_le_compat_l, Rmult_le_compat_l; lra. }
  assert (E' : forall j, (v < edge a b j <-> 10 * x < INR j)%R) by (intro j; specialize (E j); destruct (Rle_lt_dec (edge a b j) v); destruct (Rle_lt_dec (INR j) (10 * x)); intuition lra).
  assert (Vb : v = b <-> x = 1%R). { rewrite X at 1. split; intro Q; [apply (Rmult_eq_reg_l (b - a)); lra|rewrite Q; lra]. }
  unfold in_bin. rewrite E, E', Vb, plus_INR. change (INR 1) with 1%R. clearbody f x. destruct (Nat.eqb_spec f 10) as [->|D].
  - assert (Ex : x = 1%R) by (rewrite I10 in F1; lra). subst x. split.
    + intros <-. split; [cbn; lra|]. right. auto.
    + intros [L1 [L2|[-> _]]]; auto. exfalso. assert (k + 1 <= 10) by lia. apply le_INR in H0. rewrite plus_INR in H0. rewrite I10 in H0. change (INR 1) with 1%R in H0. lra.
  - split.
    + intros ->. split; [lra|left; lra].
    + intros [L1 [L2|[-> ->]]].
      * assert (f <= k) by (assert (f < k + 1); [apply INR_lt; rewrite plus_INR; change (INR 1) with 1%R; lra|lia]). assert (k <= f) by (assert (k < f + 1); [apply INR_lt; rewrite plus_INR; change (INR 1) with 1%R; lra|lia]). lia.
      * exfalso. assert (f <= 9) by lia. apply le_INR in H0. change (INR 9) with (8 + 1)%R in H0 || idtac. cbn in H0. lra.
Qed.

Lemma fold_min l : forall x, let m := fold_left Rmin l x in (m = x \/ In m l) /\ (m <= x)%R /\ forall v, In v l -> (m <= v)%R.
Proof.
  induction l as [|y l IH]; intros x; cbn; [split; [now left|split; [lra|tauto]]|]. destruct (IH (Rmin x y)) as (A & B & C). set (m := fold_left Rmin l (Rmin x y)) in *. pose proof (Rmin_l x y). pose proof (Rmin_r x y). split; [|split; [lra|intros v [<-|I]; [lra|auto]]].
  destruct A as [A|A]; [|auto]. unfold Rmin in A. destruct (Rle_dec x y); auto.
Qed.
Lemma fold_max l : forall x, let m := fold_left Rmax l x in (m = x \/ In m l) /\ (x <= m)%R /\ forall v, In v l -> (v <= m)%R.
Proof.
  induction l as [|y l IH]; intros x; cbn; [split; [now left|split; [lra|tauto]]|]. destruct (IH (Rmax x y)) as (A & B & C). set (m := fold_left Rmax l (Rmax x y)) in *. pose proof (Rmax_l x y). pose proof (Rmax_r x y). split; [|split; [lra|intros v [<-|I]; [lra|auto]]].
  destruct A as [A|A]; [|auto]. unfold Rmax in A. destruct (Rle_dec x y); auto.
Qed.
Lemma extremes_ok l : l <> [] -> exists lo hi, np_min l = Ok lo /\ np_max l = Ok hi /\ extremes l lo hi.
Proof.
  destruct l as [|x l]; [congruence|]. intros _. cbn [np_min np_max]. exists (fold_left Rmin l x), (fold_left Rmax l x). split; auto. split; auto.
  destruct (fold_min l x) as (A & B & C). destruct (fold_max l x) as (A' & B' & C'). unfold extremes. split; [cbn; destruct A; auto|]. split; [cbn; destruct A'; auto|]. intros v [<-|I]; auto.
Qed.

(** ** Buckets *)
Lemma count_by_number {A} (g : A -> nat) (f : A -> bool) i n l : (forall a, In a l -> g a < n) ->
  list_sum (map (fun q => if q =? i then 0 else cnt (fun a => (g a =? q) && f a) l) (seq 0 n)) = cnt (fun a => negb (g a =? i) && f a) l.
Proof.
  intro H. induction l as [|a l IH].
  - unfold cnt. cbn. assert (Z : forall s, list_sum (map (fun q => if q =? i then 0 else 0) s) = 0) by (induction s as [|q s IHs]; cbn; auto; destruct (q =? i); auto). apply Z.
  - assert (K : forall s, NoDup s -> list_sum (map (fun q => if q =? i then 0 else cnt (fun a => (g a =? q) && f a) (a :: l)) s) =
      (if existsb (Nat.eqb (g a)) s then bit (negb (g a =? i) && f a) else 0) + list_sum (map (fun q => if q =? i then 0 else cnt (fun a => (g a =? q) && f a) l) s)).
    { clear. intros s N. induction N as [|q s Nq N IH]; [reflexivity|]. change (list_sum (map ?h (q :: s))) with (h q + list_sum (map h s)). rewrite IH. clear IH. unfold cnt. cbn [filter existsb].
      destruct (Nat.eqb_spec (g a) q) as [->|D]; cbn [orb andb].
      - assert (M : existsb (Nat.eqb q) s = false) by (apply not_true_iff_false; intro C; apply existsb_exists in C as (z & Iz & Ez); apply Nat.eqb_eq in Ez; now subst). rewrite M. destruct (q =? i); cbn [negb andb bit]; [lia|]. destruct (f a); cbn; lia.
      - destruct (q =? i); lia. }
    rewrite (K (seq 0 n) (seq_NoDup n 0)), IH by (intros b I; apply H; now right).
    assert (M : existsb (Nat.eqb (g a)) (seq 0 n) = true) by (apply existsb_exists; exists (g a); split; [apply in_seq; specialize (H a (or_introl eq_refl)); lia|apply Nat.eqb_refl]).
    rewrite M. unfold cnt. cbn [filter]. destruct (negb (g a =? i) && f a); reflexivity.
Qed.

Lemma Permutation_filter' {A} (f : A -> bool) l l' : Permutation l l' -> Permutation (filter f l) (filter f l').
Proof. induction 1; cbn; auto. - destruct (f x); auto. - destruct (f x), (f y); auto. apply perm_swap. - etransitivity; eauto. Qed.
Lemma map_nth_all {A} (l : list A) d : map (fun i => nth i l d) (seq 0 (length l)) = l.
Proof. induction l as [|a l IH]; [reflexivity|]. cbn [length seq map nth]. f_equal. rewrite <- seq_shift, map_map. exact IH. Qed.
Section Table.
Context (labels : list nat) (values : list R) (n_labels : nat) (L : length labels = length values) (B : Forall (fun l => l < n_labels) labels) (Ne : values <> []).
Let samples := combine labels values.
Lemma bucket_counts by_label lo hi l bk k : organize_by_values (map Z.of_nat labels) (Some n_labels) = Ok by_label -> nth_error by_label l = Some bk -> l < n_labels -> k < 10 ->
  extremes values lo hi ->
  exists vs, mapM (fun i => py_nth values (Z.of_nat i)) bk = Ok vs /\ nth k (histogram vs lo hi) 0 = cnt (fun s => (fst s =? l) && (bin_of lo hi (snd s) =? k)) samples.
Proof using L B.
  intros E El Ll Hk Ex. destruct (C09_positions _ _ _ E) as [_ H]. destruct (H _ _ El) as [Sb Mb]. clear H.
  assert (Mb' : forall i, In i bk <-> nth_error labels i = Some l).
  { intro i. rewrite Mb, nth_error_map. split.
    - intros (x & Ex' & Hx). destruct (nth_error labels i) as [l'|] eqn:El'; [|discriminate]. cbn in Ex'. rewrite Forall_forall in B. specialize (B l' (nth_error_In _ _ El')). assert (x = Z.of_nat l') by congruence. subst. f_equal. lia.
    - intros ->. exists (Z.of_nat l). cbn. split; auto. }
  exists (map (fun i => nth i values 0%R) bk). split.
  - apply mapM_pure. intros i I. apply Mb' in I. apply py_nth_nat_ok. apply nth_error_nth'. rewrite <- L. apply nth_error_Some. congruence.
  - unfold histogram. rewrite (nth_indep _ 0 (length (filter (fun v => in_range lo hi v && (bin_of lo hi v =? 0)) (map (fun i => nth i values 0%R) bk)))) by (rewrite map_length, seq_length; exact Hk).
    rewrite (map_nth (fun b => length (filter (fun v => in_range lo hi v && (bin_of lo hi v =? b)) (map (fun i => nth i values 0%R) bk)))), seq_nth by exact Hk. cbn [Nat.add].
    assert (P : Permutation (map (fun i => nth i samples (0, 0%R)) bk) (filter (fun s => fst s =? l) samples)).
    { assert (Ls : length samples = length labels) by (unfold samples; rewrite combine_length; lia).
      transitivity (map (fun i => nth i samples (0, 0%R)) (filter (fun i => fst (nth i samples (0, 0%R)) =? l) (seq 0 (length samples)))).
      - apply Permutation_map. apply NoDup_Permutation; [|apply NoDup_filter, seq_NoDup|].
        + clear - Sb. induction Sb as [|x b Sb IH F]; constructor; auto. intro I. rewrite Forall_forall in F. specialize (F x I). lia.
        + intro i. rewrite Mb', filter_In, in_seq, Nat.eqb_eq. assert (K : forall i, i < length samples -> nth_error labels i = Some (fst (nth i samples (0, 0%R)))).
          { clear - L Ls. intros i Hi. destruct (nth_error labels i) as [a|] eqn:Ea; [|apply nth_error_None in Ea; lia]. destruct (nth_error values i) as [v|] eqn:Ev; [|apply nth_error_None in Ev; lia].
            assert (Es : nth_error samples i = Some (a, v)) by (unfold samples; rewrite utils_proof.nth_error_combine, Ea, Ev; reflexivity). now rewrite (nth_error_nth _ _ _ Es). }
          split.
          * intro Ei. assert (i < length samples) by (rewrite Ls; apply nth_error_Some; congruence). rewrite K in Ei by auto. split; [lia|congruence].
          * intros [Hi <-]. apply K. lia.
      - rewrite <- (plots_proof.filter_map_swap (fun s => fst s =? l)), map_nth_all. apply Permutation_refl. }
    assert (Q : map (fun i => nth i values 0%R) bk = map snd (map (fun i => nth i samples (0, 0%R)) bk)).
    { rewrite map_map. apply map_ext_in. intros i I. apply Mb' in I. assert (i < length values) by (rewrite <- L; apply nth_error_Some; congruence). destruct (nth_error values i) as [v|] eqn:Ev; [|apply nth_error_None in Ev; lia].
      assert (Es : nth_error samples i = Some (l, v)) by (unfold samples; rewrite utils_proof.nth_error_combine, I, Ev; reflexivity). now rewrite (nth_error_nth _ _ _ Es), (nth_error_nth _ _ _ Ev). }
    rewrite Q. assert (P2 : Permutation (filter (fun v => in_range lo hi v && (bin_of lo hi v =? k)) (map snd (map (fun i => nth i samples (0, 0%R)) bk))) (filter (fun v => in_range lo hi v && (bin_of lo hi v =? k)) (map snd (filter (fun s => fst s =? l) samples)))).
    { apply Permutation_filter', Permutation_map, P. }
    rewrite (Permutation_length P2). clear P2 Q P. unfold cnt.
    assert (In_v : forall s, In s samples -> In (snd s) values) by (intros [a v] I; exact (in_combine_r _ _ _ _ I)).
    assert (G : forall ss, (forall s, In s ss -> In (snd s) values) -> length (filter (fun v => in_range lo hi v && (bin_of lo hi v =? k)) (map snd (filter (fun s => fst s =? l) ss))) = length (filter (fun s => (fst s =? l) && (bin_of lo hi (snd s) =? k)) ss)).
    { intros ss. induction ss as [|s ss IH]; intro Hs; [reflexivity|]. cbn [filter]. destruct Ex as (_ & _ & Hv). specialize (Hv (snd s) (Hs s (or_introl eq_refl))). pose proof (bin_ok lo hi (snd s) Hv) as Hb. destruct (real_range lo hi) as [a b]. destruct Hb as [Hb _].
      destruct (fst s =? l); cbn [andb map filter]; [rewrite Hb; cbn [andb]; destruct (bin_of lo hi (snd s) =? k); cbn [length]; rewrite IH; auto|rewrite IH; auto]; intros; apply Hs; now right. }
    apply G. exact In_v.
Qed.

Definition bins (lo hi : R) (P : nat * R -> bool) : list nat := map (fun k => cnt (fun s => P s && (bin_of lo hi (snd s) =? k)) samples) (seq 0 10).
Lemma bin_small lo hi s : extremes values lo hi -> In s samples -> bin_of lo hi (snd s) < 10.
Proof.
  intros (_ & _ & H) I. destruct s as [a v]. cbn. pose proof (H v (in_combine_r _ _ _ _ I)) as Hv. pose proof (bin_ok lo hi v Hv) as Hb. pose proof (real_interval lo hi ltac:(lra)) as Hi. destruct (real_range lo hi) as [x y]. destruct Hb as [_ Hb]. destruct Hi as (_ & Hxy & Hx & Hy).
  destruct (Nat.lt_ge_cases (bin_of lo hi v) 10) as [|C]; auto. exfalso.
  (* some bin contains the value *)
  assert (K : forall m, m <= 9 -> (edge x y m <= v)%R -> exists k, k < 10 /\ in_bin x y k v).
  { intros m. remember (9 - m) as d eqn:Ed. revert m Ed. induction d as [|d IH]; intros m Ed Lm Em.
    - assert (m = 9) by lia. subst. exists 9. split; [lia|]. split; auto. destruct (Rlt_le_dec v (edge x y 10)) as [|Q]; [now left|right]. split; auto. unfold edge in Q. replace (INR 10 / 10)%R with 1%R in Q by (cbn; lra). lra.
    - destruct (Rlt_le_dec v (edge x y (m + 1))) as [Q|Q]; [exists m; split; [lia|]; split; auto|]. apply (IH (m + 1)); [lia|lia|exact Q]. }
  destruct (K 0) as (k & Lk & Hk); [lia|unfold edge; cbn; lra|]. apply (Hb k Lk) in Hk. lia.
Qed.
Lemma bins_total lo hi P : extremes values lo hi -> list_sum (bins lo hi P) = cnt P samples.
Proof.
  intro Ex. pose proof (count_by_number (fun s => bin_of lo hi (snd s)) P 10 10 samples (fun s I => bin_small lo hi s Ex I)) as H.
  transitivity (cnt (fun a => negb (bin_of lo hi (snd a) =? 10) && P a) samples).
  - rewrite <- H. unfold bins. f_equal. apply map_ext_in. intros k I. apply in_seq in I. rewrite (proj2 (Nat.eqb_neq k 10)) by lia. apply cnt_ext. intros. apply andb_comm.
  - apply cnt_ext. intros s I. pose proof (bin_small lo hi s Ex I). rewrite (proj2 (Nat.eqb_neq _ 10)) by lia. reflexivity.
Qed.
Lemma hists_ok by_label : organize_by_values (map Z.of_nat labels) (Some n_labels) = Ok by_label ->
  exists lo hi, extremes values lo hi /\ internal_histograms_by_label values by_label = Ok (map (fun l => bins lo hi (fun s => fst s =? l)) (seq 0 n_labels)).
Proof using L B Ne.
  intro E. destruct (extremes_ok values Ne) as (lo & hi & E1 & E2 & Ex). exists lo, hi. split; auto. unfold internal_histograms_by_label. rewrite E1, E2. cbn [bind].
  destruct (C09_positions _ _ _ E) as [Lb _]. apply mapM_ok.
  assert (G : forall l, l < n_labels -> exists bk, nth_error by_label l = Some bk /\ bind (mapM (fun i => py_nth values (Z.of_nat i)) bk) (fun v => Ok (histogram v lo hi)) = Ok (bins lo hi (fun s => fst s =? l))).
  { intros l Hl. destruct (nth_error by_label l) as [bk|] eqn:El; [|apply nth_error_None in El; lia]. exists bk. split; auto. destruct (bucket_counts by_label lo hi l bk 0 E El Hl ltac:(lia) Ex) as (vs & Ev & _). rewrite Ev. cbn [bind]. f_equal.
    apply nth_ext with (d := 0) (d' := 0); [unfold histogram, bins; now rewrite !map_length|]. intros k Hk. unfold histogram in Hk. rewrite map_length, seq_length in Hk.
    destruct (bucket_counts by_label lo hi l bk k E El Hl Hk Ex) as (vs' & Ev' & Hc). assert (vs' = vs) by congruence. subst vs'. rewrite Hc. unfold bins.
    rewrite (nth_indep _ 0 (cnt (fun s => (fst s =? l) && (bin_of lo hi (snd s) =? 0)) samples)) by (rewrite map_length, seq_length; exact Hk). rewrite (map_nth (fun k => cnt (fun s => (fst s =? l) && (bin_of lo hi (snd s) =? k)) samples)), seq_nth by exact Hk. reflexivity. }
  assert (H : forall n s bs, length bs = n -> (forall l, l < n -> exists bk, nth_error bs l = Some bk /\ bind (mapM (fun i => py_nth values (Z.of_nat i)) bk) (fun v => Ok (histogram v lo hi)) = Ok (bins lo hi (fun t => fst t =? s + l))) ->
    Forall2 (fun x y => bind (mapM (fun i => py_nth values (Z.of_nat i)) x) (fun v => Ok (histogram v lo hi)) = Ok y) bs (map (fun l => bins lo hi (fun t => fst t =? l)) (seq s n))).
  { clear. induction n as [|n IH]; intros s [|b bs] Hb H; try discriminate; [constructor|]. cbn [seq map]. constructor.
    - destruct (H 0 ltac:(lia)) as (bk & E & R). cbn in E. rewrite Nat.add_0_r in R. congruence.
    - apply IH; [now injection Hb|]. intros l Hl. destruct (H (S l) ltac:(lia)) as (bk & E & R). exists bk. split; auto. now rewrite Nat.add_succ_r in R. }
  apply H; auto.
Qed.
Lemma others_ok lo hi i : extremes values lo hi -> sum_all_but_i (map (fun l => bins lo hi (fun s => fst s =? l)) (seq 0 n_labels)) i = bins lo hi (fun s => negb (fst s =? i)).
Proof using B L.
  intro Ex. unfold sum_all_but_i, bins at 2. apply map_ext_in. intros k Hk. apply in_seq in Hk. unfold enumerate. rewrite map_length, seq_length.
  rewrite <- (count_by_number (fun s => fst s) (fun s => bin_of lo hi (snd s) =? k) i n_labels samples).
  - f_equal. assert (Q : forall (f : nat -> list nat) n s, combine (seq s n) (map f (seq s n)) = map (fun q => (q, f q)) (seq s n)) by (intros f n; induction n as [|n IH]; intro s; cbn; auto; now rewrite IH).
    rewrite Q, map_map. apply map_ext. intro q. cbn [fst snd]. destruct (q =? i); auto. unfold bins.
    rewrite (nth_indep _ 0 (cnt (fun s => (fst s =? q) && (bin_of lo hi (snd s) =? 0)) samples)) by (rewrite map_length, seq_length; lia). rewrite (map_nth (fun k => cnt (fun s => (fst s =? q) && (bin_of lo hi (snd s) =? k)) samples)), seq_nth by lia. reflexivity.
  - intros [a v] I. cbn. rewrite Forall_forall in B. apply B. exact (in_combine_l _ _ _ _ I).
Qed.
End Table.

(** ** The information *)
Lemma lsum_share10 (F : nat -> nat) N (l : list nat) : lsum (map (fun x => (INR (F x) / N)%R) l) = (INR (list_sum (map F l)) / N)%R.
Proof. induction l as [|x l IH]; cbn [map lsum list_sum fold_right]; [cbn; unfold Rdiv; lra|]. unfold list_sum in IH. rewrite IH, plus_INR. unfold Rdiv. lra. Qed.
Lemma information10 (c d : nat -> nat) N : list_sum (map c (seq 0 10)) + list_sum (map d (seq 0 10)) = N -> N <> 0 ->
  exists v, mutual_information (nd_model.mat 10 [map (fun k => (INR (c k) / INR N)%R) (seq 0 10); map (fun k => (INR (d k) / INR N)%R) (seq 0 10)]) = Ok v /\ (0 <= v)%R /\
    (v = 0%R <-> forall k, k < 10 -> c k * N = list_sum (map c (seq 0 10)) * (c k + d k)).
Proof.
  intros E Nz. assert (Np : (0 < INR N)%R) by (apply lt_0_INR; lia). set (h := nd_model.mat 10 _).
  assert (R0 : row h 0 = map (fun k => (INR (c k) / INR N)%R) (seq 0 10)) by reflexivity.
  assert (R1 : row h 1 = map (fun k => (INR (d k) / INR N)%R) (seq 0 10)) by reflexivity.
  assert (E0 : forall k, k < 10 -> el h [0; k] = (INR (c k) / INR N)%R) by (intros k Hk; do 10 (destruct k as [|k]; [reflexivity|]); lia).
  assert (E1 : forall k, k < 10 -> el h [1; k] = (INR (d k) / INR N)%R) by (intros k Hk; do 10 (destruct k as [|k]; [reflexivity|]); lia).
  assert (C : forall k, k < 10 -> lsum (col h k) = ((INR (c k) + INR (d k)) / INR N)%R).
  { intros k Hk. change (col h k) with [el h [0; k]; el h [1; k]]. cbn [lsum]. rewrite E0, E1 by exact Hk. unfold Rdiv. lra. }
  assert (Tot : (lsum (row h 0) + lsum (row h 1) = 1)%R). { rewrite R0, R1, !lsum_share10. rewrite <- E, plus_INR. field. rewrite <- plus_INR, E. lra. }
  destruct (C48_nonneg_zero h 2 10) as (v & Ev & Pv & Z).
  - reflexivity.
  - apply (nmf_laws.nonneg2 h 2 10 eq_refl). intros i j Hi Hj. destruct i as [|[|i]]; [rewrite E0 by exact Hj|rewrite E1 by exact Hj|lia]; apply Rmult_le_pos; try apply pos_INR; left; now apply Rinv_0_lt_compat.
  - rewrite <- Tot. unfold total. change (entries h) with (row h 0 ++ row h 1)%list. apply lsum_app.
  - exists v. split; [exact Ev|]. split; [exact Pv|]. rewrite Z. set (S := list_sum (map c (seq 0 10))) in *. set (S' := list_sum (map d (seq 0 10))) in *.
    assert (L0 : lsum (row h 0) = (INR S / INR N)%R) by (rewrite R0; apply lsum_share10). assert (L1 : lsum (row h 1) = (INR S' / INR N)%R) by (rewrite R1; apply lsum_share10).
    assert (Es : (INR S + INR S' = INR N)%R) by (rewrite <- E, plus_INR; reflexivity).
    assert (Q : forall a b e : R, (a / INR N = b / INR N * (e / INR N) <-> a * INR N = b * e)%R).
    { intros a b e. split; intro H.
      - apply (Rmult_eq_reg_r (/ INR N)); [|apply Rinv_neq_0_compat; lra]. apply (Rmult_eq_reg_r (/ INR N)); [|apply Rinv_neq_0_compat; lra]. transitivity (a / INR N)%R; [field; lra|]. rewrite H. field. lra.
      - apply (Rmult_eq_reg_r (INR N * INR N)); [|apply Rmult_integral_contrapositive_currified; lra]. transitivity (a * INR N)%R; [field; lra|]. rewrite H. field. lra. }
    split.
    + intros H k Hk. specialize (H 0 k ltac:(lia) Hk). rewrite E0, L0, C in H by exact Hk. apply Q in H. rewrite <- plus_INR, <- !mult_INR in H. now apply INR_eq.
    + intros H i j Hi Hj. specialize (H j Hj). apply (f_equal INR) in H. rewrite !mult_INR, plus_INR in H. rewrite C by exact Hj. destruct i as [|[|i]]; [| |lia].
      * rewrite E0, L0 by exact Hj. now apply Q.
      * rewrite E1, L1 by exact Hj. apply Q. rewrite <- Es in *. nra.
Qed.

(** For one coefficient. *)
Lemma by_label_ok labels values n_labels by_label idx : length labels = length values -> Forall (fun l => l < n_labels) labels -> values <> [] ->
  organize_by_values (map Z.of_nat labels) (Some n_labels) = Ok by_label -> let samples := combine labels values in
  exists vs lo hi a b, mutual_information_by_label by_label values idx = Ok vs /\ length vs = n_labels /\ extremes values lo hi /\ interval lo hi a b /\
  forall l, l < n_labels -> exists v nl, nth_error vs l = Some v /\ (0 <= v)%R /\ counts (of_label l) samples nl /\
    exists c d, (forall k, k < 10 -> counts (fun s => of_label l s /\ value_in a b k s) samples (c k) /\ counts (fun s => other_label l s /\ value_in a b k s) samples (d k)) /\
      list_sum (map c (seq 0 10)) = nl /\ list_sum (map c (seq 0 10)) + list_sum (map d (seq 0 10)) = length samples /\
      mutual_information (nd_model.mat 10 [map (fun k => (INR (c k) / INR (length samples))%R) (seq 0 10); map (fun k => (INR (d k) / INR (length samples))%R) (seq 0 10)]) = Ok v /\
      (v = 0%R <-> forall k, k < 10 -> c k * length samples = nl * (c k + d k)).
Proof.
  intros L B Ne E samples. destruct (hists_ok labels values n_labels L B Ne by_label E) as (lo & hi & Ex & Eh).
  assert (Hle : (lo <= hi)%R) by (destruct Ex as (I1 & I2 & H); specialize (H hi I2); lra).
  pose proof (real_interval lo hi Hle) as Hi. destruct (real_range lo hi) as [a b] eqn:Er. destruct Hi as (Hi & _).
  assert (Nz : length samples <> 0). { unfold samples. rewrite combine_length. destruct values; [congruence|cbn in *; lia]. }
  set (c := fun l k => cnt (fun s : nat * R => (fst s =? l) && (bin_of lo hi (snd s) =? k)) samples). set (d := fun l k => cnt (fun s : nat * R => negb (fst s =? l) && (bin_of lo hi (snd s) =? k)) samples).
  assert (S1 : forall l, list_sum (map (c l) (seq 0 10)) = cnt (fun s => fst s =? l) samples) by (intro l; exact (bins_total labels values L lo hi (fun s => fst s =? l) Ex)).
  assert (S2 : forall l, list_sum (map (d l) (seq 0 10)) = cnt (fun s => negb (fst s =? l)) samples) by (intro l; exact (bins_total labels values L lo hi (fun s => negb (fst s =? l)) Ex)).
  assert (S3 : forall l, list_sum (map (c l) (seq 0 10)) + list_sum (map (d l) (seq 0 10)) = length samples).
  { intro l. rewrite S1, S2, <- (cnt_true samples), (cnt_split (fun _ => true) (fun s : nat * R => fst s =? l)). reflexivity. }
  assert (J : forall l, l < n_labels -> joint (map (fun l => bins labels values lo hi (fun s => fst s =? l)) (seq 0 n_labels)) l =
    [map (fun k => (INR (c l k) / INR (length samples))%R) (seq 0 10); map (fun k => (INR (d l k) / INR (length samples))%R) (seq 0 10)]).
  { intros l Hl. unfold joint. rewrite (others_ok labels values n_labels L B lo hi l Ex).
    assert (En : nth l (map (fun l => bins labels values lo hi (fun s => fst s =? l)) (seq 0 n_labels)) [] = map (c l) (seq 0 10)).
    { apply nth_error_nth. rewrite nth_error_map, logger_load.nth_error_seq, (proj2 (Nat.ltb_lt _ _) Hl). reflexivity. }
    rewrite En. change (bins labels values lo hi (fun s => negb (fst s =? l))) with (map (d l) (seq 0 10)).
    assert (Et : list_sum (map list_sum [map (c l) (seq 0 10); map (d l) (seq 0 10)]) = length samples) by (rewrite <- (S3 l); cbn [map list_sum fold_right]; lia).
    rewrite Et. cbn [map]. reflexivity. }
  assert (K : forall l, l < n_labels -> exists v, mutual_information (nd_model.mat 10 (joint (map (fun l => bins labels values lo hi (fun s => fst s =? l)) (seq 0 n_labels)) l)) = Ok v /\ (0 <= v)%R /\
    (v = 0%R <-> forall k, k < 10 -> c l k * length samples = list_sum (map (c l) (seq 0 10)) * (c l k + d l k))).
  { intros l Hl. rewrite (J l Hl). apply information10; auto. }
  destruct (mapM_total (fun i => mutual_information (nd_model.mat 10 (joint (map (fun l => bins labels values lo hi (fun s => fst s =? l)) (seq 0 n_labels)) i))) (seq 0 n_labels)) as [vs Evs].
  { intros l I. apply in_seq in I. destruct (K l ltac:(lia)) as (v & Ev & _). eauto. }
  exists vs, lo, hi, a, b. unfold mutual_information_by_label. rewrite Eh. cbn [bind]. rewrite map_length, seq_length. split; [exact Evs|]. split; [rewrite (mapM_length _ _ _ Evs); apply seq_length|]. split; auto. split; auto.
  intros l Hl. apply mapM_ok in Evs. destruct (Forall2_nth _ _ _ Evs l l) as (v & Ev & Hv); [rewrite logger_load.nth_error_seq, (proj2 (Nat.ltb_lt _ _) Hl); reflexivity|].
  destruct (K l Hl) as (v' & Ev' & Pv & Zv). assert (v' = v) by congruence. subst v'. exists v, (cnt (fun s => fst s =? l) samples). split; auto. split; auto. split; [apply cnt_counts; intro s; apply Nat.eqb_eq|].
  exists (c l), (d l). split; [|split; [apply S1|split; [apply S3|split; [rewrite <- (J l Hl); exact Hv|rewrite <- (S1 l); exact Zv]]]].
  intros k Hk. assert (G : forall (P : nat * R -> Prop) (f : nat * R -> bool), (forall s, f s = true <-> P s) -> counts (fun s => P s /\ value_in a b k s) samples (cnt (fun s => f s && (bin_of lo hi (snd s) =? k)) samples)).
  { intros P f Hf. assert (Iv : forall s, In s samples -> In (snd s) values) by (intros [x y] I; exact (in_combine_r _ _ _ _ I)). revert Iv. clear -Hf Ex Er Hk. induction samples as [|s ss IH]; intro Iv; [constructor|].
    specialize (IH (fun s I => Iv s (or_intror I))). destruct Ex as (_ & _ & Hv). pose proof (bin_ok lo hi (snd s) (Hv _ (Iv s (or_introl eq_refl)))) as Hb. rewrite Er in Hb. destruct Hb as [_ Hb]. specialize (Hb k Hk). unfold cnt in *. cbn [filter].
    destruct (f s && (bin_of lo hi (snd s) =? k)) eqn:Ef; cbn [length]; constructor; auto.
    - apply andb_true_iff in Ef as [E1 E2]. apply Nat.eqb_eq in E2. split; [now apply Hf|now apply Hb].
    - intros [H1 H2]. apply Hf in H1. apply Hb, Nat.eqb_eq in H2. rewrite H1, H2 in Ef. discriminate. }
  split; apply G; intro s; [apply Nat.eqb_eq|]. unfold other_label. rewrite negb_true_iff. apply Nat.eqb_neq.
Qed.

(** The whole matrix. *)
Lemma info_matrix_ok labels n_labels internal : Forall (fun l => l < n_labels) labels -> labels <> [] -> Forall (fun c => length c = length labels) internal ->
  exists m by_label, organize_by_values (map Z.of_nat labels) (Some n_labels) = Ok by_label /\ info_matrix labels n_labels internal = Ok m /\
    Forall2 (fun values vs => mutual_information_by_label by_label values by_label = Ok vs /\ length vs = n_labels /\ Forall (fun v => (0 <= v)%R) vs) internal m.
Proof.
  intros B Ne F. destruct (proj1 (C09_organize nat (map Z.of_nat labels) n_labels (seq 0 (length (map Z.of_nat labels))))) as (by_label & E & _).
  { intros i x I. apply in_combine_r, in_map_iff in I as (l & <- & I). rewrite Forall_forall in B. specialize (B l I). lia. }
  assert (K : forall values, In values internal -> exists vs, mutual_information_by_label by_label values by_label = Ok vs /\ length vs = n_labels /\ Forall (fun v => (0 <= v)%R) vs).
  { intros values I. rewrite Forall_forall in F. specialize (F values I). destruct (by_label_ok labels values n_labels by_label by_label ltac:(congruence) B) as (vs & lo & hi & a & b & Ev & Lv & _ & _ & H); auto.
    - intros ->. destruct labels; [congruence|discriminate].
    - exists vs. split; auto. split; auto. rewrite Forall_forall. intros v Iv. apply In_nth_error in Iv as [l El]. destruct (H l) as (v' & nl & Ev' & Pv & _); [rewrite <- Lv; apply nth_error_Some; congruence|]. congruence. }
  destruct (mapM_total (fun values => mutual_information_by_label by_label values by_label) internal) as [m Em]; [intros values I; destruct (K values I) as (vs & Ev & _); eauto|].
  exists m, by_label. change (organize_indexed (map Z.of_nat labels) (Some n_labels) (seq 0 (length (map Z.of_nat labels)))) with (organize_by_values (map Z.of_nat labels) (Some n_labels)) in E. split; [exact E|].
  unfold info_matrix. rewrite E. cbn [bind]. split; [exact Em|]. apply mapM_ok in Em.
  assert (G : forall l l', (forall v, In v l -> In v internal) -> Forall2 (fun values vs => mutual_information_by_label by_label values by_label = Ok vs) l l' ->
    Forall2 (fun values vs => mutual_information_by_label by_label values by_label = Ok vs /\ length vs = n_labels /\ Forall (fun v => (0 <= v)%R) vs) l l').
  { intros l l' I H. induction H as [|x y l l' Hx H IH]; constructor; [|apply IH; intros; apply I; now right]. destruct (K x (I x (or_introl eq_refl))) as (vs & Ev & R). assert (vs = y) by congruence. subst. split; [exact Hx|exact R]. }
  apply G; auto.
Qed.
Lemma info_no_sample n_labels values internal : values = [] -> info_matrix [] n_labels (values :: internal) = Err ValueError.
Proof.
  intros ->. unfold info_matrix. destruct (proj1 (C09_organize nat [] n_labels [])) as (by_label & E & _); [intros i x []|]. unfold organize_by_values. cbn [map length seq]. rewrite E. reflexivity.
Qed.

(** ** Columns in the order of the best assignment *)
Lemma entry_negative (m : Qmatrix) i j : entry (mrows (negative m)) i j == - entry (mrows m) i j.
Proof.
  unfold entry, negative. cbn [mrows]. destruct (Nat.lt_ge_cases i (length (mrows m))) as [Li|Li].
  - rewrite (nth_indep _ [] (map Qopp [])) by (rewrite map_length; exact Li). rewrite map_nth. destruct (Nat.lt_ge_cases j (length (nth i (mrows m) []))) as [Lj|Lj].
    + rewrite (nth_indep _ 0%Q (- 0)%Q) by (rewrite map_length; exact Lj). rewrite map_nth. reflexivity.
    + rewrite !nth_overflow by (rewrite ?map_length; exact Lj). reflexivity.
  - rewrite !(nth_overflow _ (n := i)) by (rewrite ?map_length; exact Li). now destruct j.
Qed.
Lemma cost_negative (m : Qmatrix) s : forall i, cost_from (entry (mrows (negative m))) i s == - cost_from (entry (mrows m)) i s.
Proof. induction s as [|j s IH]; intro i; cbn [cost_from]; [reflexivity|]. rewrite entry_negative, IH. ring. Qed.
Lemma take_cols_ok (m : Qmatrix) idx : wf_matrix m -> (forall j, In j idx -> j < mcols m) -> take_cols m idx = Ok (map (fun row => map (fun j => nth j row 0%Q) idx) (mrows m)).
Proof.
  intros W H. unfold take_cols. apply mapM_pure. intros row I. apply mapM_pure. intros j Ij. apply py_nth_nat_ok. apply nth_error_nth'. unfold wf_matrix in W. rewrite Forall_forall in W. eapply Nat.lt_le_trans; [exact (H j Ij)|]. apply Nat.eq_le_incl. symmetry. exact (W row I).
Qed.
Lemma plot_ok (m : Qmatrix) n K : wf_matrix m -> nrows m = n -> mcols m = K -> 0 < n -> n <= K ->
  exists s r drawn, (forall fuel, 2 * K < fuel -> plot_mutual_info fuel K m = Ok (map Some (s ++ r), drawn)) /\
    length s = n /\ Permutation (s ++ r) (seq 0 K) /\ StronglySorted lt r /\
    drawn = map (fun row => map (fun j => nth j row 0%Q) (s ++ r)) (mrows m) /\
    forall s', is_injection n K s' -> (gain (mrows m) s' <= gain (mrows m) s)%Q.
Proof.
  intros W En EK Pn Le. destruct (C02_wide_optimal (negative m) n K) as (s & Es & (Ls & Ns & Bs) & Os); auto.
  - unfold wf_matrix in *. cbn [negative mrows mcols]. rewrite Forall_forall in *. intros r I. apply in_map_iff in I as (r0 & <- & I). rewrite map_length. auto.
  - unfold nrows in *. cbn [negative mrows]. now rewrite map_length.
  - set (r := filter (fun i => negb (is_in i (map Some s))) (seq 0 K)). exists s, r, (map (fun row => map (fun j => nth j row 0%Q) (s ++ r)) (mrows m)).
    assert (Hin : forall i, is_in i (map Some s) = true <-> In i s).
    { intro i. unfold is_in. rewrite existsb_exists. split.
      - intros (o & I & H). apply in_map_iff in I as (j & <- & I). apply Nat.eqb_eq in H. now subst.
      - intro I. exists (Some i). split; [now apply in_map|apply Nat.eqb_refl]. }
    assert (Hr : forall i, In i r <-> i < K /\ ~ In i s). { intro i. unfold r. rewrite filter_In, in_seq, negb_true_iff, <- Hin. destruct (is_in i (map Some s)); intuition (lia || congruence). }
    assert (Pr : Permutation (s ++ r) (seq 0 K)).
    { apply NoDup_Permutation; [|apply seq_NoDup|].
      - assert (Nr : NoDup r) by (apply NoDup_filter, seq_NoDup). assert (Hd : forall i, In i s -> In i r -> False) by (intros i I J; apply Hr in J; tauto). clearbody r. clear - Ns Nr Hd. induction Ns as [|x s Nx Ns IH]; auto. cbn. constructor; [rewrite in_app_iff; intros [I|I]; [auto|exact (Hd x (or_introl eq_refl) I)]|]. apply IH. intros i I. apply Hd. now right.
      - intro i. rewrite in_app_iff, in_seq, Hr. split; [intros [I|[I _]]; [apply Bs in I|]; lia|intros [_ I]]. destruct (in_dec Nat.eq_dec i s); [now left|right; split; [lia|auto]]. }
    split; [|split; [exact Ls|split; [exact Pr|split; [|split; [reflexivity|]]]]].
    + intros fuel Hf. unfold plot_mutual_info. rewrite Es by exact Hf. cbn [bind]. fold r.
      assert (Ec : mapM (fun o : option nat => match o with Some j => Ok j | None => Err IndexError end) (map Some s) = Ok s) by (rewrite angle_vq.mapM_map; clear; induction s as [|j s IH]; cbn; [reflexivity|rewrite IH; reflexivity]).
      rewrite Ec. cbn [bind]. rewrite (take_cols_ok m s W) by (rewrite EK; exact Bs). cbn [bind]. rewrite (take_cols_ok m r W) by (intros j I; apply Hr in I; lia). cbn [bind]. f_equal. f_equal; [now rewrite map_app|].
      rewrite plots_proof.combine_map, map_map. apply map_ext. intro row. cbn [fst snd]. now rewrite map_app.
    + unfold r. clear. generalize 0. induction K as [|K IH]; intro a; [constructor|]. cbn [seq filter]. assert (F : Forall (lt a) (filter (fun i => negb (is_in i (map Some s))) (seq (S a) K))).
      { rewrite Forall_forall. intros x I. apply filter_In in I as [I _]. apply in_seq in I. lia. }
      destruct (negb _); [constructor; auto|auto].
    + intros s' Hs'. specialize (Os s' Hs'). unfold gain, cost in *. rewrite !cost_negative in Os. apply Qopp_le_compat in Os. now rewrite !Qopp_involutive in Os.
Qed.
(** With more labels than coefficients a row has no column, and the drawing fails. *)
Lemma plot_tall (m : Qmatrix) n K : wf_matrix m -> nrows m = n -> mcols m = K -> 0 < K -> K < n ->
  forall fuel, 2 * n < fuel -> plot_mutual_info fuel K m = Err IndexError.
Proof.
  intros W En EK Pk Lt fuel Hf. destruct (C02_tall_optimal (negative m) n K) as (r & Er & (Lr & Pr) & _); auto.
  - unfold wf_matrix in *. cbn [negative mrows mcols]. rewrite Forall_forall in *. intros x I. apply in_map_iff in I as (r0 & <- & I). rewrite map_length. auto.
  - unfold nrows in *. cbn [negative mrows]. now rewrite map_length.
  - unfold plot_mutual_info. rewrite Er by exact Hf. cbn [bind].
    assert (X : mapM (fun o : option nat => match o with Some j => Ok j | None => Err IndexError end) r = Err IndexError); [|rewrite X; reflexivity].
    apply Permutation_length in Pr. rewrite seq_length in Pr. assert (Q : length (columns_of r) < length r) by lia. clear - Q. unfold columns_of in Q. induction r as [|[j|] r IH]; [cbn in Q; lia| |reflexivity]. cbn [flat_map app length] in Q. cbn [mapM bind]. rewrite IH by lia. reflexivity.
Qed.
