(** * Proofs about the checks on floating-point data. *)

From Coq Require Import List ZArith Reals Permutation Bool Lia Lra Sorted.
From Flocq Require Import Core BinarySingleNaN.
Import ListNotations.
From Verif Require Import Py Py_proof finite_model finite_spec.
Open Scope py_scope.

Section Floats.
Context {prec emax : Z} {Hprec : Prec_gt_0 prec} {Hmax : Prec_lt_emax prec emax}.
Notation F := (binary_float prec emax).

Lemma ordinary_finite (x : F) : ordinary x <-> is_finite x = true.
Proof.
  unfold ordinary. destruct x as [s|s| |s m e H]; cbn; split; intros K; try discriminate; try reflexivity.
  - split; [discriminate|]. intros; discriminate.
  - destruct K as [_ K]. exfalso. now apply (K s).
  - destruct K as [K _]. now exfalso.
  - split; [discriminate|]. intros; discriminate.
Qed.

Lemma plus_finite (x y : F) : is_finite (Bplus mode_NE x y) = true -> is_finite x = true /\ is_finite y = true.
Proof.
  destruct x as [s|s| |s m e H], y as [s'|s'| |s' m' e' H']; cbn; intros K; try discriminate; try (split; reflexivity).
  destruct (Bool.eqb s s'); discriminate.
Qed.

Lemma added_finite a (l : list F) : is_finite (added a l) = true ->
  forall k, In k (taken a) -> is_finite (nth k l (B754_zero false)) = true.
Proof.
  induction a as [|k|a IHa b IHb]; cbn; intros H k' Hk.
  - contradiction.
  - destruct Hk as [<-|[]]. exact H.
  - apply plus_finite in H. apply in_app_or in Hk. destruct Hk as [Hk|Hk]; [now apply IHa|now apply IHb].
Qed.

Lemma all_finite_sum order (l : list F) : adds_each order -> is_finite (added (order (length l)) l) = true ->
  forallb is_finite l = true.
Proof.
  intros Ho H. apply forallb_forall. intros x Hx.
  destruct (In_nth l x (B754_zero false) Hx) as (k & Hk & <-).
  apply (added_finite _ _ H). apply (Permutation_in k (Permutation_sym (Ho (length l)))).
  apply in_seq. lia.
Qed.

Lemma assert_finite order (l : list F) : adds_each order ->
  assert_all_finite order (Floats l) = if forallb is_finite l then Ok tt else Err ValueError.
Proof.
  intros Ho. unfold assert_all_finite. destruct (forallb is_finite l) eqn:E.
  - now rewrite andb_false_r.
  - destruct (is_finite (added (order (length l)) l)) eqn:G; [|reflexivity].
    rewrite (all_finite_sum order l Ho G) in E. discriminate.
Qed.

Lemma forallb_ordinary (l : list F) : forallb is_finite l = true <-> (forall x, In x l -> ordinary x).
Proof.
  rewrite forallb_forall. split; intros H x Hx; apply ordinary_finite, H, Hx.
Qed.

Lemma assert_ok order (l : list F) : adds_each order ->
  (assert_all_finite order (Floats l) = Ok tt <-> forall x, In x l -> ordinary x).
Proof.
  intros Ho. rewrite (assert_finite order l Ho), <- forallb_ordinary. destruct (forallb is_finite l); split; congruence.
Qed.

Lemma assert_err order (l : list F) : adds_each order ->
  (assert_all_finite order (Floats l) = Err ValueError <-> exists x, In x l /\ ~ ordinary x).
Proof.
  intros Ho. rewrite (assert_finite order l Ho). destruct (forallb is_finite l) eqn:E.
  - split; [discriminate|]. intros (x & Hx & N). exfalso. apply N. exact (proj1 (forallb_ordinary l) E x Hx).
  - split; [intros _|reflexivity].
    assert (G : existsb (fun x => negb (is_finite x)) l = true).
    { revert E. induction l as [|a l IH]; cbn; [discriminate|]. destruct (is_finite a); cbn; auto. }
    apply existsb_exists in G. destruct G as (x & Hx & N). exists x. split; [exact Hx|].
    rewrite ordinary_finite. destruct (is_finite x); [discriminate|congruence].
Qed.

(** ** Signs *)

Lemma below_real (x : F) : is_finite x = true -> (Bltb x (B754_zero false) = true <-> (B2R x < 0)%R).
Proof.
  intros H. rewrite (Bltb_correct _ _ x (B754_zero false) H eq_refl). cbn [B2R].
  destruct (Rlt_bool_spec (B2R x) 0); split; intros; try discriminate; try reflexivity; lra.
Qed.

Lemma floats_usable (l : list F) :
  forallb is_finite l = true /\ existsb (fun x => Bltb x (B754_zero false)) l = false <-> (forall x, In x l -> usable x).
Proof.
  induction l as [|a l IH]; cbn.
  - split; [intros _ x []|auto].
  - rewrite andb_true_iff, orb_false_iff. split.
    + intros [[Ha Hl] [Na Nl]] x [<-|Hx].
      * split; [now apply ordinary_finite|]. apply Rnot_lt_le. intros C. apply (below_real _ Ha) in C. congruence.
      * apply IH; auto.
    + intros H. destruct (H a (or_introl eq_refl)) as [Ha Pa]. apply ordinary_finite in Ha.
      destruct (proj2 IH (fun x Hx => H x (or_intror Hx))) as [Hl Nl]. repeat split; auto.
      destruct (Bltb a (B754_zero false)) eqn:E; [|reflexivity]. apply (below_real _ Ha) in E. lra.
Qed.

Lemma accepted order (v : @values prec emax) : adds_each order ->
  (assert_all_finite order v = Ok tt /\ below_zero v = false) <-> all_usable v.
Proof.
  intros Ho. destruct v as [l|l]; cbn [below_zero all_usable].
  - rewrite <- floats_usable, (assert_finite order l Ho). destruct (forallb is_finite l); split; intros [H1 H2]; split; congruence.
  - unfold assert_all_finite. induction l as [|a l IH]; cbn.
    + split; [intros _ x []|auto].
    + rewrite orb_false_iff. split.
      * intros [_ [Na Nl]] x [<-|Hx]; [lia|]. apply IH; auto.
      * intros H. split; [reflexivity|]. split; [specialize (H a (or_introl eq_refl)); lia|].
        apply IH. auto.
Qed.

Lemma assert_only order (v : @values prec emax) : assert_all_finite order v = Ok tt \/ assert_all_finite order v = Err ValueError.
Proof. destruct v; cbn; [|auto]. destruct (_ && _); auto. Qed.

(** [checked] for data that needs no conversion. *)
Lemma checked_ok order (x y : data) (n m : nat) : adds_each order ->
  match x with
  | Coo n m l => Ok (Csr n m (tocsr l))
  | Csr n m l => Ok (Csr n m l)
  | Array _ _ => array2d x
  end = Ok y ->
  forall r, checked order x = Ok r <-> all_usable (numbers y) /\ exists n m, shape_of y = [n; m] /\ r = (y, n, m).
Proof.
  intros Ho Hy r. unfold checked, atleast2d_or_csr. rewrite Hy. cbn [bind]. rewrite <- (accepted order (numbers y) Ho).
  unfold check_non_negative.
  destruct (assert_only order (numbers y)) as [E|E]; rewrite E; cbn [bind].
  - destruct (below_zero (numbers y)); cbn [bind].
    + split; [discriminate|]. intros [[_ H] _]. discriminate.
    + destruct (shape_of y) as [|a [|b [|c s]]]; (split; [intros H; try discriminate|intros (_ & n' & m' & G & R); try discriminate]).
      * injection H as <-. split; [auto|]. exists a, b. auto.
      * injection G as -> ->. now rewrite R.
  - split; [discriminate|]. intros [[H _] _]. discriminate.
Qed.

Lemma checked_array order shape (v : @values prec emax) r : adds_each order ->
  (checked order (Array shape v) = Ok r <->
   all_usable v /\ exists n m, r = (Array [n; m] v, n, m) /\
     (shape = [] /\ n = 1%nat /\ m = 1%nat \/ shape = [m] /\ n = 1%nat \/ shape = [n; m])).
Proof.
  intros Ho. rewrite (checked_ok order (Array shape v) (Array (atleast_2d shape) v) 0 0 Ho eq_refl). cbn [numbers shape_of].
  apply and_iff_compat_l.
  split.
  - intros (n & m & E & ->). exists n, m. rewrite E. split; [reflexivity|].
    destruct shape as [|a [|b [|c s]]]; cbn in E; try discriminate; injection E as <- <-; auto.
  - intros (n & m & -> & [(-> & -> & ->)|[(-> & ->)| -> ]]); eexists; eexists; cbn; split; reflexivity.
Qed.

Lemma checked_csr order n m l r : adds_each order ->
  (checked order (Csr n m l) = Ok r <-> (forall x, In x (map snd l) -> usable x) /\ r = (@Csr prec emax n m l, n, m)).
Proof.
  intros Ho. rewrite (checked_ok order (Csr n m l) (Csr n m l) 0 0 Ho eq_refl). cbn [numbers shape_of all_usable].
  apply and_iff_compat_l. split.
  - intros (a & b & E & ->). now injection E as <- <-.
  - intros ->. eauto.
Qed.

Lemma checked_error order (x : @data prec emax) e : checked order x = Err e -> e = ValueError.
Proof.
  unfold checked, atleast2d_or_csr, array2d, check_non_negative.
  assert (K : forall y : @data prec emax, (bind (bind (assert_all_finite order (numbers y)) (fun _ => Ok y)) (fun x => bind (if below_zero (numbers x) then Err ValueError else Ok tt)
     (fun _ => match shape_of x with [n; m] => Ok (x, n, m) | _ => Err ValueError end))) = Err e -> e = ValueError).
  { intros y. destruct (assert_only order (numbers y)) as [E|E]; rewrite E; cbn [bind]; [|congruence].
    destruct (below_zero (numbers y)); cbn [bind]; [congruence|].
    destruct (shape_of y) as [|a [|b [|c s]]]; congruence. }
  destruct x; cbn [bind]; apply K.
Qed.

(** ** Conversion to rows *)

Definition at_place (i j : nat) (e : @entry prec emax) : bool := Nat.eqb (fst (fst e)) i && Nat.eqb (snd (fst e)) j.

Definition ordered (l : list (@entry prec emax)) : Prop := StronglySorted before l.

Lemma before_trans (a b c : @entry prec emax) : before a b -> before b c -> before a c.
Proof. destruct a as [[i j] v], b as [[i' j'] v'], c as [[i'' j''] v'']. cbn. lia. Qed.

Lemma store_head i j v (l : list (@entry prec emax)) e : before e (i, j, v) -> Forall (before e) l -> Forall (before e) (store i j v l).
Proof.
  intros He. assert (Hb : forall w, before e (i, j, w)) by (destruct e as [[a b] u]; intros w; exact He).
  induction l as [|[[i' j'] v'] l IH]; cbn [store]; intros H.
  - apply Forall_cons; [apply Hb|apply Forall_nil].
  - assert (Ha := Forall_inv H). assert (Hl := Forall_inv_tail H). destruct (_ && _); [|destruct (_ || _)];
      repeat (apply Forall_cons; [solve [apply Hb | assumption]|]); try assumption. now apply IH.
Qed.

Lemma store_ordered i j v (l : list (@entry prec emax)) : ordered l -> ordered (store i j v l).
Proof.
  unfold ordered. induction l as [|[[i' j'] v'] l IH]; cbn [store]; intros H.
  - repeat constructor.
  - inversion H as [|? ? Hl Ha]; subst.
    destruct (Nat.eqb_spec i i') as [Ei|Ei], (Nat.eqb_spec j j') as [Ej|Ej]; cbn [andb orb].
    + subst. constructor; [exact Hl|]. revert Ha. apply Forall_impl. intros [[a b] w]. cbn. auto.
    + subst i'. destruct (Nat.ltb_spec i i); [lia|]. cbn [orb]. destruct (Nat.ltb_spec j j').
      * constructor; [exact H|]. constructor; [cbn; lia|]. revert Ha. apply Forall_impl. intros a. apply before_trans. cbn. lia.
      * constructor; [apply IH; exact Hl|]. apply store_head; [cbn; lia|exact Ha].
    + destruct (Nat.ltb_spec i i'); cbn [orb].
      * constructor; [exact H|]. constructor; [cbn; lia|]. revert Ha. apply Forall_impl. intros a. apply before_trans. cbn. lia.
      * constructor; [apply IH; exact Hl|]. apply store_head; [cbn; lia|exact Ha].
    + destruct (Nat.ltb_spec i i'); cbn [orb].
      * constructor; [exact H|]. constructor; [cbn; lia|]. revert Ha. apply Forall_impl. intros a. apply before_trans. cbn. lia.
      * constructor; [apply IH; exact Hl|]. apply store_head; [cbn; lia|exact Ha].
Qed.

(** The value stored at a place of an ordered list. *)
Lemma store_other i j v (l : list (@entry prec emax)) a b w : (a, b) <> (i, j) -> (In (a, b, w) (store i j v l) <-> In (a, b, w) l).
Proof.
  intros N. induction l as [|[[i' j'] v'] l IH]; cbn [store In].
  - split; [intros [H|[]]|intros []]. congruence.
  - destruct (Nat.eqb_spec i i') as [Ei|Ei], (Nat.eqb_spec j j') as [Ej|Ej]; cbn [andb orb];
      try (destruct (_ || _)); cbn [In]; try rewrite IH; split; intros; intuition (try congruence).
Qed.

Lemma ordered_once (l : list (@entry prec emax)) a b v w : ordered l -> In (a, b, v) l -> In (a, b, w) l -> v = w.
Proof.
  unfold ordered. induction l as [|[[i j] u] l IH]; cbn; intros H Hv Hw; [contradiction|].
  inversion H as [|? ? Hl Ha]; subst. rewrite Forall_forall in Ha.
  destruct Hv as [Ev|Hv], Hw as [Ew|Hw].
  - congruence.
  - injection Ev as -> -> ->. specialize (Ha _ Hw). cbn in Ha. lia.
  - injection Ew as -> -> ->. specialize (Ha _ Hv). cbn in Ha. lia.
  - now apply IH.
Qed.

Lemma store_here i j v (l : list (@entry prec emax)) w : ordered l ->
  (In (i, j, w) (store i j v l) <-> (exists u, In (i, j, u) l /\ w = Bplus mode_NE u v) \/ (~ (exists u, In (i, j, u) l)) /\ w = v).
Proof.
  unfold ordered. induction l as [|[[i' j'] v'] l IH]; cbn [store]; intros H.
  - cbn. split.
    + intros [E|[]]. right. split; [intros (u & [])|congruence].
    + intros [(u & [] & _)|[_ ->]]. auto.
  - inversion H as [|? ? Hl Ha]; subst. rewrite Forall_forall in Ha.
    destruct (Nat.eqb_spec i i') as [Ei|Ei], (Nat.eqb_spec j j') as [Ej|Ej]; cbn [andb orb].
    + subst i' j'. cbn [In].
      assert (Nl : forall u, ~ In (i, j, u) l) by (intros u Hu; specialize (Ha _ Hu); cbn in Ha; lia).
      split.
      * intros [E|E]; [|now apply Nl in E]. left. exists v'. split; [auto|congruence].
      * intros [(u & [E|E] & ->)|[N _]]; [left; congruence|now apply Nl in E|]. exfalso. apply N. eauto.
    + subst i'. destruct (Nat.ltb_spec i i); [lia|]. cbn [orb]. destruct (Nat.ltb_spec j j').
      * assert (Nl : forall u, ~ In (i, j, u) ((i, j', v') :: l)) by (intros u [E|E]; [congruence|specialize (Ha _ E); cbn in Ha; lia]).
        split.
        -- intros [E|E]; [|now apply Nl in E]. right. split; [intros (u & E'); now apply Nl in E'|congruence].
        -- intros [(u & E & _)|[_ ->]]; [now apply Nl in E|]. now left.
      * cbn [In]. rewrite (IH Hl). split.
        -- intros [E|[(u & E & ->)|[N ->]]]; [congruence|left; eauto|]. right. split; [|reflexivity].
           intros (u & [E|E]); [congruence|]. eauto.
        -- intros [(u & [E|E] & ->)|[N ->]]; [congruence|right; left; eauto|]. right. right. split; [|reflexivity].
           intros (u & E). eauto.
    + destruct (Nat.ltb_spec i i'); cbn [orb].
      * assert (Nl : forall u, ~ In (i, j, u) ((i', j', v') :: l)) by (intros u [E|E]; [congruence|specialize (Ha _ E); cbn in Ha; lia]).
        split.
        -- intros [E|E]; [|now apply Nl in E]. right. split; [intros (u & E'); now apply Nl in E'|congruence].
        -- intros [(u & E & _)|[_ ->]]; [now apply Nl in E|]. now left.
      * cbn [In]. rewrite (IH Hl). split.
        -- intros [E|[(u & E & ->)|[N ->]]]; [congruence|left; eauto|]. right. split; [|reflexivity].
           intros (u & [E|E]); [congruence|]. eauto.
        -- intros [(u & [E|E] & ->)|[N ->]]; [congruence|right; left; eauto|]. right. right. split; [|reflexivity].
           intros (u & E). eauto.
    + destruct (Nat.ltb_spec i i'); cbn [orb].
      * assert (Nl : forall u, ~ In (i, j, u) ((i', j', v') :: l)) by (intros u [E|E]; [congruence|specialize (Ha _ E); cbn in Ha; lia]).
        split.
        -- intros [E|E]; [|now apply Nl in E]. right. split; [intros (u & E'); now apply Nl in E'|congruence].
        -- intros [(u & E & _)|[_ ->]]; [now apply Nl in E|]. now left.
      * cbn [In]. rewrite (IH Hl). split.
        -- intros [E|[(u & E & ->)|[N ->]]]; [congruence|left; eauto|]. right. split; [|reflexivity].
           intros (u & [E|E]); [congruence|]. eauto.
        -- intros [(u & [E|E] & ->)|[N ->]]; [congruence|right; left; eauto|]. right. right. split; [|reflexivity].
           intros (u & E). eauto.
Qed.

Lemma stored_at_app (l : list (@entry prec emax)) e i j :
  stored_at (l ++ [e]) i j = stored_at l i j ++ (if at_place i j e then [snd e] else []).
Proof.
  unfold stored_at. rewrite filter_app, map_app. cbn [filter]. fold (at_place i j e). now destruct (at_place i j e).
Qed.

Lemma sum_nil (s : F) : ~ sum_is [] s.
Proof. intros H. inversion H as [|l s' x Hs E]. now destruct l. Qed.

Lemma sum_snoc (l : list F) x s : sum_is (l ++ [x]) s <-> (l = [] /\ s = x) \/ exists u, sum_is l u /\ s = Bplus mode_NE u x.
Proof.
  split.
  - intros H. inversion H as [y E|l' u y Hu E].
    + left. destruct l as [|a [|b l]]; cbn in E; try discriminate. now injection E as ->.
    + apply app_inj_tail in E. destruct E as [-> ->]. right. exists u. auto.
  - intros [[-> ->]|(u & Hu & ->)]; [constructor|now constructor].
Qed.

Lemma sum_exists (l : list F) : l <> [] -> exists s, sum_is l s.
Proof.
  induction l as [|x l IH] using rev_ind; intros H; [congruence|].
  destruct l as [|a l]; [exists x; constructor|]. destruct IH as (s & Hs); [discriminate|].
  eexists. apply sum_snoc. right. eauto.
Qed.

Lemma tocsr_ok (l : list (@entry prec emax)) :
  ordered (tocsr l) /\ forall i j v, In (i, j, v) (tocsr l) <-> sum_is (stored_at l i j) v.
Proof.
  unfold tocsr. induction l as [|[[a b] u] l IH] using rev_ind.
  - split; [constructor|]. intros i j v. cbn. split; [intros []|apply sum_nil].
  - rewrite fold_left_app. cbn [fold_left fst snd]. destruct IH as [Ho IH].
    set (t := fold_left _ l []) in *. split; [now apply store_ordered|].
    intros i j v. rewrite stored_at_app. unfold at_place. cbn [fst snd].
    destruct (Nat.eqb_spec a i) as [Ei|Ei], (Nat.eqb_spec b j) as [Ej|Ej]; cbn [andb].
    + subst. rewrite (store_here i j u t v Ho), sum_snoc.
      split.
      * intros [(w & Hw & ->)|[N ->]].
        -- right. exists w. split; [now apply IH|reflexivity].
        -- left. split; [|reflexivity]. destruct (stored_at l i j) as [|c q] eqn:E; [reflexivity|].
           destruct (sum_exists (c :: q) ltac:(discriminate)) as (s & Hs). rewrite <- E in Hs. exfalso. apply N. exists s. now apply IH.
      * intros [[E ->]|(w & Hw & ->)].
        -- right. split; [|reflexivity]. intros (w & Hw). apply IH in Hw. rewrite E in Hw. now apply sum_nil in Hw.
        -- left. exists w. split; [now apply IH|reflexivity].
    + rewrite app_nil_r, <- IH. apply store_other. congruence.
    + rewrite app_nil_r, <- IH. apply store_other. congruence.
    + rewrite app_nil_r, <- IH. apply store_other. congruence.
Qed.

Lemma checked_coo order n m l r : adds_each order ->
  (checked order (Coo n m l) = Ok r <->
   (forall i j s, sum_is (stored_at l i j) s -> usable s) /\ r = (@Csr prec emax n m (tocsr l), n, m)).
Proof.
  intros Ho. rewrite (checked_ok order (Coo n m l) (Csr n m (tocsr l)) 0 0 Ho eq_refl). cbn [numbers shape_of all_usable].
  destruct (tocsr_ok l) as [Hs Hv].
  assert (K : (forall x, In x (map snd (tocsr l)) -> usable x) <-> (forall i j s, sum_is (stored_at l i j) s -> usable s)).
  { split.
    - intros H i j s Hs'. apply H. apply in_map_iff. exists (i, j, s). split; [reflexivity|]. now apply Hv.
    - intros H x Hx. apply in_map_iff in Hx. destruct Hx as ([[i j] v] & <- & Hx). apply (H i j). now apply Hv. }
  rewrite K. apply and_iff_compat_l. split.
  - intros (a & b & E & ->). now injection E as <- <-.
  - intros ->. eauto.
Qed.

Lemma checked_coo_result order n m l y n' m' : adds_each order -> checked order (Coo n m l) = Ok (y, n', m') ->
  n' = n /\ m' = m /\ exists l', y = @Csr prec emax n m l' /\ StronglySorted before l' /\
    (forall i j v, In (i, j, v) l' <-> sum_is (stored_at l i j) v).
Proof.
  intros Ho H. apply (checked_coo order n m l _ Ho) in H. destruct H as [_ E]. injection E as -> -> ->.
  split; [reflexivity|]. split; [reflexivity|]. exists (tocsr l). destruct (tocsr_ok l). auto.
Qed.

(** With places stored once nothing is added. *)
Lemma stored_once (l : list (@entry prec emax)) i j v : places_once l -> In (i, j, v) l -> stored_at l i j = [v].
Proof.
  unfold places_once. induction l as [|[[a b] u] l IH]; cbn; intros H Hv; [contradiction|].
  inversion H as [|? ? Na Hl]; subst. unfold stored_at. cbn [filter fst snd].
  assert (Z : forall a b, ~ In (a, b) (map fst l) -> stored_at l a b = []).
  { clear. intros a b N. unfold stored_at. induction l as [|[[c d] w] l IH]; [reflexivity|]. cbn in *.
    destruct (Nat.eqb_spec c a), (Nat.eqb_spec d b); cbn; try (apply IH; tauto). subst. exfalso. apply N. auto. }
  destruct Hv as [E|Hv].
  - injection E as -> -> ->. rewrite !Nat.eqb_refl. cbn. f_equal. apply (Z i j Na).
  - destruct (Nat.eqb_spec a i), (Nat.eqb_spec b j); cbn; try (apply IH; assumption).
    subst. exfalso. apply Na. apply in_map_iff. now exists (i, j, v).
Qed.

Lemma in_stored (l : list (@entry prec emax)) i j v : In v (stored_at l i j) -> In (i, j, v) l.
Proof.
  unfold stored_at. intros H. apply in_map_iff in H. destruct H as ([[a b] w] & <- & H). apply filter_In in H. cbn in *.
  destruct H as [H E]. apply andb_true_iff in E. destruct E as [Ea Eb]. apply Nat.eqb_eq in Ea, Eb. now subst.
Qed.

Lemma once_sum (l : list (@entry prec emax)) i j v : places_once l -> (sum_is (stored_at l i j) v <-> In (i, j, v) l).
Proof.
  intros H. split.
  - intros Hs. destruct (stored_at l i j) as [|u q] eqn:E; [now apply sum_nil in Hs|].
    assert (Hu : In (i, j, u) l) by (apply in_stored; rewrite E; now left).
    rewrite (stored_once l i j u H Hu) in E. injection E as <-.
    apply (sum_snoc [] u v) in Hs. destruct Hs as [[_ ->]|(w & Hw & _)]; [exact Hu|now apply sum_nil in Hw].
  - intros Hv. rewrite (stored_once l i j v H Hv). constructor.
Qed.

Lemma ordered_nodup (l : list (@entry prec emax)) : ordered l -> NoDup l.
Proof.
  unfold ordered. induction l as [|e l IH]; intros H; [constructor|]. inversion H as [|? ? Hl Ha]; subst.
  constructor; [|auto]. intros C. rewrite Forall_forall in Ha. specialize (Ha _ C). destruct e as [[i j] v]. cbn in Ha. lia.
Qed.

Lemma checked_coo_once order n m l : adds_each order -> places_once l ->
  (forall x, In x (map snd l) -> usable x) ->
  exists l', checked order (Coo n m l) = Ok (@Csr prec emax n m l', n, m) /\ Permutation l l'.
Proof.
  intros Ho H U. exists (tocsr l). split.
  - apply (checked_coo order n m l _ Ho). split; [|reflexivity]. intros i j s Hs. apply (once_sum l i j s H) in Hs.
    apply U. apply in_map_iff. now exists (i, j, s).
  - destruct (tocsr_ok l) as [Hs Hv]. apply NoDup_Permutation.
    + apply (NoDup_map_inv fst). exact H.
    + now apply ordered_nodup.
    + intros [[i j] v]. rewrite Hv. symmetry. now apply once_sum.
Qed.

Lemma checked_coo_refused order n m l x : adds_each order -> places_once l -> In x (map snd l) -> ~ usable x ->
  checked order (@Coo prec emax n m l) = Err ValueError.
Proof.
  intros Ho H Hx N. destruct (checked order (Coo n m l)) as [r|e] eqn:E.
  - apply (checked_coo order n m l r Ho) in E. destruct E as [U _]. exfalso. apply N.
    apply in_map_iff in Hx. destruct Hx as ([[i j] v] & <- & Hx). apply (U i j). now apply (once_sum l i j v H).
  - f_equal. exact (checked_error _ _ _ E).
Qed.
End Floats.

(** ** Cases in double precision *)

Definition double_prec : Prec_gt_0 53 := eq_refl.
Definition double_max : Prec_lt_emax 53 1024 := eq_refl.
(** The double nearest to m times 2 to the power e. *)
Definition double (m e : Z) : binary_float 53 1024 := binary_normalize 53 1024 double_prec double_max mode_NE m e false.

(** One element after the other. *)
Definition one_by_one (n : nat) : additions := fold_right (fun k a => Add (Element k) a) Zero (seq 0 n).
Lemma one_by_one_ok : adds_each one_by_one.
Proof.
  intros n. unfold one_by_one. generalize (seq 0 n). intros l. induction l as [|k l IH]; cbn; [constructor|now constructor].
Qed.

Lemma usable_compute (x : binary_float 53 1024) : is_finite x = true -> Bltb x (B754_zero false) = false -> usable x.
Proof.
  intros H N. split; [now apply ordinary_finite|]. apply Rnot_lt_le. intros C.
  apply (below_real x H) in C. congruence.
Qed.

Lemma coo_overflow : exists (order : nat -> additions) (l : list (@entry 53 1024)),
  adds_each order /\ (forall x, In x (map snd l) -> usable x) /\
  checked (Hprec := double_prec) (Hmax := double_max) order (Coo 1 1 l) = Err ValueError.
Proof.
  exists one_by_one, [(0%nat, 0%nat, double 1 1023); (0%nat, 0%nat, double 1 1023)].
  split; [apply one_by_one_ok|]. split; [|vm_compute; reflexivity].
  intros x [<-|[<-|[]]]; apply usable_compute; vm_compute; reflexivity.
Qed.

Lemma csr_parts : exists (order : nat -> additions) (l : list (@entry 53 1024)),
  adds_each order /\
  (forall i j s, sum_is (Hprec := double_prec) (Hmax := double_max) (stored_at l i j) s -> usable s) /\
  (exists s, sum_is (Hprec := double_prec) (Hmax := double_max) (stored_at l 0 0) s /\ B2R s = 1%R) /\
  checked (Hprec := double_prec) (Hmax := double_max) order (Csr 1 1 l) = Err ValueError.
Proof.
  exists one_by_one, [(0%nat, 0%nat, double 2 0); (0%nat, 0%nat, double (-1) 0)].
  assert (E : Bplus (prec_gt_0_ := double_prec) (prec_lt_emax_ := double_max) mode_NE (double 2 0) (double (-1) 0) = double 1 0).
  { apply B2SF_inj. vm_compute. reflexivity. }
  split; [apply one_by_one_ok|]. split; [|split; [|vm_compute; reflexivity]].
  - intros i j s H. unfold stored_at in H. cbn [filter map fst snd] in H.
    destruct (Nat.eqb 0 i), (Nat.eqb 0 j); cbn [andb filter map snd] in H; try (now apply sum_nil in H).
    apply (sum_snoc [double 2 0] (double (-1) 0) s) in H. destruct H as [[C _]|(u & Hu & ->)]; [discriminate|].
    apply (sum_snoc [] (double 2 0) u) in Hu. destruct Hu as [[_ ->]|(w & Hw & _)]; [|now apply sum_nil in Hw].
    rewrite E. apply usable_compute; vm_compute; reflexivity.
  - exists (double 1 0). split.
    + cbn [stored_at filter map fst snd Nat.eqb andb]. apply (sum_snoc [double 2 0] (double (-1) 0)). right. exists (double 2 0). split; [constructor|]. now rewrite E.
    + assert (B2SF (double 1 0) = SpecFloat.S754_finite false 4503599627370496 (-52)) as Hs by (vm_compute; reflexivity).
      rewrite <- SF2R_B2SF, Hs. unfold SF2R, F2R. cbn. lra.
Qed.

Lemma overflow_accepted : let l := [double 1 1023; double 1 1023] in
  checked (Hprec := double_prec) (Hmax := double_max) one_by_one (Array [2%nat] (Floats l)) = Ok (Array [1%nat; 2%nat] (Floats l), 1%nat, 2%nat).
Proof.
  intros l. apply checked_array; [apply one_by_one_ok|]. split; [|exists 1%nat, 2%nat; auto].
  intros x [<-|[<-|[]]]; apply usable_compute; vm_compute; reflexivity.
Qed.

Lemma coo_case : let l := [(1%nat, 1%nat, double 1 0); (0%nat, 1%nat, double 3 0); (1%nat, 1%nat, double (-1) (-1))] in
  exists l', checked (Hprec := double_prec) (Hmax := double_max) one_by_one (Coo 2 2 l) = Ok (Csr 2 2 l', 2%nat, 2%nat) /\
  map fst l' = [(0%nat, 1%nat); (1%nat, 1%nat)].
Proof.
  intros l. exists (tocsr (Hprec := double_prec) (Hmax := double_max) l). split; [|vm_compute; reflexivity].
  apply checked_coo; [apply one_by_one_ok|]. split; [|reflexivity].
  intros i j s H. apply tocsr_ok in H.
  assert (U : Forall (fun e => is_finite (snd e) = true /\ Bltb (snd e) (B754_zero false) = false) (tocsr (Hprec := double_prec) (Hmax := double_max) l)).
  { apply Forall_forall. intros e He.
    assert (G : forallb (fun e => is_finite (snd e) && negb (Bltb (snd e) (B754_zero false))) (tocsr (Hprec := double_prec) (Hmax := double_max) l) = true) by (vm_compute; reflexivity).
    rewrite forallb_forall in G. specialize (G e He). apply andb_true_iff in G. destruct G as [G1 G2]. split; [exact G1|].
    now apply negb_true_iff in G2. }
  rewrite Forall_forall in U. destruct (U _ H) as [U1 U2]. now apply usable_compute.
Qed.

Lemma zero_case : checked (Hprec := double_prec) (Hmax := double_max) one_by_one (Array [1%nat] (Floats [B754_zero true])) =
  Ok (Array [1%nat; 1%nat] (Floats [B754_zero true]), 1%nat, 1%nat).
Proof. vm_compute. reflexivity. Qed.
