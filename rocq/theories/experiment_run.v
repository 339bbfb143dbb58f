(** * Proofs about whole runs of experiment.py. *)

From Coq Require Import List ZArith Reals Bool Arith String Permutation Sorted Lia Lra.
Import ListNotations.
From Verif Require Import Py Py_proof ListUtil pairing_model pairing_spec pairing_proof evaluation_model evaluation_spec evaluation_proof
  utils_model utils_spec utils_proof logger_model logger_spec logger_proof nd_model nd_spec nd_proof sparse_model metrics_model
  nmf_model nmf_spec nmf_laws learner_model learner_spec learner_proof learner_more
  experiment_model experiment_spec experiment_proof experiment_coefs experiment_ready experiment_eval experiment_log experiment_keys.
From Coq Require Import QArith Qreals.
Notation Q := QArith_base.Q.
Open Scope py_scope.
Local Open Scope nat_scope.
Notation length := List.length.
Notation val := (logger_model.val nd).
Notation world := (logger_model.world nd).

Notation F2_len := pairing_proof.Forall2_len.

(** ** Writing several values. *)
Definition writes (f : world -> world * result unit) (kv : list (string * val)) : Prop :=
  forall w m d, current w m d -> NoDup (map fst d) ->
    (NoDup (map fst d ++ map fst kv) -> exists w', f w = (w', Ok tt) /\ current w' m (d ++ kv)) /\
    (~ NoDup (map fst d ++ map fst kv) -> exists w', f w = (w', Err ValueError)).
Lemma nodup_snoc (l : list string) k : NoDup l -> (NoDup (l ++ [k]) <-> ~ In k l).
Proof.
  intro N. split.
  - intros H I. apply in_split in I as (a & b & ->). rewrite <- app_assoc in H. apply NoDup_remove_2 in H. apply H. rewrite !in_app_iff. cbn. auto.
  - intro H. apply NoDup_app_intro; auto; [repeat constructor; auto|]. intros s I [<-|[]]. auto.
Qed.
Lemma writes_store_result k v : writes (fun w => store_result w 0 k v) [(k, v)].
Proof.
  intros w m d C N. destruct (store_result_current w m d k v C) as [A B]. cbn [map fst]. rewrite (nodup_snoc _ k N). split; intro H.
  - exact (B H).
  - exists w. apply A. destruct (in_dec string_dec k (map fst d)); tauto.
Qed.
Lemma writes_store k v : writes (fun w => store w 0 k v) [(k, v)].
Proof.
  intros w m d C N. destruct (store_current w m d k v C) as [A B]. cbn [map fst]. rewrite (nodup_snoc _ k N). split; intro H.
  - exact (B H).
  - exists w. apply A. destruct (in_dec string_dec k (map fst d)); tauto.
Qed.
Lemma writes_bind f g kv kv' : writes f kv -> writes g kv' -> writes (fun w => wbind (f w) (fun w _ => g w)) (kv ++ kv').
Proof.
  intros F G w m d C N. destruct (F w m d C N) as [A B]. rewrite map_app, app_assoc.
  destruct (ListDec.NoDup_dec string_dec (map fst d ++ map fst kv)) as [Y|Y].
  - destruct (A Y) as (w1 & -> & C1). cbn [wbind]. destruct (G w1 m _ C1) as [A' B']; [now rewrite map_app|]. rewrite map_app in A', B'. split; intro H.
    + destruct (A' H) as (w2 & -> & C2). exists w2. rewrite app_assoc. auto.
    + exact (B' H).
  - split; intro H.
    + exfalso. apply Y. revert H. generalize (map fst d ++ map fst kv). generalize (map fst kv'). clear. intros b a H. induction a as [|s a IH]; [constructor|].
      cbn in H. inversion H; subst. constructor; auto. intro I. apply H2. apply in_or_app. auto.
    + destruct (B Y) as (w1 & ->). cbn. eauto.
Qed.
Lemma writes_nil : writes (fun w => (w, Ok tt)) [].
Proof. intros w m d C N. cbn. rewrite app_nil_r. split; [|tauto]. exists w. now rewrite app_nil_r. Qed.
Lemma writes_wfold {A} (f : world -> A -> world * result unit) l kvs : Forall2 (fun a kv => writes (fun w => f w a) kv) l kvs -> writes (wfold f l) (List.concat kvs).
Proof.
  induction 1 as [|a kv l kvs H F IH]; cbn [wfold List.concat]; [exact writes_nil|]. exact (writes_bind (fun w => f w a) (wfold f l) kv (List.concat kvs) H IH).
Qed.
Lemma forall2_exists {A B} (R : A -> B -> Prop) l : (forall a, In a l -> exists b, R a b) -> exists bs, Forall2 R l bs.
Proof.
  induction l as [|a l IH]; intro H; [exists []; constructor|]. destruct (H a (or_introl eq_refl)) as [b Hb].
  destruct IH as [bs F]; [intros; apply H; now right|]. exists (b :: bs). now constructor.
Qed.

(** ** The data of an experiment. *)
Definition widths (x : experiment) : list nat := map (fun ld => kept_cols x (cols_of (ld_data ld))) (x_loaders x).
Definition data_ok (x : experiment) (n : nat) (zs : list matrix) : Prop := Forall2 (fun d z => fits n d z /\ nonneg (mvalue z)) (widths x) zs.

Lemma take_all ds n zs idx : Forall2 (fun d z => fits n d z /\ nonneg (mvalue z)) ds zs -> (forall i, In i idx -> i < n) ->
  exists ys, mapM (fun z => take_rows z idx) zs = Ok ys /\ Forall2 (fun z y => take_rows z idx = Ok y) zs ys /\
    Forall2 (fun d y => fits (length idx) d y /\ nonneg (mvalue y)) ds ys.
Proof.
  intros F H. induction F as [|d z ds zs [Fz Nz] F IH]; cbn [mapM]; [exists []; auto|].
  destruct (take_rows_exists z idx) as [y Ey]; [rewrite (rows_fits _ _ _ Fz); auto|]. destruct IH as (ys & Eys & G & Gy). rewrite Ey. cbn [bind]. rewrite Eys. cbn [bind].
  exists (y :: ys). split; auto. split; constructor; auto. pose proof (take_rows_fits _ _ _ _ _ Fz Ey) as Fy. split; auto.
  pose proof (fits_mshape _ _ _ Fz) as Sz. pose proof (fits_mshape _ _ _ Fy) as Sy. apply mshape_value in Sz, Sy.
  apply (nonneg2 _ _ _ Sy). intros i j Hi Hj. destruct (nth_error idx i) as [t|] eqn:Et; [|apply nth_error_None in Et; lia].
  rewrite (proj2 (take_rows_value _ _ _ Ey) i t Et j). apply (proj1 (nonneg2 _ _ _ Sz) Nz); auto. apply H. eapply nth_error_In; eauto.
Qed.

Section Run.
Context (rd : random) (x : experiment) (p : prepared) (Sd : sound x) (G : legal x rd) (B : prepared_by rd x p).

Lemma n_mods : length (x_loaders x) = length (x_mods x).
Proof using Sd. apply Sd. Qed.
Lemma widths_length : length (widths x) = length (x_mods x).
Proof using Sd. unfold widths. rewrite map_length. apply n_mods. Qed.

Lemma zs_ok idx zs : Forall2 (fun y z => take_rows y idx = Ok z) (if x_debug x then map crop (pb_raw _ _ _ B) else pb_raw _ _ _ B) zs ->
  (forall i, In i idx -> i < length (p_labels_all p)) -> data_ok x (length idx) zs.
Proof using Sd G.
  intros F Hi. unfold data_ok.
  assert (Lr : length (pb_raw _ _ _ B) = length (x_loaders x)).
  { rewrite <- (F2_len _ _ _ (pb_data _ _ _ B)), enumerate_length, map_length. auto. }
  assert (Lz : length zs = length (x_loaders x)).
  { rewrite <- (F2_len _ _ _ F). destruct (x_debug x); now rewrite ?map_length. }
  assert (H : forall m ld z, nth_error (x_loaders x) m = Some ld -> nth_error zs m = Some z -> fits (length idx) (kept_cols x (cols_of (ld_data ld))) z /\ nonneg (mvalue z)).
  { intros m ld z Em Ez. assert (Il : In ld (x_loaders x)) by (eapply nth_error_In; eauto). pose proof Sd as (_ & _ & _ & Fd & _). destruct (Fd ld Il) as [[d Fl] Nl].
    assert (Hm : m < length (x_loaders x)) by (apply nth_error_Some; congruence).
    destruct (nth_error (pb_raw _ _ _ B) m) as [y|] eqn:Ey; [|apply nth_error_None in Ey; lia].
    pose proof (F2_at _ _ _ m (m, ld_data ld) y (pb_data _ _ _ B)) as T. rewrite nth_error_enumerate, nth_error_map, Em in T. destruct (T eq_refl Ey) as (ix & _ & E2). cbn [fst snd] in E2.
    pose proof (take_rows_fits _ _ _ _ _ Fl E2) as Fy.
    set (y' := if x_debug x then crop y else y).
    assert (Ey' : nth_error (if x_debug x then map crop (pb_raw _ _ _ B) else pb_raw _ _ _ B) m = Some y'). { unfold y'. destruct (x_debug x); auto. now rewrite nth_error_map, Ey. }
    pose proof (F2_at _ _ _ m y' z F Ey' Ez) as Tz. cbn beta in Tz.
    assert (Fy' : exists n', fits n' (kept_cols x d) y'). { unfold y', kept_cols. destruct (x_debug x); [eexists; eapply crop_fits; eauto|eauto]. }
    destruct Fy' as [n' Fy']. rewrite (cols_fits _ _ _ Fl). pose proof (take_rows_fits _ _ _ _ _ Fy' Tz) as Fz. split; auto.
    destruct (rows_value rd x p G B idx zs m ld F Hi Em) as (z' & Ez' & Rz & Vz). rewrite Ez in Ez'. injection Ez' as <-.
    pose proof (mshape_value _ _ _ (fits_mshape _ _ _ Fz)) as Sz. apply (nonneg2 _ _ _ Sz). intros i j Hi' Hj.
    destruct (nth_error idx i) as [t|] eqn:Et; [|apply nth_error_None in Et; lia]. rewrite (cols_fits _ _ _ Fl) in Vz. rewrite (Vz i t Et j Hj).
    pose proof (mshape_value _ _ _ (fits_mshape _ _ _ Fl)) as Sl. apply (proj1 (nonneg2 _ _ _ Sl) Nl).
    - apply (source_bound rd x p G B m ld t Em). pose proof (kept_rows_le rd x p G B). specialize (Hi t (nth_error_In _ _ Et)). lia.
    - unfold kept_cols in Hj. destruct (x_debug x); lia. }
  revert Lz H. unfold widths. generalize (x_loaders x) as lds. clear -zs. revert zs. fix IH 1. intros [|z zs] [|ld lds] L H; try discriminate; constructor.
  - exact (H 0 ld z eq_refl eq_refl).
  - apply IH; [now injection L|]. intros m ld' z' E E'. exact (H (S m) ld' z' E E').
Qed.
Lemma others_bound i : In i (p_others p) -> i < length (p_labels_all p).
Proof using B. rewrite (pb_others _ _ _ B). intro I. apply filter_In in I as [I _]. apply in_seq in I. lia. Qed.
Lemma data_ok_others : data_ok x (length (p_others p)) (p_data p).
Proof using Sd G B. exact (zs_ok _ _ (pb_data_others _ _ _ B) others_bound). Qed.
Lemma data_ok_ex : data_ok x (length (p_examples p)) (p_data_ex p).
Proof using Sd G B. apply (zs_ok _ _ (pb_data_ex _ _ _ B)). apply (examples_facts rd x p G B). Qed.
Lemma labels_length : length (p_labels p) = length (p_others p).
Proof using B. symmetry. exact (F2_len _ _ _ (pb_labels_others _ _ _ B)). Qed.
Lemma labels_ex_length : length (p_labels_ex p) = length (p_examples p).
Proof using B. symmetry. exact (F2_len _ _ _ (pb_labels_ex _ _ _ B)). Qed.
Lemma samples_length : length (p_labels p) = kept_rows x (length (p_pairing p)) - length (r_label_set rd).
Proof using G B.
  rewrite labels_length. destruct (examples_facts rd x p G B) as (_ & _ & _ & Le). destruct (others_facts rd x p G B) as [P _].
  apply Permutation_length in P. rewrite app_length, seq_length, (all_rows rd x p G B) in P. lia.
Qed.

(** Rows of the data of examples and of test samples. *)
Lemma ex_data_of m y : nth_error (p_data_ex p) m = Some y -> data_of x p (p_examples p) m y.
Proof using Sd G B.
  intro E. destruct (nth_error (x_loaders x) m) as [ld|] eqn:Em.
  - destruct (rows_value rd x p G B (p_examples p) (p_data_ex p) m ld (pb_data_ex _ _ _ B)) as (z & Ez & R); auto; [apply (examples_facts rd x p G B)|].
    rewrite E in Ez. injection Ez as <-. exists ld. auto.
  - apply nth_error_None in Em. assert (m < length (p_data_ex p)) by (apply nth_error_Some; congruence).
    pose proof (F2_len _ _ _ data_ok_ex) as L. unfold widths in L. rewrite map_length in L. lia.
Qed.
Lemma taken_data_of te ys m y : (forall t, In t te -> t < length (p_labels p)) -> Forall2 (fun z y => take_rows z te = Ok y) (p_data p) ys -> nth_error ys m = Some y ->
  data_of x p (samples_of p te) m y.
Proof using Sd G B.
  intros Ht F E. assert (Hm : m < length ys) by (apply nth_error_Some; congruence). rewrite <- (F2_len _ _ _ F) in Hm.
  destruct (nth_error (p_data p) m) as [z|] eqn:Ez; [|apply nth_error_None in Ez; lia]. pose proof (F2_at _ _ _ m z y F Ez E) as T. cbn beta in T.
  assert (Em : exists ld, nth_error (x_loaders x) m = Some ld).
  { destruct (nth_error (x_loaders x) m) as [ld|] eqn:Em; [eauto|]. apply nth_error_None in Em. pose proof (F2_len _ _ _ data_ok_others) as L. unfold widths in L. rewrite map_length in L. lia. }
  destruct Em as [ld Em]. destruct (rows_value rd x p G B (p_others p) (p_data p) m ld (pb_data_others _ _ _ B) others_bound Em) as (z' & Ez' & Sz & Vz).
  rewrite Ez in Ez'. injection Ez' as <-. exists ld. split; auto. apply take_rows_value in T as [Sy Vy].
  assert (C : cols_of z = kept_cols x (cols_of (ld_data ld))) by (unfold cols_of at 1; now rewrite Sz). rewrite C in Sy.
  split; [unfold samples_of; now rewrite map_length|]. intros i s Es j Hj. unfold samples_of in Es. rewrite nth_error_map in Es.
  destruct (nth_error te i) as [t|] eqn:Et; [|discriminate]. injection Es as <-. rewrite (Vy i t Et j). apply Vz; auto.
  apply nth_error_nth'. rewrite <- labels_length. apply Ht. eapply nth_error_In; eauto.
Qed.

(** ** The learner. *)
Lemma cols_map n zs : data_ok x n zs -> map cols_of zs = widths x.
Proof using Type. unfold data_ok. induction 1 as [|d z ds zs [F _] _ IH]; cbn; auto. now rewrite (cols_fits _ _ _ F), IH. Qed.
Lemma learner_facts : let l := new_learner x p in well_formed l /\ mods l = x_mods x /\ dims l = widths x /\ lk l = x_k x /\ sparseness l = false /\
  forall m, In m (x_mods x) -> (0 <= coef_of l m)%R.
Proof using Sd G B.
  unfold new_learner, learner_new. cbn [mods dims coefs lk sparseness]. rewrite (cols_map _ _ data_ok_others).
  destruct (coefs_ok x Sd) as (cs & Ec & Lc & Nc). rewrite (pb_coefs _ _ _ B) in Ec. injection Ec as <-. pose proof Sd as (Nd & _).
  unfold well_formed. cbn [mods dims coefs]. split; [split; auto; split; auto using widths_length|]. split; auto. split; auto. split; auto. split; auto.
  intros m I. apply In_nth_error in I as [q Eq]. unfold coef_of. cbn [mods coefs]. pose proof (assoc_nth 0%R m (x_mods x) (p_coefs p) q Nd Lc Eq) as E.
  rewrite Forall_forall in Nc. apply Nc. eapply nth_error_In; eauto.
Qed.

Section Trained.
Context (l : learner) (d : nd) (W : well_formed l) (Em : mods l = x_mods x) (Ed : dims l = widths x) (Ek : lk l = x_k x) (T : trained l d) (Nd : nonneg d).
Context (Nc : forall m, In m (x_mods x) -> (0 <= coef_of l m)%R).

Lemma fits_mods n zs : data_ok x n zs -> Forall2 (fun m z => fits n (dim_of l m) z /\ nonneg (mvalue z)) (mods l) zs.
Proof using W Ed.
  unfold data_ok. rewrite <- Ed, (dims_map l W). generalize (mods l). clear. intro ms. revert zs. induction ms as [|m ms IH]; intros zs F; inversion F; subst; constructor; auto.
Qed.
Lemma mod_at m : m < length (x_mods x) -> nth_error (mods l) m = Some (mod_name (x_mods x) m).
Proof using Em. intro H. rewrite Em. unfold mod_name. now apply nth_error_nth'. Qed.
Lemma multi_ok n zs ms : data_ok x n zs -> ms <> [] -> (forall m, In m ms -> m < length (x_mods x)) ->
  exists ys, Forall2 (fun m y => nth_error zs m = Some y) ms ys /\
    forall rnd, exists i, reconstruct_internal_multi rnd 0 l (map (mod_name (x_mods x)) ms) ys (x_iter_test x) = Ok i /\ shape i = [n; x_k x] /\ nonneg i.
Proof using Sd W Em Ed Ek T Nd Nc.
  intros D Ne Hm. pose proof (fits_mods n zs D) as F.
  assert (Y : exists ys, Forall2 (fun m y => nth_error zs m = Some y /\ fits n (dim_of l (mod_name (x_mods x) m)) y /\ nonneg (mvalue y)) ms ys).
  { apply forall2_exists. intros m I. specialize (Hm m I). destruct (pairing_proof.Forall2_nth _ _ _ F m _ (mod_at m Hm)) as (y & Ey & Fy). exists y. auto. }
  destruct Y as [ys Y]. exists ys. split; [eapply Forall2_impl; [|exact Y]; cbn; tauto|]. intro rnd. pose proof Sd as (_ & _ & _ & _ & _ & _ & Hk & _ & Hi).
  destruct (internal_value l W n (map (mod_name (x_mods x)) ms) ys) with (d := d) (rnd := rnd) (c := 0) (it := x_iter_test x) as (i & Ei & Si & Ni & _); auto.
  - destruct ms; [tauto|discriminate].
  - apply Forall_forall. intros s I. apply in_map_iff in I as (m & <- & I). rewrite Em. apply name_in. auto.
  - clear -Y. induction Y as [|m y ms ys (_ & H & _) Y IH]; cbn; constructor; auto.
  - intros s I. apply in_map_iff in I as (m & <- & I). apply Nc, name_in. auto.
  - clear -Y. induction Y as [|m y ms ys (_ & _ & H) Y IH]; constructor; auto.
  - lia.
  - rewrite Ek in Si. eauto.
Qed.
Lemma single_ok n zs m z : data_ok x n zs -> nth_error zs m = Some z ->
  forall rnd, exists i, reconstruct_internal rnd 0 l (mod_name (x_mods x) m) z (x_iter_test x) = Ok i /\ shape i = [n; x_k x] /\ nonneg i.
Proof using Sd W Em Ed Ek T Nd Nc.
  intros D E rnd. assert (Hm : m < length (x_mods x)). { rewrite <- widths_length. rewrite (F2_len _ _ _ D). apply nth_error_Some. congruence. }
  destruct (multi_ok n zs [m] D) as (ys & F & H); [discriminate|intros ? [<-|[]]; auto|]. inversion F as [|? y ? ys' E' F']; subst. inversion F'; subst.
  rewrite E in E'. injection E' as <-. exact (H rnd).
Qed.

(** The tables of transformed data. *)
Definition seen (n : nat) (zs : list matrix) (m : nat) (cmp : option nat) (y : matrix) : Prop :=
  exists i, (exists rnd z, nth_error zs m = Some z /\ reconstruct_internal rnd 0 l (mod_name (x_mods x) m) z (x_iter_test x) = Ok i) /\ shape i = [n; x_k x] /\ nonneg i /\
    match cmp with
    | None => y = Dense i
    | Some c => if c =? m then nth_error zs m = Some y else exists r, reconstruct_modality l (mod_name (x_mods x) c) i = Ok r /\ y = Dense r
    end.
Definition width_of (cmp : option nat) : nat := match cmp with None => x_k x | Some c => nth c (widths x) 0 end.
Lemma transformations_ok rnd call n zs : data_ok x n zs -> exists t, all_transformations rnd call l x zs = Ok t /\
  forall m cmp, m < length (x_mods x) -> match cmp with None => True | Some c => c < length (x_mods x) end ->
    exists y, transformed t m cmp = Ok y /\ seen n zs m cmp y /\ shape (mvalue y) = [n; width_of cmp].
Proof using Sd W Em Ed Ek T Nd Nc.
  intro D. pose proof (F2_len _ _ _ D) as Lz. rewrite widths_length in Lz. unfold all_transformations.
  assert (I1 : exists ints, all_internals rnd call l x zs = Ok ints).
  { apply mapM_exists. intros [m z] I. apply In_nth_error in I as [m' E]. rewrite nth_error_enumerate in E. destruct (nth_error zs m') as [z'|] eqn:Ez; [|discriminate].
    injection E as <- <-. cbn [fst snd]. assert (Hm : m' < length (x_mods x)) by (rewrite Lz; apply nth_error_Some; congruence).
    pose proof (mod_at m' Hm) as A. rewrite Em in A. rewrite (py_nth_ok _ _ _ A). cbn [bind]. destruct (single_ok n zs m' z' D Ez (rnd (call + m'))) as (i & Ei & _). eauto. }
  destruct I1 as [ints Ei]. rewrite Ei. cbn [bind]. unfold all_internals in Ei. pose proof (mapM_length _ _ _ Ei) as Li. rewrite enumerate_length in Li. apply mapM_ok in Ei.
  assert (HI : forall m, m < length (x_mods x) -> exists z i, nth_error zs m = Some z /\ nth_error ints m = Some i /\
      reconstruct_internal (rnd (call + m)) 0 l (mod_name (x_mods x) m) z (x_iter_test x) = Ok i /\ shape i = [n; x_k x] /\ nonneg i).
  { intros m Hm. destruct (nth_error zs m) as [z|] eqn:Ez; [|apply nth_error_None in Ez; lia]. destruct (nth_error ints m) as [i|] eqn:Eint; [|apply nth_error_None in Eint; lia].
    exists z, i. split; auto. split; auto. pose proof (F2_at _ _ _ m (m, z) i Ei) as X. rewrite nth_error_enumerate, Ez in X. specialize (X eq_refl Eint). cbn [fst snd] in X.
    pose proof (mod_at m Hm) as A. rewrite Em in A. rewrite (py_nth_ok _ _ _ A) in X. cbn [bind] in X. split; auto.
    destruct (single_ok n zs m z D Ez (rnd (call + m))) as (i' & E' & S' & N'). rewrite X in E'. injection E' as <-. auto. }
  set (F := fun i => bind (py_nth zs (Z.of_nat i)) (fun own => bind (py_nth ints (Z.of_nat i)) (fun int =>
    bind (mapM (fun o => if o =? i then Ok own else bind (reconstruct_modality l (mod_name (x_mods x) o) int) (fun r => Ok (Dense r))) (seq 0 (length (x_mods x)))) (fun row => Ok (row ++ [Dense int]))))).
  assert (HR : forall m, m < length (x_mods x) -> exists row i, F m = Ok row /\ length row = S (length (x_mods x)) /\ nth_error row (length (x_mods x)) = Some (Dense i) /\
     seen n zs m None (Dense i) /\ shape i = [n; x_k x] /\
     forall c, c < length (x_mods x) -> exists y, nth_error row c = Some y /\ seen n zs m (Some c) y /\ shape (mvalue y) = [n; nth c (widths x) 0]).
  { intros m Hm. destruct (HI m Hm) as (z & i & Ez & Eint & Er & Si & Ni). unfold F. rewrite (py_nth_ok _ _ _ Ez), (py_nth_ok _ _ _ Eint). cbn [bind].
    assert (S0 : exists rnd0 z0, nth_error zs m = Some z0 /\ reconstruct_internal rnd0 0 l (mod_name (x_mods x) m) z0 (x_iter_test x) = Ok i) by (exists (rnd (call + m)), z; auto).
    assert (HC : forall c, c < length (x_mods x) -> exists y, (if c =? m then Ok z else bind (reconstruct_modality l (mod_name (x_mods x) c) i) (fun r => Ok (Dense r))) = Ok y /\
        seen n zs m (Some c) y /\ shape (mvalue y) = [n; nth c (widths x) 0]).
    { intros c Hc. assert (Dc : nth_error (widths x) c = Some (dim_of l (mod_name (x_mods x) c))) by (rewrite <- Ed; exact (dim_nth l W c _ (mod_at c Hc))).
      rewrite (nth_error_nth _ _ _ Dc). destruct (Nat.eqb_spec c m) as [->|N].
      - exists z. split; auto. split; [exists i; split; auto; split; auto; split; auto; now rewrite Nat.eqb_refl|].
        destruct (F2_at _ _ _ m _ z D Dc Ez) as [Fz _]. apply mshape_value, fits_mshape, Fz.
      - destruct (modality_value l W d T n i) with (q := c) (m := mod_name (x_mods x) c) as (r & E' & Sr & _); [rewrite Ek; auto|now apply mod_at|].
        rewrite E'. cbn [bind]. exists (Dense r). split; auto. split; auto. exists i. split; auto. split; auto. split; auto. rewrite (proj2 (Nat.eqb_neq c m) N). eauto. }
    destruct (mapM_exists (fun o => if o =? m then Ok z else bind (reconstruct_modality l (mod_name (x_mods x) o) i) (fun r => Ok (Dense r))) (seq 0 (length (x_mods x)))) as [row Erow].
    { intros c I. apply in_seq in I. destruct (HC c) as (y & Ey & _); [lia|]. eauto. }
    rewrite Erow. cbn [bind]. pose proof (mapM_length _ _ _ Erow) as Lrow. rewrite seq_length in Lrow. apply mapM_ok in Erow.
    exists (row ++ [Dense i]), i. split; auto. split; [rewrite app_length; cbn; lia|]. split; [rewrite nth_error_app2 by lia; now rewrite Lrow, Nat.sub_diag|].
    split; [exists i; auto|]. split; auto. intros c Hc. destruct (HC c Hc) as (y & Ey & Sy & Wy). exists y. split; auto. rewrite nth_error_app1 by lia.
    destruct (nth_error row c) as [y'|] eqn:Ey'; [|apply nth_error_None in Ey'; lia]. pose proof (F2_at _ _ _ c c y' Erow) as X.
    rewrite X in Ey; auto; [congruence|]. rewrite (nth_error_nth' _ 0) by (rewrite seq_length; auto). now rewrite seq_nth. }
  destruct (mapM_exists F (seq 0 (length (x_mods x)))) as [t Et]. { intros m I. apply in_seq in I. destruct (HR m) as (row & i & E & _); [lia|]. eauto. }
  rewrite Et. exists t. split; auto. intros m cmp Hm Hc. destruct (HR m Hm) as (row & i & Erow & Lrow & Elast & Snone & Si & Hrow).
  pose proof (mapM_length _ _ _ Et) as Lt. rewrite seq_length in Lt. apply mapM_ok in Et.
  assert (Etm : nth_error t m = Some row).
  { destruct (nth_error t m) as [row'|] eqn:E'; [|apply nth_error_None in E'; lia]. pose proof (F2_at _ _ _ m m row' Et) as X. rewrite X in Erow; auto; [congruence|].
    rewrite (nth_error_nth' _ 0) by (rewrite seq_length; auto). now rewrite seq_nth. }
  unfold transformed. rewrite (py_nth_ok _ _ _ Etm). cbn [bind]. destruct cmp as [c|].
  - destruct (Hrow c Hc) as (y & Ey & Sy & Wy). exists y. rewrite (py_nth_ok _ _ _ Ey). auto.
  - exists (Dense i). rewrite py_nth_last, Lrow. cbn [Nat.sub]. rewrite Nat.sub_0_r, Elast. auto.
Qed.
End Trained.
End Run.
