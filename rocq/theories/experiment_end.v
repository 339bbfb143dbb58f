(** * Proofs about evaluations and whole runs of experiment.py. *)

From Coq Require Import List ZArith Reals Bool Arith String Permutation Sorted Lia Lra.
Import ListNotations.
From Verif Require Import Py Py_proof ListUtil pairing_model pairing_spec pairing_proof evaluation_model evaluation_spec evaluation_proof
  utils_model utils_spec utils_proof logger_model logger_spec logger_proof nd_model nd_spec nd_proof sparse_model metrics_model
  nmf_model nmf_spec nmf_laws learner_model learner_spec learner_proof learner_more
  experiment_model experiment_spec experiment_proof experiment_coefs experiment_ready experiment_eval experiment_log experiment_keys experiment_run.
From Coq Require Import QArith Qreals.
Notation Q := QArith_base.Q.
Open Scope py_scope.
Local Open Scope nat_scope.
Notation length := List.length.
Notation val := (logger_model.val nd).
Notation world := (logger_model.world nd).
Notation F2_len := pairing_proof.Forall2_len.

Lemma writes_ext f g kv : (forall w, f w = g w) -> writes g kv -> writes f kv.
Proof. intros E H w m d C N. rewrite E. exact (H w m d C N). Qed.
Lemma concat_keys {A} (P : A -> list (string * val) -> Prop) keyf l kvs :
  Forall2 (fun a kv => P a kv /\ map fst kv = keyf a) l kvs -> map fst (List.concat kvs) = flat_map keyf l.
Proof. induction 1 as [|a kv l kvs [_ E] F IH]; cbn; auto. now rewrite map_app, E, IH. Qed.
Lemma prod_map {A B C} (g : B -> C) (l : list A) m : list_prod l (map g m) = map (fun p => (fst p, g (snd p))) (list_prod l m).
Proof. induction l as [|a l IH]; cbn; auto. now rewrite IH, map_app, !map_map. Qed.
Lemma flat_map_map {A B C} (f : B -> list C) (g : A -> B) l : flat_map f (map g l) = flat_map (fun a => f (g a)) l.
Proof. induction l; cbn; congruence. Qed.
Lemma in_measures s : In s suffixes -> exists f, In (f, s) measures.
Proof. intro H. change suffixes with (map snd measures) in H. apply in_map_iff in H as ([f t] & <- & I). eauto. Qed.
Lemma F2_in_left {A B} (R : A -> B -> Prop) l l' a : Forall2 R l l' -> In a l -> exists b, In b l' /\ R a b.
Proof. induction 1; cbn; [tauto|]. intros [<-|I]; eauto. destruct (IHForall2 I) as (b & I' & H'). eauto. Qed.

Lemma nats_eqb_iff a b : nats_eqb a b = true <-> a = b.
Proof.
  unfold nats_eqb. rewrite andb_true_iff, Nat.eqb_eq. revert b. induction a as [|i a IH]; intros [|j b]; cbn; split; try tauto; try (intros [? ?]; discriminate); try discriminate.
  - intros [L H]. apply andb_true_iff in H as [E H]. apply Nat.eqb_eq in E as ->. injection L as L. f_equal. now apply IH.
  - intro E. injection E as -> E. split; [|apply andb_true_iff; split; [apply Nat.eqb_refl|]]; destruct (proj2 (IH b) E); congruence.
Qed.
Lemma nats_get_set {V} (d : list (list nat * V)) k v k' :
  dict_get nats_eqb (dict_set nats_eqb d k v) k' = if nats_eqb k k' then Some v else dict_get nats_eqb d k'.
Proof.
  induction d as [|[k0 v0] d IH]; cbn [dict_set dict_get]; [reflexivity|]. destruct (nats_eqb k0 k) eqn:E0; cbn [dict_get].
  - apply nats_eqb_iff in E0 as ->. destruct (nats_eqb k k'); reflexivity.
  - rewrite IH. destruct (nats_eqb k0 k') eqn:E1; [|reflexivity]. destruct (nats_eqb k k') eqn:E2; [|reflexivity].
    apply nats_eqb_iff in E1, E2. subst. assert (nats_eqb k' k' = true) by now apply nats_eqb_iff. congruence.
Qed.
Lemma enumerate_in {A} (l : list A) q : In q (enumerate l) -> In (snd q) l.
Proof. intro I. apply In_nth_error in I as [i E]. rewrite nth_error_enumerate in E. destruct (nth_error l i) eqn:X; [|discriminate]. injection E as <-. eapply nth_error_In; eauto. Qed.
Lemma in_enumerate {A} (l : list A) a : In a l -> exists i, In (i, a) (enumerate l).
Proof. intro I. apply In_nth_error in I as [i E]. exists i. apply (nth_error_In _ i). now rewrite nth_error_enumerate, E. Qed.

(** What a run adds to its dictionary. *)
Definition two_entries (x : experiment) (p : prepared) (l : learner) (te truth : list nat) (kv : list (string * val)) : Prop :=
  let n := length (x_mods x) in
  forall m1 m2 cmp s, m1 < n -> m2 < n -> match cmp with None => True | Some c => c < n end -> In s suffixes ->
    exists a b found v,
      represents x p l (samples_of p te) m1 cmp a /\ represents x p l (p_examples p) m2 cmp b /\
      nearest (comparison s) a b (p_labels_ex p) found /\ is_score truth found v /\
      In (found_key (x_mods x) m1 m2 cmp s, VNats found) kv /\ In (score_key (x_mods x) m1 m2 cmp s, v) kv.
Definition three_entries (x : experiment) (p : prepared) (l : learner) (te truth : list nat) (kv : list (string * val)) : Prop :=
  forall ms1 ms2 s, In (ms1, ms2) (tested_combinations (length (x_mods x))) -> In s suffixes ->
    exists a b found v,
      internal_of x p l (samples_of p te) ms1 a /\ internal_of x p l (p_examples p) ms2 b /\
      nearest (comparison s) a b (p_labels_ex p) found /\ is_score truth found v /\
      In (three_key (x_mods x) ms1 ms2 s, v) kv.

Section End.
Context (rd : random) (x : experiment) (p : prepared) (Sd : sound x) (G : legal x rd) (B : prepared_by rd x p).

Section Trained.
Context (l : learner) (d : nd) (W : well_formed l) (Em : mods l = x_mods x) (Ed : dims l = widths x) (Ek : lk l = x_k x) (T : trained l d) (Nd : nonneg d).
Context (Nc : forall m, In m (x_mods x) -> (0 <= coef_of l m)%R).

Lemma seen_represents samples zs m cmp y : (forall m y, nth_error zs m = Some y -> data_of x p samples m y) -> seen x l (length samples) zs m cmp y ->
  represents x p l samples m cmp (mvalue y).
Proof using Type.
  intros H (i & (rnd & z & Ez & Er) & Si & Ni & Hy). assert (I : internal_of x p l samples [m] i).
  { exists rnd, [z]. split; [constructor; [now apply H|constructor]|]. split; auto. }
  unfold represents. destruct cmp as [c|].
  - destruct (Nat.eqb_spec c m); [exists y; split; auto|]. destruct Hy as (r & E & ->). exists i. auto.
  - subst. exact I.
Qed.

Context (te truth : list nat) (ys : list matrix).
Context (Te : forall t, In t te -> t < length (p_labels p)) (Tne : te <> []) (Tr : labels_of p te truth) (Ty : Forall2 (fun z y => take_rows z te = Ok y) (p_data p) ys).
Context (Dy : data_ok x (length te) ys).

Lemma truth_length : length truth = length te.
Proof using Tr. symmetry. exact (F2_len _ _ _ Tr). Qed.
Lemma truth_ne : truth <> [].
Proof using Tr Tne. intro E. apply Tne. apply length_zero_iff_nil. rewrite <- truth_length, E. reflexivity. Qed.
Lemma ex_pos : 1 <= length (p_labels_ex p).
Proof using B Ek Te Tne.
  assert (It : exists t, In t te) by (clear -Tne; generalize dependent te; intros [|t t'] N; [now destruct N|exists t; now left]). destruct It as [t It]. pose proof (Te t It) as H. destruct (p_labels_ex p) as [|e es] eqn:E; [|cbn; lia].
  destruct (nth_error (p_labels p) t) as [lab|] eqn:El; [|apply nth_error_None in El; lia].
  assert (I : exists i, nth_error (p_labels_all p) i = Some lab).
  { pose proof (pb_labels_others _ _ _ B) as F. destruct (nth_error (p_others p) t) as [o|] eqn:Eo; [exists o; exact (F2_at _ _ _ t o lab F Eo El)|].
    apply nth_error_None in Eo. rewrite (F2_len _ _ _ F) in Eo. lia. }
  destruct I as [i I]. apply nth_error_In in I. apply (pb_a1 _ _ _ B) in I. rewrite E in I. destruct I.
Qed.

Lemma two_step_writes t_test t_ex m1 m2 cmp f s :
  (exists a, transformed t_test m1 cmp = Ok a /\ represents x p l (samples_of p te) m1 cmp (mvalue a) /\ shape (mvalue a) = [length te; width_of x cmp]) ->
  (exists b, transformed t_ex m2 cmp = Ok b /\ represents x p l (p_examples p) m2 cmp (mvalue b) /\ shape (mvalue b) = [length (p_examples p); width_of x cmp]) ->
  In (f, s) measures ->
  exists a b found v,
    represents x p l (samples_of p te) m1 cmp a /\ represents x p l (p_examples p) m2 cmp b /\ nearest (comparison s) a b (p_labels_ex p) found /\ is_score truth found v /\
    writes (fun w => two_step x t_test t_ex (p_labels_ex p) truth w (m1, m2, cmp) (f, s)) [(found_key (x_mods x) m1 m2 cmp s, VNats found); (score_key (x_mods x) m1 m2 cmp s, v)].
Proof using B Ek Te Tne Tr.
  intros (a & Ea & Ra & Sa) (b & Eb & Rb & Sb) I.
  destruct (classify_value a b (p_labels_ex p) f s _ _ _ I Sa Sb) as (found & Ef & Nf); [exact (labels_ex_length rd x p B)|rewrite <- (labels_ex_length rd x p B); exact ex_pos|].
  assert (Lf : length found = length truth) by (rewrite truth_length; exact (nearest_length _ _ _ _ _ _ _ Nf Sa)).
  exists (mvalue a), (mvalue b), found, (VScore (found_labels_to_score Nat.eqb truth found)).
  split; auto. split; auto. split; auto. split; [now apply score_value'; [apply truth_ne|]|].
  eapply writes_ext; [|exact (writes_bind _ _ _ _ (writes_store_result (found_key (x_mods x) m1 m2 cmp s) (VNats found)) (writes_store_result (score_key (x_mods x) m1 m2 cmp s) _))].
  intro w. unfold two_step. rewrite Ea, Eb. cbn [bind fst snd]. rewrite Ef. reflexivity.
Qed.

Lemma two_writes rnd : exists kv, map fst kv = two_keys (x_mods x) /\ writes (two_evaluate rnd x p l ys truth) kv /\ two_entries x p l te truth kv.
Proof using Sd G B W Em Ed Ek T Nd Nc Te Tne Tr Ty Dy.
  destruct (transformations_ok x Sd l d W Em Ed Ek T Nd Nc rnd 1 (length te) ys Dy) as (t1 & E1 & H1).
  destruct (transformations_ok x Sd l d W Em Ed Ek T Nd Nc rnd (S (length (x_mods x))) (length (p_examples p)) (p_data_ex p) (data_ok_ex rd x p Sd G B)) as (t2 & E2 & H2).
  assert (R1 : forall m cmp, m < length (x_mods x) -> match cmp with None => True | Some c => c < length (x_mods x) end ->
    exists a, transformed t1 m cmp = Ok a /\ represents x p l (samples_of p te) m cmp (mvalue a) /\ shape (mvalue a) = [length te; width_of x cmp]).
  { intros m cmp Hm Hc. destruct (H1 m cmp Hm Hc) as (a & Ea & Sa & Wa). exists a. split; auto. split; auto. apply (seen_represents _ ys).
    - intros m' y' Ey. exact (taken_data_of rd x p Sd G B te ys m' y' Te Ty Ey).
    - unfold samples_of. rewrite map_length. exact Sa. }
  assert (R2 : forall m cmp, m < length (x_mods x) -> match cmp with None => True | Some c => c < length (x_mods x) end ->
    exists a, transformed t2 m cmp = Ok a /\ represents x p l (p_examples p) m cmp (mvalue a) /\ shape (mvalue a) = [length (p_examples p); width_of x cmp]).
  { intros m cmp Hm Hc. destruct (H2 m cmp Hm Hc) as (a & Ea & Sa & Wa). exists a. split; auto. split; auto. apply (seen_represents _ (p_data_ex p)).
    - intros m' y' Ey. exact (ex_data_of rd x p Sd G B m' y' Ey).
    - exact Sa. }
  set (f := fun w c => two_step x t1 t2 (p_labels_ex p) truth w (fst c) (snd c)).
  set (keyf := fun c : (nat * nat * option nat) * ((nd -> nd -> Z -> result nd) * string) => let '(m1, m2, cmp) := fst c in
     [found_key (x_mods x) m1 m2 cmp (snd (snd c)); score_key (x_mods x) m1 m2 cmp (snd (snd c))]).
  destruct (forall2_exists (fun c kv => (writes (fun w => f w c) kv /\ let '(m1, m2, cmp) := fst c in exists a b found v,
      represents x p l (samples_of p te) m1 cmp a /\ represents x p l (p_examples p) m2 cmp b /\ nearest (comparison (snd (snd c))) a b (p_labels_ex p) found /\ is_score truth found v /\
      kv = [(found_key (x_mods x) m1 m2 cmp (snd (snd c)), VNats found); (score_key (x_mods x) m1 m2 cmp (snd (snd c)), v)]) /\ map fst kv = keyf c)
      (list_prod (two_combinations (length (x_mods x))) measures)) as [kvs F].
  { intros [[[m1 m2] cmp] [g s]] I. apply in_prod_iff in I as [I J]. apply in_combinations in I as (I1 & I2 & I3).
    destruct (two_step_writes t1 t2 m1 m2 cmp g s (R1 m1 cmp I1 I3) (R2 m2 cmp I2 I3) J) as (a & b & found & v & A1 & A2 & A3 & A4 & A5).
    eexists. split; [split; [exact A5|]|].
    - cbn [fst snd]. exists a, b, found, v. auto.
    - reflexivity. }
  exists (List.concat kvs). split; [|split].
  - rewrite (concat_keys _ _ _ _ F). unfold two_keys. change suffixes with (map snd measures). rewrite prod_map, flat_map_map. reflexivity.
  - eapply writes_ext; [|apply (writes_wfold f (list_prod (two_combinations (length (x_mods x))) measures) kvs)].
    + intro w. unfold two_evaluate. rewrite E1. cbn [lift wbind]. rewrite E2. reflexivity.
    + eapply Forall2_impl; [|exact F]. cbn beta. tauto.
  - intros m1 m2 cmp s Hm1 Hm2 Hc Hs. destruct (in_measures s Hs) as [g Ig].
    destruct (F2_in_left _ _ _ ((m1, m2, cmp), (g, s)) F) as (kv & Ikv & (_ & Hkv) & _); [apply in_prod_iff; split; auto; now apply in_combinations|].
    cbn [fst snd] in Hkv. destruct Hkv as (a & b & found & v & A1 & A2 & A3 & A4 & ->). exists a, b, found, v. repeat (split; auto); apply in_concat; eexists; (split; [exact Ikv|cbn; auto]).
Qed.

(** *** Three modalities. *)
Context (H2 : 2 <= length (x_mods x)).

Lemma three_internals_ok rnd call samples zs : data_ok x (length samples) zs -> (forall m y, nth_error zs m = Some y -> data_of x p samples m y) ->
  exists dd, three_internals rnd call l x zs = Ok dd /\
    forall a b, In (a, b) (tested_combinations (length (x_mods x))) -> exists i, lookup_internal dd a = Ok i /\ internal_of x p l samples a i.
Proof using Sd W Em Ed Ek T Nd Nc H2 te.
  intros D Hd. unfold three_internals.
  set (step := fun (dd : list (list nat * nd)) (q : nat * (list nat * list nat)) => _).
  assert (V : forall q, In q (enumerate (tested_combinations (length (x_mods x)))) -> valid_mods (x_mods x) (fst (snd q))).
  { intros q I. apply enumerate_in in I. destruct q as [i [a b]]. exact (proj1 (tested_valid (x_mods x) a b H2 I)). }
  assert (K : forall qs, (forall q, In q qs -> valid_mods (x_mods x) (fst (snd q))) -> forall d0, (forall k i, dict_get nats_eqb d0 k = Some i -> internal_of x p l samples k i) ->
    exists dd, foldM step qs d0 = Ok dd /\ (forall k i, dict_get nats_eqb dd k = Some i -> internal_of x p l samples k i) /\
      (forall q, In q qs -> exists i, dict_get nats_eqb dd (fst (snd q)) = Some i) /\ (forall k, dict_get nats_eqb d0 k <> None -> dict_get nats_eqb dd k <> None)).
  { clear V. induction qs as [|[i [ms ms']] qs IH]; intros V d0 I0; [exists d0; cbn; split; auto; split; auto; split; auto; tauto|].
    assert (Vq : valid_mods (x_mods x) ms) by exact (V _ (or_introl eq_refl)). destruct Vq as [Nm Vm].
    assert (S1 : exists d1, step d0 (i, (ms, ms')) = Ok d1 /\ (forall k j, dict_get nats_eqb d1 k = Some j -> internal_of x p l samples k j) /\ (exists j, dict_get nats_eqb d1 ms = Some j) /\
        (forall k, dict_get nats_eqb d0 k <> None -> dict_get nats_eqb d1 k <> None)).
    { unfold step. destruct (dict_get nats_eqb d0 ms) as [j|] eqn:E0; [exists d0; split; auto; split; auto; split; eauto|].
      destruct (multi_ok x Sd l d W Em Ed Ek T Nd Nc (length samples) zs ms D Nm Vm) as (ys' & Fy & Hi). destruct (Hi (rnd (call + i))) as (j & Ej & Sj & Nj).
      assert (M1 : mapM (fun m => py_nth (x_mods x) (Z.of_nat m)) ms = Ok (map (mod_name (x_mods x)) ms)).
      { clear -Vm. induction ms as [|m ms IH]; cbn [mapM map]; auto. rewrite IH by (intros; apply Vm; now right).
        erewrite (py_nth_ok _ m (mod_name (x_mods x) m)); [reflexivity|]. apply nth_error_nth'. apply Vm. now left. }
      assert (M2 : mapM (fun m => py_nth zs (Z.of_nat m)) ms = Ok ys').
      { clear -Fy. induction Fy as [|m y ms ys E F IH]; cbn [mapM]; auto. rewrite (py_nth_ok _ _ _ E). cbn [bind]. now rewrite IH. }
      rewrite M1. cbn [bind]. rewrite M2. cbn [bind]. rewrite Ej. cbn [bind]. eexists. split; [reflexivity|].
      assert (Rms : nats_eqb ms ms = true) by now apply nats_eqb_iff.
      split; [|split].
      - intros k j'. rewrite nats_get_set. destruct (nats_eqb ms k) eqn:Ek'; [|apply I0]. apply nats_eqb_iff in Ek' as <-. intro X. injection X as <-.
        exists (rnd (call + i)), ys'. split; [|auto]. eapply Forall2_impl; [|exact Fy]. intros m y. apply Hd.
      - exists j. now rewrite nats_get_set, Rms.
      - intros k X. rewrite nats_get_set. destruct (nats_eqb ms k); auto. discriminate. }
    destruct S1 as (d1 & E1 & I1 & (j1 & J1) & P1). cbn [foldM]. rewrite E1. cbn [bind].
    destruct (IH (fun q I => V q (or_intror I)) d1 I1) as (dd & Edd & Idd & Kdd & Pdd). exists dd. split; auto. split; auto. split; [|intros k X; auto].
    intros q [<-|I]; auto. cbn [fst snd]. specialize (Pdd ms). rewrite J1 in Pdd. destruct (dict_get nats_eqb dd ms); eauto. now destruct Pdd. }
  destruct (K _ V []) as (dd & E & I & Kd & _); [discriminate|]. exists dd. split; auto. intros a b Iab. apply in_enumerate in Iab as [i Iab].
  destruct (Kd _ Iab) as [j Ej]. cbn [fst snd] in Ej. exists j. split; [unfold lookup_internal; now rewrite Ej|exact (I a j Ej)].
Qed.
Lemma tested_sym n a b : In (a, b) (tested_combinations n) -> In (b, a) (tested_combinations n).
Proof using Type.
  rewrite !in_tested. intros [(m1 & m2 & H)|[(m & H)|(m & H)]]; [left; exists m2, m1|right; right; exists m|right; left; exists m]; intuition.
Qed.

Lemma three_writes rnd : exists kv, map fst kv = three_keys (x_mods x) /\ writes (three_evaluate rnd x p l ys truth) kv /\ three_entries x p l te truth kv.
Proof using Sd G B W Em Ed Ek T Nd Nc Te Tne Tr Ty Dy H2.
  assert (Ls : length (samples_of p te) = length te) by (unfold samples_of; now rewrite map_length).
  destruct (three_internals_ok rnd 1 (samples_of p te) ys) as (t1 & E1 & I1); [now rewrite Ls|intros m y E; exact (taken_data_of rd x p Sd G B te ys m y Te Ty E)|].
  destruct (three_internals_ok rnd (S (length (tested_combinations (length (x_mods x))))) (p_examples p) (p_data_ex p)) as (t2 & E2 & I2);
    [exact (data_ok_ex rd x p Sd G B)|intros m y E; exact (ex_data_of rd x p Sd G B m y E)|].
  set (f := fun w c => three_step x t1 t2 (p_labels_ex p) truth w (fst c) (snd c)).
  set (keyf := fun c : (list nat * list nat) * ((nd -> nd -> Z -> result nd) * string) => [three_key (x_mods x) (fst (fst c)) (snd (fst c)) (snd (snd c))]).
  destruct (forall2_exists (fun c kv => (writes (fun w => f w c) kv /\ exists a b found v,
      internal_of x p l (samples_of p te) (fst (fst c)) a /\ internal_of x p l (p_examples p) (snd (fst c)) b /\ nearest (comparison (snd (snd c))) a b (p_labels_ex p) found /\ is_score truth found v /\
      kv = [(three_key (x_mods x) (fst (fst c)) (snd (fst c)) (snd (snd c)), v)]) /\ map fst kv = keyf c)
      (list_prod (tested_combinations (length (x_mods x))) measures)) as [kvs F].
  { intros [[a b] [g s]] I. apply in_prod_iff in I as [I J]. cbn [fst snd]. destruct (I1 a b I) as (ia & Ea & Ra). destruct (I2 b a (tested_sym _ _ _ I)) as (ib & Eb & Rb).
    pose proof Ra as (_ & _ & _ & _ & Sa & _). pose proof Rb as (_ & _ & _ & _ & Sb & _). rewrite Ls in Sa.
    destruct (classify_value (Dense ia) (Dense ib) (p_labels_ex p) g s _ _ _ J Sa Sb) as (found & Ef & Nf); [exact (labels_ex_length rd x p B)|rewrite <- (labels_ex_length rd x p B); exact ex_pos|].
    assert (Lf : length found = length truth) by (rewrite truth_length; exact (nearest_length _ _ _ _ _ _ _ Nf Sa)).
    eexists. split; [split|].
    - eapply writes_ext; [|apply writes_store_result]. intro w. unfold f, three_step. cbn [fst snd]. rewrite Ea, Eb. cbn [bind]. rewrite Ef. reflexivity.
    - exists ia, ib, found, (VScore (found_labels_to_score Nat.eqb truth found)). split; auto. split; auto. split; auto. split; [now apply score_value'; [apply truth_ne|]|reflexivity].
    - reflexivity. }
  exists (List.concat kvs). split; [|split].
  - rewrite (concat_keys _ _ _ _ F). unfold three_keys. change suffixes with (map snd measures). rewrite prod_map, map_map. unfold keyf. cbn [fst snd].
    generalize (list_prod (tested_combinations (length (x_mods x))) measures). clear. intro q. induction q as [|c q IH]; cbn [flat_map map app]; [auto|now rewrite IH].
  - eapply writes_ext; [|apply (writes_wfold f (list_prod (tested_combinations (length (x_mods x))) measures) kvs)].
    + intro w. unfold three_evaluate. rewrite E1. cbn [lift wbind]. rewrite E2. reflexivity.
    + eapply Forall2_impl; [|exact F]. cbn beta. tauto.
  - intros ms1 ms2 s Hc Hs. destruct (in_measures s Hs) as [g Ig].
    destruct (F2_in_left _ _ _ ((ms1, ms2), (g, s)) F) as (kv & Ikv & (_ & Hkv) & _); [apply in_prod_iff; auto|].
    cbn [fst snd] in Hkv. destruct Hkv as (a & b & found & v & A1 & A2 & A3 & A4 & ->). exists a, b, found, v. repeat (split; auto). apply in_concat; eexists; (split; [exact Ikv|cbn; auto]).
Qed.
End Trained.

(** ** One run. *)
Lemma split_bounds n tr te : is_split n (tr, te) -> (forall t, In t tr -> t < n) /\ (forall t, In t te -> t < n).
Proof using Type.
  intro P. unfold is_split in P. cbn [fst snd] in P.
  split; intros t I; assert (J : In t (seq 0 n)) by (apply (Permutation_in t P), in_or_app; auto); apply in_seq in J; lia.
Qed.
Lemma all_data_of idx ys : (forall t, In t idx -> t < length (p_labels p)) -> Forall2 (fun z y => take_rows z idx = Ok y) (p_data p) ys ->
  Forall2 (data_of x p (samples_of p idx)) (seq 0 (length (x_mods x))) ys.
Proof using Sd G B.
  intros Hi F. assert (L : length ys = length (x_mods x)).
  { rewrite <- (F2_len _ _ _ F), <- (F2_len _ _ _ (data_ok_others rd x p Sd G B)). apply widths_length; auto. }
  assert (H : forall m y, nth_error ys m = Some y -> data_of x p (samples_of p idx) m y) by (intros m y E; exact (taken_data_of rd x p Sd G B idx ys m y Hi F E)).
  rewrite <- L. assert (K : forall zs s, (forall m y, nth_error zs m = Some y -> data_of x p (samples_of p idx) (s + m) y) -> Forall2 (data_of x p (samples_of p idx)) (seq s (length zs)) zs).
  { clear. induction zs as [|z zs IH]; intros s H; cbn; constructor.
    - specialize (H 0 z eq_refl). now rewrite Nat.add_0_r in H.
    - apply IH. intros m y E. specialize (H (S m) y E). now rewrite <- Nat.add_succ_comm in H. }
  apply K. exact H.
Qed.

Definition run_entries (tr te : list nat) (kv : list (string * val)) : Prop :=
  exists l d truth, In ("train"%string, VNats tr) kv /\ In ("test"%string, VNats te) kv /\
    trained_with x p (samples_of p tr) l d /\ In ("dictionary"%string, VArr d) kv /\ labels_of p te truth /\
    match x_kind x with Two => two_entries x p l te truth kv | Three => three_entries x p l te truth kv | Base => False end.

Lemma run_writes rnd tr te : x_kind x <> Base -> (x_kind x = Three -> 2 <= length (x_mods x)) -> is_split (length (p_labels p)) (tr, te) -> tr <> [] -> te <> [] ->
  exists kv, map fst kv = run_keys x /\ run_entries tr te kv /\
    exists f, writes f kv /\ forall w, perform_one_run rnd x p w (tr, te) = wbind (new_run w 0) (fun w _ => f w).
Proof using Sd G B.
  intros Hk H2 Hs Ntr Nte. destruct (split_bounds _ _ _ Hs) as [Htr Hte].
  pose proof (data_ok_others rd x p Sd G B) as D. pose proof (labels_length rd x p B) as Ll.
  destruct (take_all (widths x) (length (p_others p)) (p_data p) tr D) as (dtr & E1 & F1 & D1); [intros; rewrite <- Ll; auto|].
  destruct (take_all (widths x) (length (p_others p)) (p_data p) te D) as (dte & E2 & F2 & D2); [intros; rewrite <- Ll; auto|].
  assert (E3 : exists truth, mapM (fun t => py_nth (p_labels p) (Z.of_nat t)) te = Ok truth).
  { apply mapM_exists. intros t I. destruct (nth_error (p_labels p) t) as [lab|] eqn:E; [exists lab; now apply py_nth_ok|]. apply nth_error_None in E. specialize (Hte t I). lia. }
  destruct E3 as [truth E3]. assert (Tr : labels_of p te truth).
  { apply mapM_ok in E3. eapply Forall2_impl; [|exact E3]. intros t lab. apply py_nth_nat_ok. }
  destruct (learner_facts rd x p Sd G B) as (W & Em & Ed & Ek & Es & Nc). cbn zeta in *. set (l0 := new_learner x p) in *.
  pose proof Sd as (_ & Nm & Lm & _ & _ & _ & K1 & I1 & _).
  pose proof (fits_mods x l0 W Ed _ _ D1) as Fm.
  destruct (train_all (rnd 0) 0 l0 (length tr) dtr (x_iter_train x) W Es) as (l & d & Et & Wl & Ml & Dl & Cl & Kl & Tl & Ndl & _); auto.
  { eapply Forall2_impl; [|exact Fm]. cbn. tauto. }
  { clear -D1. induction D1 as [|? ? ? ? [_ H] _ IH]; constructor; auto. }
  rewrite Em in Ml. rewrite Ed in Dl. rewrite Ek in Kl.
  assert (Nc' : forall m, In m (x_mods x) -> (0 <= coef_of l m)%R). { intros m I. unfold coef_of. rewrite Ml, Cl. specialize (Nc m I). unfold coef_of in Nc. now rewrite Em in Nc. }
  assert (Tw : trained_with x p (samples_of p tr) l d).
  { exists (rnd 0), dtr. split; [exact (all_data_of tr dtr Htr F1)|]. split; auto. destruct Tl as [Td Sdd]. split; auto. split; auto. rewrite Sdd, Kl. f_equal. f_equal.
    change (map (fun ld => kept_cols x (cols_of (ld_data ld))) (x_loaders x)) with (widths x). rewrite <- Dl. unfold width. now rewrite <- (dims_map l Wl). }
  assert (EV : exists kv, map fst kv = match x_kind x with Two => two_keys (x_mods x) | Three => three_keys (x_mods x) | Base => [] end /\
     writes (evaluate rnd x p l dte truth) kv /\ match x_kind x with Two => two_entries x p l te truth kv | Three => three_entries x p l te truth kv | Base => False end).
  { unfold evaluate. destruct (x_kind x) eqn:Xk; [| |now destruct Hk].
    - exact (two_writes l d Wl Ml Dl Kl Tl Ndl Nc' te truth dte Hte Nte Tr F2 D2 rnd).
    - exact (three_writes l d Wl Ml Dl Kl Tl Ndl Nc' te truth dte Hte Nte Tr F2 D2 (H2 eq_refl) rnd). }
  destruct EV as (kv & Mk & Wk & Ek'). exists ([("train"%string, VNats tr)] ++ [("test"%string, VNats te)] ++ [("dictionary"%string, VArr d)] ++ kv).
  split; [unfold run_keys; cbn [map fst app]; now rewrite Mk|]. split.
  - exists l, d, truth. split; [now left|]. split; [cbn; auto|]. split; auto. split; [cbn; auto|]. split; auto. revert Ek'. destruct (x_kind x); intro H; [| |exact H].
    + intros m1 m2 cmp s A1 A2 A3 A4. destruct (H m1 m2 cmp s A1 A2 A3 A4) as (a & b & found & v & C1 & C2 & C3 & C4 & C5 & C6). exists a, b, found, v. repeat (split; auto); do 3 right; assumption.
    + intros ms1 ms2 s A1 A2. destruct (H ms1 ms2 s A1 A2) as (a & b & found & v & C1 & C2 & C3 & C4 & C5). exists a, b, found, v. repeat (split; auto); do 3 right; assumption.
  - eexists. split.
    + exact (writes_bind _ _ _ _ (writes_store "train" (VNats tr)) (writes_bind _ _ _ _ (writes_store "test" (VNats te)) (writes_bind _ _ _ _ (writes_store "dictionary" (VArr d)) Wk))).
    + intro w. unfold perform_one_run. destruct (new_run w 0) as [w1 [u|e]]; [|reflexivity]. cbn [wbind]. destruct (store w1 0 "train" (VNats tr)) as [w2 [u2|e]]; [|reflexivity]. cbn [wbind].
      destruct (store w2 0 "test" (VNats te)) as [w3 [u3|e]]; [|reflexivity]. cbn [wbind]. rewrite E1. cbn [lift wbind]. rewrite E2. cbn [lift wbind]. rewrite E3. cbn [lift wbind].
      fold l0. rewrite Et. cbn [lift wbind]. destruct Tl as [-> _]. reflexivity.
Qed.

Lemma entries_results tr te kv get : run_entries tr te kv -> (forall k v, In (k, v) kv -> get k = Some v) -> run_results x p tr te get.
Proof using Type.
  intros (l & d & truth & A1 & A2 & A3 & A4 & A5 & A6) H. exists l, d, truth. repeat (split; auto). destruct (x_kind x); auto.
  - intros m1 m2 cmp s B1 B2 B3 B4. destruct (A6 m1 m2 cmp s B1 B2 B3 B4) as (a & b & found & v & C1 & C2 & C3 & C4 & C5 & C6). exists a, b, found, v. repeat (split; auto).
  - intros ms1 ms2 s B1 B2. destruct (A6 ms1 ms2 s B1 B2) as (a & b & found & v & C1 & C2 & C3 & C4 & C5). exists a, b, found, v. repeat (split; auto).
Qed.

Context (Hk : x_kind x <> Base) (H2 : x_kind x = Three -> 2 <= length (x_mods x)).

Lemma one_run rnd w m tr te : ready w m -> is_split (length (p_labels p)) (tr, te) -> tr <> [] -> te <> [] ->
  exists w', ready w' (S m) /\ extends w w' /\
   (NoDup (run_keys x) -> perform_one_run rnd x p w (tr, te) = (w', Ok tt) /\ exists kv, run_entries tr te kv /\ forall k v, In (k, v) kv -> value_at w' 0 m k = Some v) /\
   (~ NoDup (run_keys x) -> perform_one_run rnd x p w (tr, te) = (w', Err ValueError)).
Proof using Sd G B Hk H2.
  intros R Hs Ntr Nte. destruct (run_writes rnd tr te Hk H2 Hs Ntr Nte) as (kv & Mk & En & f & Wf & Ep).
  destruct (one_run_logs rnd x p w m tr te R) as (w' & Ew & R' & X & _). exists w'. split; auto. split; auto.
  destruct (new_run_current w m R) as (w1 & E1 & C1 & _). rewrite Ep, E1 in *. cbn [wbind] in *.
  destruct (Wf w1 m [] C1) as [Ok' Bad]; [constructor|]. cbn [map app] in Ok', Bad. rewrite Mk in Ok', Bad. split; intro N.
  - destruct (Ok' N) as (w2 & E2 & C2). rewrite E2 in Ew. cbn in Ew. subst w2. split; auto. exists kv. split; auto. intros k v I. rewrite (current_value _ _ _ _ C2).
    apply get_in_iff; auto. now rewrite Mk.
  - destruct (Bad N) as (w2 & E2). rewrite E2 in Ew. cbn in Ew. now subst w2.
Qed.

Lemma all_runs (N : NoDup (run_keys x)) splits : (forall s, In s splits -> is_split (length (p_labels p)) s /\ fst s <> [] /\ snd s <> []) -> forall i w m, ready w m ->
  exists w', run_loop rd x p i splits w = (w', Ok tt) /\ ready w' (m + length splits) /\ extends w w' /\
    forall q tr te, nth_error splits q = Some (tr, te) -> exists kv, run_entries tr te kv /\ forall k v, In (k, v) kv -> value_at w' 0 (m + q) k = Some v.
Proof using Sd G B Hk H2.
  induction splits as [|[tr te] splits IH]; intros H i w m R; cbn [run_loop].
  - exists w. rewrite Nat.add_0_r. split; auto. split; auto. split; [apply extends_refl|]. intros [|q]; discriminate.
  - destruct (H (tr, te) (or_introl eq_refl)) as (Hs & Ntr & Nte). cbn in Ntr, Nte.
    destruct (one_run (r_draws rd i) w m tr te R Hs Ntr Nte) as (w1 & R1 & X1 & A & _). destruct (A N) as [E1 (kv & En & V)]. rewrite E1. cbn [wbind].
    destruct (IH (fun s I => H s (or_intror I)) (S i) w1 (S m) R1) as (w' & E' & R' & X' & V'). exists w'. split; auto. split; [cbn [length]; now rewrite <- Nat.add_succ_comm|].
    split; [eapply extends_trans; eauto|]. intros [|q] tr' te' Eq; cbn [nth_error] in Eq.
    + injection Eq as <- <-. exists kv. split; auto. intros k v I. rewrite Nat.add_0_r. eapply extends_value; eauto.
    + rewrite <- Nat.add_succ_comm. exact (V' q tr' te' Eq).
Qed.
End End.

(** ** The whole experiment. *)
Lemma samples_split rd x p : legal x rd -> prepared_by rd x p -> enough x rd -> can_split (x_mode x) (length (p_labels p)).
Proof. intros G B En. rewrite (samples_length rd x p G B). eapply En. exact (pb_pair _ _ _ B). Qed.
Lemma generated rd x p : legal x rd -> prepared_by rd x p -> enough x rd ->
  exists l, p_generator p = Ok l /\ l <> [] /\ good_splits (x_mode x) (length (p_labels p)) l /\ forall s, In s l -> is_split (length (p_labels p)) s /\ fst s <> [] /\ snd s <> [].
Proof.
  intros G B En. pose proof (samples_split rd x p G B En) as Cs. pose proof G as (_ & _ & Ps & _). destruct (can_split_generator rd _ _ Ps Cs) as (l & E & Ne & H).
  rewrite (pb_gen _ _ _ B) in E. injection E as E. exists l. split; auto. split; auto. split; auto. destruct Cs as [Hn Hm].
  apply (generator_good rd (x_mode x) _ Ps Hn) with (g := Ok l); auto; [destruct (x_mode x); tauto|]. rewrite <- E. exact (pb_gen _ _ _ B).
Qed.

Lemma whole_run rd x f : sound x -> legal x rd -> enough x rd -> x_kind x <> Base -> (x_kind x = Three -> 2 <= length (x_mods x)) -> NoDup (run_keys x) ->
  exists p splits w, prepare rd x = Ok p /\ p_generator p = Ok splits /\ splits <> [] /\ good_splits (x_mode x) (length (p_labels p)) splits /\
    run_world rd x f = (w, Ok tt) /\ runs_of w 0 = Some (length splits) /\
    forall q tr te, nth_error splits q = Some (tr, te) -> run_results x p tr te (value_at w 0 q).
Proof.
  intros Sd G En Hk H2 N. destruct (prepare_succeeds rd x Sd G En) as [p Ep]. destruct (prepare_inv _ _ _ Ep) as [B].
  destruct (generated rd x p G B En) as (l & El & Ne & Gd & H). exists p, l. destruct (run_start rd x f p Ep) as (w0 & R0 & -> & _). rewrite El. cbn [lift wbind].
  destruct (all_runs rd x p Sd G B Hk H2 N l H 0 w0 0 R0) as (w1 & -> & R1 & _ & V). cbn [wbind].
  destruct (store_global_ready w1 _ "end_time" (VStr (r_end rd)) R1) as (w2 & -> & R2 & V2 & _). exists w2. repeat (split; auto).
  intros q tr te Eq. destruct (V q tr te Eq) as (kv & E & K). apply (entries_results x p tr te kv); auto. intros k v I. rewrite V2. exact (K k v I).
Qed.
Lemma whole_run_clash rd x f : sound x -> legal x rd -> enough x rd -> x_kind x <> Base -> (x_kind x = Three -> 2 <= length (x_mods x)) -> ~ NoDup (run_keys x) ->
  exists w, run_world rd x f = (w, Err ValueError) /\ runs_of w 0 = Some 1.
Proof.
  intros Sd G En Hk H2 N. destruct (prepare_succeeds rd x Sd G En) as [p Ep]. destruct (prepare_inv _ _ _ Ep) as [B].
  destruct (generated rd x p G B En) as (l & El & Ne & Gd & H). destruct (run_start rd x f p Ep) as (w0 & R0 & -> & _). rewrite El. cbn [lift wbind].
  destruct l as [|[tr te] l]; [tauto|]. cbn [run_loop]. destruct (H (tr, te) (or_introl eq_refl)) as (Hs & Ntr & Nte).
  destruct (one_run rd x p Sd G B Hk H2 (r_draws rd 0) w0 0 tr te R0 Hs Ntr Nte) as (w1 & R1 & _ & _ & A). rewrite (A N). cbn [wbind]. exists w1. auto.
Qed.

(** C35, C78. *)
Lemma clean_keys x : NoDup (x_mods x) -> (forall m, In m (x_mods x) -> clean m) -> (x_kind x = Three -> 3 <= length (x_mods x)) -> NoDup (run_keys x).
Proof.
  intros N Cl H3. unfold run_keys. destruct (x_kind x) eqn:E.
  - now apply two_keys_nodup.
  - now apply three_keys_nodup; [| |apply H3].
  - rewrite app_nil_r. repeat (constructor; [cbn; intuition discriminate|]). constructor.
Qed.
Lemma run_succeeds rd x f : sound x -> legal x rd -> enough x rd -> x_kind x <> Base -> (forall m, In m (x_mods x) -> clean m) -> (x_kind x = Three -> 3 <= length (x_mods x)) ->
  exists p splits w, prepare rd x = Ok p /\ p_generator p = Ok splits /\ splits <> [] /\ good_splits (x_mode x) (length (p_labels p)) splits /\
    run_world rd x f = (w, Ok tt) /\ runs_of w 0 = Some (length splits) /\
    forall q tr te, nth_error splits q = Some (tr, te) -> run_results x p tr te (value_at w 0 q).
Proof.
  intros Sd G En Hk Cl H3. apply whole_run; auto; [intro E; specialize (H3 E); lia|]. apply clean_keys; auto. apply Sd.
Qed.
Lemma reserved_name rd x f s : sound x -> legal x rd -> enough x rd -> x_kind x = Two -> In s (x_mods x) -> In s ["bis"; "frob"; "cosine"]%string ->
  exists w, run_world rd x f = (w, Err ValueError) /\ runs_of w 0 = Some 1.
Proof.
  intros Sd G En Hk I J. apply whole_run_clash; auto; try congruence. unfold run_keys. rewrite Hk. now apply two_keys_clash with s.
Qed.
Lemma three_with_two rd x f : sound x -> legal x rd -> enough x rd -> x_kind x = Three -> length (x_mods x) = 2 ->
  exists w, run_world rd x f = (w, Err ValueError) /\ runs_of w 0 = Some 1.
Proof.
  intros Sd G En Hk L. apply whole_run_clash; auto; try congruence; [intro; lia|]. unfold run_keys. rewrite Hk. now apply three_keys_clash.
Qed.

(** C33. *)
Lemma prepared_rows rd x p : legal x rd -> prepare rd x = Ok p ->
  length (p_labels_all p) = kept_rows x (length (p_pairing p)) /\
  Permutation (p_examples p ++ p_others p) (seq 0 (kept_rows x (length (p_pairing p)))) /\ StronglySorted lt (p_others p) /\
  Forall2 (fun i l => nth_error (p_labels_all p) i = Some l) (p_examples p) (p_labels_ex p) /\
  Forall2 (fun i l => nth_error (p_labels_all p) i = Some l) (p_others p) (p_labels p) /\
  NoDup (p_labels_ex p) /\ (forall l, In l (p_labels_ex p) <-> In l (p_labels_all p)) /\
  forall m ld, nth_error (x_loaders x) m = Some ld -> exists y z, nth_error (p_data_ex p) m = Some y /\ nth_error (p_data p) m = Some z /\
    rows_from y (p_examples p) (kept_cols x (cols_of (ld_data ld))) (ld_data ld) (source p m) /\
    rows_from z (p_others p) (kept_cols x (cols_of (ld_data ld))) (ld_data ld) (source p m).
Proof.
  intros G E. destruct (prepare_inv _ _ _ E) as [B]. rewrite <- (all_rows rd x p G B). destruct (others_facts rd x p G B) as [P O]. destruct (examples_facts rd x p G B) as (_ & Ve & Ne & _).
  split; auto. split; auto. split; auto. split; [exact (pb_labels_ex _ _ _ B)|]. split; [exact (pb_labels_others _ _ _ B)|]. split; auto. split; [exact (pb_a1 _ _ _ B)|].
  intros m ld Em. destruct (rows_value rd x p G B (p_examples p) (p_data_ex p) m ld (pb_data_ex _ _ _ B) Ve Em) as (y & Ey & Ry).
  destruct (rows_value rd x p G B (p_others p) (p_data p) m ld (pb_data_others _ _ _ B) (others_bound rd x p B) Em) as (z & Ez & Rz). exists y, z. auto.
Qed.
Lemma prepared_labels rd x p : legal x rd -> prepare rd x = Ok p -> forall t lab m ld, nth_error (p_labels_all p) t = Some lab -> nth_error (x_loaders x) m = Some ld ->
  exists names s, nth_error (p_names p) m = Some names /\ nth_error names lab = Some s /\ nth_error (ld_labels ld) (source p m t) = Some s.
Proof. intros G E. destruct (prepare_inv _ _ _ E) as [B]. exact (pairing_labels rd x p G B). Qed.
Lemma prepared_distinct rd x p : legal x rd -> prepare rd x = Ok p -> forall m t t', m < length (x_loaders x) -> t < length (p_pairing p) -> t' < length (p_pairing p) ->
  source p m t = source p m t' -> t = t'.
Proof. intros G E. destruct (prepare_inv _ _ _ E) as [B]. exact (sources_distinct rd x p G B). Qed.
Lemma coefs_balance x rd p : prepare rd x = Ok p ->
  (forall cs, x_coefs x = Some cs -> p_coefs p = map Q2R cs) /\
  (x_coefs x = None -> (forall ld, In ld (x_loaders x) -> exists n d, fits n d (ld_data ld)) -> length (p_coefs p) = length (x_loaders x) /\
     forall m ld c, nth_error (x_loaders x) m = Some ld -> nth_error (p_coefs p) m = Some c -> (mean_row_sum (ld_data ld) <> 0)%R ->
       mean_row_sum (mscale c (ld_data ld)) = 1%R).
Proof.
  intro E. destruct (prepare_inv _ _ _ E) as [B]. pose proof (pb_coefs _ _ _ B) as C. split.
  - intros cs Ec. rewrite (set_coefs_given x cs Ec) in C. congruence.
  - intros Ec F. rewrite (set_coefs_computed x Ec) in C; [|intros ld I; destruct (F ld I) as (n & d & Fd); exists n, d; now apply fits_mshape].
    injection C as <-. split; [apply map_length|]. intros m ld c El Em N. rewrite nth_error_map, El in Em. injection Em as <-.
    destruct (F ld (nth_error_In _ _ El)) as (n & d & Fd). exact (balance ld n d Fd N).
Qed.
