(** * Lemmas about training and reconstruction. *)

From Coq Require Import List ZArith Reals Bool Arith String Lia Lra Sorted.
Import ListNotations.
From Verif Require Import Py Py_proof nd_model nd_spec nd_proof sparse_model array_utils_proof metrics_proof nmf_model nmf_spec nmf_proof nmf_laws nmf_fit
  learner_model learner_spec learner_proof.
Local Open Scope R_scope.
Notation length := List.length.

Lemma rsum_width l ms : forall f, rsum (width l ms) f =
  lsum (map (fun p => match nth_error ms p with Some m => rsum (dim_of l m) (fun j => f (width l (firstn p ms) + j)%nat) | None => 0 end) (seq 0 (length ms))).
Proof.
  induction ms as [|m ms IH]; intro f; [reflexivity|]. change (width l (m :: ms)) with (dim_of l m + width l ms)%nat. rewrite rsum_add, IH.
  cbn [length seq map lsum nth_error]. f_equal. rewrite <- seq_shift, map_map. apply lsum_ext. intros p _. cbn [nth_error].
  destruct (nth_error ms p); auto. apply rsum_ext. intros j _. f_equal. change (width l (firstn (S p) (m :: ms))) with (dim_of l m + width l (firstn p ms))%nat. lia.
Qed.

Lemma Forall2_nth {A B} (R : A -> B -> Prop) ms data : Forall2 R ms data -> forall p m d, nth_error ms p = Some m -> nth_error data p = Some d -> R m d.
Proof. induction 1; intros [|p] a b E E'; cbn in *; try discriminate; [congruence|]. eauto. Qed.
Lemma Forall2_len {A B} (R : A -> B -> Prop) ms data : Forall2 R ms data -> length data = length ms.
Proof. induction 1; cbn; auto. Qed.

(** ** fit_coefficients. *)
Lemma fit_coefficients_value rnd c x dict it n k m : proper x n m -> nonneg (mvalue x) -> shape dict = [k; m] -> nonneg dict ->
  (1 <= k)%nat -> (1 <= it)%Z ->
  exists w, fit_coefficients rnd c x dict it = Ok w /\ shape w = [n; k] /\ nonneg w /\
    forall i, (i < n)%nat -> lsum (row w i) <= lsum (row (mvalue x) i) + INR m * / 100000000.
Proof.
  intros P N Sd Nd Hk Hi. unfold fit_coefficients. rewrite Sd. cbn [nth]. unfold transform, set_components, nmf_new. cbn [components].
  set (o := set_init _ _).
  assert (K : number o m = k) by (unfold number, o; cbn; destruct k; [lia|reflexivity]).
  assert (Hd : forall d, init_dictionary o = Some d -> shape d = [number o m; m] /\ nonneg d) by (intros d E; injection E as <-; rewrite K; auto).
  assert (Hc : false = false -> exists c, components o = Some c /\ shape c = [number o m; m] /\ nonneg c) by (intros _; exists dict; rewrite K; auto).
  destruct (fit_transform_value rnd o x 1 true false n m P N (fun d E => proj1 (Hd d E))
    ltac:(intro F; destruct (Hc F) as (c' & C & S & _); eauto) Hi)
    as (o1 & w & e1 & b1 & x1 & w0 & h0 & h & E & _).
  destruct (call_signs rnd o x 1 true false n m P N Hd Hc Hi o1 w e1 b1 x1 E) as (Sw & Nw & _).
  pose proof (call_mass rnd o x 1 true false n m P N Hd Hc Hi o1 w e1 b1 x1 E) as M.
  exists w. rewrite E. cbn [snd bind]. rewrite K in Sw. auto.
Qed.

Section Use.
Context (l : learner) (W : well_formed l).
Context (n : nat) (ms : list string) (data : list matrix).
Context (Ne : ms <> []) (K : Forall (fun m => In m (mods l)) ms) (F : Forall2 (fun m x => fits n (dim_of l m) x) ms data).
Context (Nc : forall m, In m ms -> 0 <= coef_of l m) (Nd : Forall (fun x => nonneg (mvalue x)) data).

Lemma data_at p m : nth_error ms p = Some m -> exists d, nth_error data p = Some d /\ fits n (dim_of l m) d /\ nonneg (mvalue d).
Proof using F Nd.
  intro E. destruct (nth_error data p) as [d|] eqn:Ed.
  - exists d. split; auto. split; [eapply (Forall2_nth _ _ _ F); eauto|]. rewrite Forall_forall in Nd. apply Nd. eapply nth_error_In; eauto.
  - apply nth_error_None in Ed. rewrite (Forall2_len _ _ _ F) in Ed. assert (p < length ms)%nat by (apply nth_error_Some; congruence). lia.
Qed.
Lemma stacked_nonneg x : proper x n (width l ms) ->
  (forall p m d, nth_error ms p = Some m -> nth_error data p = Some d -> forall i j, (i < n)%nat -> (j < dim_of l m)%nat ->
        el (mvalue x) [i; (width l (firstn p ms) + j)%nat] = coef_of l m * el (mvalue d) [i; j]) ->
  nonneg (mvalue x) /\ forall i, (i < n)%nat ->
    lsum (row (mvalue x) i) = lsum (map (fun p => coef_of l (fst p) * lsum (row (mvalue (snd p)) i)) (combine ms data)).
Proof using F Nd Nc.
  intros P L. pose proof (value_shape x n (width l ms) P) as Sx. split.
  - apply (nonneg2 _ _ _ Sx). intros i j Hi Hj. destruct (sum_split (map (dim_of l) ms) j Hj) as (p & w & Ep & B).
    rewrite nth_error_map in Ep. destruct (nth_error ms p) as [m|] eqn:Em; [|discriminate]. injection Ep as <-.
    rewrite firstn_map in B. fold (width l (firstn p ms)) in B. destruct (data_at p m Em) as (d & Ed & Fd & Ndd).
    replace j with (width l (firstn p ms) + (j - width l (firstn p ms)))%nat by lia. rewrite (L p m d) by (auto; lia).
    apply Rmult_le_pos; [apply Nc; eapply nth_error_In; eauto|]. apply (proj1 (nonneg2 _ _ _ (fits_value _ _ _ Fd)) Ndd); auto. lia.
  - intros i Hi. unfold row at 1. rewrite Sx. cbn [nth]. rewrite <- rsum_lsum, rsum_width.
    pose proof (Forall2_len _ _ _ F) as Ln.
    replace (map (fun p => coef_of l (fst p) * lsum (row (mvalue (snd p)) i)) (combine ms data))
      with (map (fun p => match nth_error ms p, nth_error data p with Some m, Some d => coef_of l m * lsum (row (mvalue d) i) | _, _ => 0 end) (seq 0 (length ms))).
    + apply lsum_ext. intros p Hp. destruct (nth_error ms p) as [m|] eqn:Em; auto. destruct (data_at p m Em) as (d & Ed & Fd & _). rewrite Ed.
      unfold row. rewrite (fits_value _ _ _ Fd). cbn [nth]. rewrite <- rsum_lsum, <- rsum_scal. apply rsum_ext. intros j Hj. now apply (L p m d).
    + clear - Ln. revert data Ln. induction ms as [|m ms' IH]; intros [|d data] H; try discriminate; auto. cbn [length seq map combine nth_error fst snd].
      f_equal. rewrite <- seq_shift, map_map. apply IH. now injection H.
Qed.

(** Wrong numbers of columns. *)
Lemma check_ok : check_columns l (combine ms data) = Ok tt.
Proof using W K F.
  clear Ne Nc Nd. induction F as [|m x ms' data' H F' IH]; auto. inversion K as [|? ? Km Ks]; subst. cbn [combine check_columns].
  rewrite (fits_shape _ _ _ H). change (py_nth [n; dim_of l m] 1) with (Ok (dim_of l m)). cbn [bind].
  destruct (In_nth_error _ _ Km) as [q E]. rewrite (get_index_ok l m q (proj1 W) E). cbn [bind]. rewrite (py_nth_ok _ _ _ (dim_nth l W q m E)). cbn [bind].
  rewrite Nat.eqb_refl. cbn [py_assert bind]. apply IH; auto.
Qed.

Context (d : nd) (T : trained l d) (Ndd : nonneg d).
Lemma stacked_dico_nonneg a : shape a = [lk l; width l ms] ->
  (forall p m q, nth_error ms p = Some m -> nth_error (mods l) q = Some m -> forall i j, (i < lk l)%nat -> (j < dim_of l m)%nat ->
        el a [i; (width l (firstn p ms) + j)%nat] = el d [i; (width l (firstn q (mods l)) + j)%nat]) -> nonneg a.
Proof using K T Ndd.
  intros S L. apply (nonneg2 _ _ _ S). intros i j Hi Hj. destruct (sum_split (map (dim_of l) ms) j Hj) as (p & w & Ep & B).
  rewrite nth_error_map in Ep. destruct (nth_error ms p) as [m|] eqn:Em; [|discriminate]. injection Ep as <-.
  rewrite firstn_map in B. fold (width l (firstn p ms)) in B. rewrite Forall_forall in K.
  destruct (In_nth_error _ _ (K m (nth_error_In _ _ Em))) as [q Eq].
  replace j with (width l (firstn p ms) + (j - width l (firstn p ms)))%nat by lia. rewrite (L p m q) by (auto; lia).
  destruct T as [_ Sd]. apply (proj1 (nonneg2 _ _ _ Sd) Ndd); auto. pose proof (width_in l (mods l) q m Eq). lia.
Qed.
Context (Hk : (1 <= lk l)%nat).
Lemma internal_value rnd c it : (1 <= it)%Z ->
  exists w, reconstruct_internal_multi rnd c l ms data it = Ok w /\ shape w = [n; lk l] /\ nonneg w /\
    forall i, (i < n)%nat -> lsum (row w i) <=
      lsum (map (fun p => coef_of l (fst p) * lsum (row (mvalue (snd p)) i)) (combine ms data)) + INR (width l ms) * / 100000000.
Proof using W Ne K F Nc Nd T Ndd Hk.
  intro Hi. unfold reconstruct_internal_multi. rewrite check_ok. cbn [bind].
  destruct (stacked_dicos_value l W d T ms Ne K) as (a & -> & Sa & La). cbn [bind mvalue].
  destruct (stack_value l W n ms data Ne K F) as (x & -> & P & _ & Lx). cbn [bind].
  destruct (stacked_nonneg x P Lx) as [Nx Rx].
  destruct (fit_coefficients_value rnd c x a it n (lk l) (width l ms) P Nx Sa (stacked_dico_nonneg a Sa La) Hk Hi) as (w & -> & Sw & Nw & M).
  exists w. split; auto. split; auto. split; auto. intros i Hn. rewrite <- (Rx i Hn). now apply M.
Qed.
End Use.

(** ** Reconstruction of modalities. *)
Section Reconstruct.
Context (l : learner) (W : well_formed l) (d : nd) (T : trained l d).
Context (n : nat) (w : nd) (Sw : shape w = [n; lk l]).

Lemma modality_value q m : nth_error (mods l) q = Some m ->
  exists r, reconstruct_modality l m w = Ok r /\ shape r = [n; dim_of l m] /\
    forall i j, el r [i; j] = sum_to (lk l) (fun t => el w [i; t] * el d [t; (width l (firstn q (mods l)) + j)%nat]).
Proof using W T Sw.
  intro E. unfold reconstruct_modality. destruct (get_dico_value l W d T q m E) as (b & -> & Sb & Lb). cbn [bind].
  unfold dot. rewrite Sw, Sb, Nat.eqb_refl. eexists. split; [reflexivity|]. split; [reflexivity|]. intros i j. cbn [el nth].
  rewrite sum_to_rsum. apply rsum_ext. intros t _. now rewrite Lb.
Qed.
Lemma modalities_value ms : ms <> [] -> Forall (fun m => In m (mods l)) ms ->
  exists r, reconstruct_modalities l ms w = Ok r /\ shape r = [n; width l ms] /\
    forall p m, nth_error ms p = Some m -> exists rm, reconstruct_modality l m w = Ok rm /\
      forall i j, (i < n)%nat -> (j < dim_of l m)%nat -> el r [i; (width l (firstn p ms) + j)%nat] = el rm [i; j].
Proof using W T Sw.
  intros Ne K. unfold reconstruct_modalities. destruct (stacked_dicos_value l W d T ms Ne K) as (a & -> & Sa & La). cbn [bind mvalue].
  unfold dot. rewrite Sw, Sa, Nat.eqb_refl. eexists. split; [reflexivity|]. split; [reflexivity|]. intros p m Em.
  rewrite Forall_forall in K. destruct (In_nth_error _ _ (K m (nth_error_In _ _ Em))) as [q Eq].
  destruct (modality_value q m Eq) as (rm & Er & _ & Lr). exists rm. split; auto. intros i j Hi Hj. rewrite Lr. cbn [el nth]. rewrite sum_to_rsum.
  apply rsum_ext. intros t Ht. now rewrite (La p m q).
Qed.
Lemma modality_nonneg : nonneg w -> nonneg d -> forall m r, In m (mods l) -> reconstruct_modality l m w = Ok r -> nonneg r.
Proof using W T Sw.
  intros Nw Nd m r I E. destruct (In_nth_error _ _ I) as [q Eq]. destruct (modality_value q m Eq) as (r' & E' & S & L).
  rewrite E in E'. injection E' as <-. apply (nonneg2 _ _ _ S). intros i j Hi Hj. rewrite L. apply sum_to_nonneg. intros t Ht.
  pose proof (width_in l (mods l) q m Eq). destruct T as [_ Sd].
  apply Rmult_le_pos; [apply (proj1 (nonneg2 _ _ _ Sw) Nw)|apply (proj1 (nonneg2 _ _ _ Sd) Nd)]; auto. lia.
Qed.
Lemma modalities_nonneg : nonneg w -> nonneg d -> forall ms r, ms <> [] -> Forall (fun m => In m (mods l)) ms -> reconstruct_modalities l ms w = Ok r -> nonneg r.
Proof using W T Sw.
  intros Nw Nd ms r Ne K E. destruct (modalities_value ms Ne K) as (r' & E' & S & L). rewrite E in E'. injection E' as <-.
  apply (nonneg2 _ _ _ S). intros i j Hi Hj. destruct (sum_split (map (dim_of l) ms) j Hj) as (p & wd & Ep & B).
  rewrite nth_error_map in Ep. destruct (nth_error ms p) as [m|] eqn:Em; [|discriminate]. injection Ep as <-.
  rewrite firstn_map in B. fold (width l (firstn p ms)) in B. destruct (L p m Em) as (rm & Er & Lr).
  replace j with (width l (firstn p ms) + (j - width l (firstn p ms)))%nat by lia. rewrite Lr by (auto; lia).
  rewrite Forall_forall in K. pose proof (K m (nth_error_In _ _ Em)) as I. pose proof (modality_nonneg Nw Nd m rm I Er) as Nr.
  destruct (In_nth_error _ _ I) as [q Eq]. destruct (modality_value q m Eq) as (r2 & E2 & S2 & _). rewrite Er in E2. injection E2 as <-.
  apply (proj1 (nonneg2 _ _ _ S2) Nr); auto. lia.
Qed.
End Reconstruct.

(** ** Errors. *)
Lemma stack_unknown l ms data : (exists m, In m ms /\ ~ In m (mods l)) -> well_formed l -> stack_data l ms data = Err ValueError.
Proof.
  intros H W. unfold stack_data. replace (mapM _ ms) with (@Err (list R) ValueError); auto. symmetry.
  destruct H as (m & I & N). induction ms as [|m' ms IH]; [destruct I|]. cbn [mapM].
  destruct (in_dec string_dec m' (mods l)) as [K|K].
  - destruct (In_nth_error _ _ K) as [q E]. rewrite (get_index_ok l m' q (proj1 W) E). cbn [bind]. rewrite (py_nth_ok _ _ _ (coef_nth l W q m' E)). cbn [bind].
    destruct I as [->|I]; [tauto|]. now rewrite IH.
  - now rewrite get_index_no.
Qed.
Lemma dicos_unknown l d ms : trained l d -> (exists m, In m ms /\ ~ In m (mods l)) -> well_formed l -> get_stacked_dicos l ms = Err ValueError.
Proof.
  intros T H W. unfold get_stacked_dicos. replace (mapM (get_dico l) ms) with (@Err (list nd) ValueError); auto. symmetry.
  destruct H as (m & I & N). induction ms as [|m' ms IH]; [destruct I|]. cbn [mapM].
  destruct (in_dec string_dec m' (mods l)) as [K|K].
  - destruct (In_nth_error _ _ K) as [q E]. destruct (get_dico_value l W d T q m' E) as (b & -> & _). cbn [bind].
    destruct I as [->|I]; [tauto|]. now rewrite IH.
  - now rewrite get_dico_no.
Qed.
Lemma check_bad l mds : well_formed l -> Forall (fun p => In (fst p) (mods l) /\ length (mshape (snd p)) = 2%nat) mds ->
  (exists m x, In (m, x) mds /\ cols_of x <> dim_of l m) -> check_columns l mds = Err AssertionError.
Proof.
  intros W F (m & x & I & N). induction mds as [|[m' x'] mds IH]; [destruct I|]. inversion F as [|? ? [K L] Fs]; subst. cbn [fst snd] in K, L.
  cbn [check_columns]. destruct (mshape x') as [|a [|b [|]]] eqn:Sx; try discriminate. change (py_nth [a; b] 1) with (Ok b). cbn [bind].
  destruct (In_nth_error _ _ K) as [q E]. rewrite (get_index_ok l m' q (proj1 W) E). cbn [bind]. rewrite (py_nth_ok _ _ _ (dim_nth l W q m' E)). cbn [bind].
  destruct (Nat.eqb_spec b (dim_of l m')) as [->|D]; [|reflexivity]. cbn [py_assert bind]. destruct I as [I|I]; [|auto].
  injection I as -> ->. exfalso. apply N. unfold cols_of. now rewrite Sx.
Qed.
Lemma internal_bad rnd c l ms data it : well_formed l -> Forall (fun m => In m (mods l)) ms -> length data = length ms ->
  Forall (fun x => length (mshape x) = 2%nat) data -> (exists m x, In (m, x) (combine ms data) /\ cols_of x <> dim_of l m) ->
  reconstruct_internal_multi rnd c l ms data it = Err AssertionError.
Proof.
  intros W K L D H. unfold reconstruct_internal_multi. rewrite check_bad; auto. apply Forall_forall. intros [m x] I. cbn [fst snd].
  rewrite Forall_forall in K, D. split; [apply K; eapply in_combine_l; eauto|apply D; eapply in_combine_r; eauto].
Qed.

(** ** Training. *)
Lemma combine_firstn_map {A B C} (f : A -> C) (xs : list B) (ms : list A) : (length xs <= length ms)%nat ->
  combine xs (map f ms) = combine xs (map f (firstn (length xs) ms)).
Proof. revert ms. induction xs as [|x xs IH]; intros [|m ms] H; cbn in *; auto; try lia. f_equal. apply IH. lia. Qed.
Lemma In_firstn {A} (x : A) p l : In x (firstn p l) -> In x l.
Proof. revert p. induction l as [|y l IH]; intros [|p]; cbn; auto; [tauto|]. intros [->|H]; eauto. Qed.
Lemma stack_prefix l data : well_formed l -> (length data <= length (mods l))%nat ->
  stack_data l (mods l) data = stack_data l (firstn (length data) (mods l)) data.
Proof.
  intros W L. unfold stack_data. rewrite !(coefs_mapM l W).
  - cbn [bind]. do 2 f_equal. now apply combine_firstn_map.
  - apply Forall_forall. intros m. apply In_firstn.
  - apply Forall_forall. auto.
Qed.
Lemma list_head {A} (xs : list A) : xs <> [] -> exists x xs', xs = x :: xs'.
Proof. destruct xs; [tauto|eauto]. Qed.
Lemma train_value rnd c l n data it : well_formed l -> sparseness l = false -> (1 <= lk l)%nat -> (1 <= it)%Z ->
  data <> [] -> (length data <= length (mods l))%nat ->
  let ms := firstn (length data) (mods l) in
  Forall2 (fun m x => fits n (dim_of l m) x) ms data ->
  (forall m, In m ms -> 0 <= coef_of l m) -> Forall (fun x => nonneg (mvalue x)) data ->
  exists l' d, train rnd c l data it = (l', Ok tt) /\ mods l' = mods l /\ dims l' = dims l /\ coefs l' = coefs l /\ lk l' = lk l /\ sparseness l' = false /\
    dico l' = Some d /\ shape d = [lk l; width l ms] /\ nonneg d /\
    forall t, (t < lk l)%nat -> exists s, 0 <= s /\ lsum (row d t) = s / (s + / 10000000000000000) /\ 0 <= lsum (row d t) < 1 /\
      (s = 0 -> forall j, (j < width l ms)%nat -> el d [t; j] = 0).
Proof.
  intros W Sp Hk Hi Ne L ms F Nc Nd.
  assert (Km : Forall (fun m => In m (mods l)) ms) by (apply Forall_forall; intros m; apply In_firstn).
  assert (Nm : ms <> []). { intro E. pose proof (Forall2_len _ _ _ F) as X. rewrite E in X. destruct data; [tauto|discriminate]. }
  destruct (stack_value l W n ms data Nm Km F) as (x & Ex & P & _ & Lx).
  destruct (stacked_nonneg l n ms data F Nc Nd x P Lx) as [Nx _].
  destruct (list_head data Ne) as (x0 & data0 & Ed).
  assert (Rx : rows_of x0 = n). { assert (Y : exists m, In m ms /\ fits n (dim_of l m) x0). { rewrite Ed in F. inversion F; subst. eexists. split; [now left|eauto]. } destruct Y as (m & _ & Y). eapply fits_rows; eauto. }
  unfold train. replace (match data with [] => _ | _ :: _ => _ end) with (bind (py_assert (forallb (fun p => opt_list_eqb (mshape (fst p)) [rows_of x0; snd p]) (combine data (dims l)))) (fun _ =>
    bind (stack_data l (mods l) data) (fun v => if sparseness l then Err TypeError
        else let '(o, r) := fit_transform rnd (nmf_new (Some (lk l)) 0 it c) v 1 true true in bind r (fun _ => Ok (components o)))))
    by (now rewrite Ed).
  rewrite Rx.
  assert (A : forallb (fun p => opt_list_eqb (mshape (fst p)) [n; snd p]) (combine data (dims l)) = true).
  { apply forallb_forall. intros [y e] I. cbn [fst snd]. apply opt_list_eqb_true. rewrite (dims_map l W), (combine_firstn_map (dim_of l) data (mods l) L) in I. fold ms in I.
    clear - F I. revert I. induction F as [|m z ms' data' H F IH]; cbn; [tauto|]. intros [E|I]; [|auto]. injection E as <- <-. eapply fits_shape; eauto. }
  rewrite A. cbn [py_assert bind]. rewrite (stack_prefix l data W L). fold ms. rewrite Ex. cbn [bind]. rewrite Sp.
  set (o := nmf_new (Some (lk l)) 0 it c). set (m := width l ms) in *.
  assert (K : number o m = lk l) by (unfold number, o; cbn; destruct (lk l); [lia|reflexivity]).
  assert (Hd : forall d, init_dictionary o = Some d -> shape d = [number o m; m] /\ nonneg d) by discriminate.
  assert (Hc : true = false -> exists c, components o = Some c /\ shape c = [number o m; m] /\ nonneg c) by discriminate.
  destruct (fit_transform_value rnd o x 1 true true n m P Nx (fun d E => proj1 (Hd d E)) ltac:(discriminate) Hi)
    as (o1 & w & e1 & b1 & x1 & w0 & h0 & h & E & _).
  destruct (call_signs rnd o x 1 true true n m P Nx Hd Hc Hi o1 w e1 b1 x1 E) as (_ & _ & d & Cd & Sd & Ndd).
  destruct (call_rows rnd o x 1 true true n m P Nx Hd Hc Hi o1 w e1 b1 x1 E eq_refl) as (d' & Cd' & Rd). rewrite Cd in Cd'. injection Cd' as <-.
  rewrite K in *. rewrite E. cbn [bind]. rewrite Cd. do 2 eexists. split; [reflexivity|]. cbn [mods dims coefs lk sparseness dico]. repeat (split; [reflexivity|]). auto.
Qed.
Lemma train_bad_shape rnd c l x data it : (exists p, In p (combine (x :: data) (dims l)) /\ mshape (fst p) <> [rows_of x; snd p]) ->
  train rnd c l (x :: data) it = (l, Err AssertionError).
Proof.
  intros (p & I & N). unfold train. replace (forallb _ _) with false; [reflexivity|]. symmetry. apply not_true_is_false. intro H.
  rewrite forallb_forall in H. specialize (H p I). apply opt_list_eqb_true in H. auto.
Qed.

Lemma train_all rnd c l n data it : well_formed l -> sparseness l = false -> (1 <= lk l)%nat -> (1 <= it)%Z -> mods l <> [] ->
  Forall2 (fun m x => fits n (dim_of l m) x) (mods l) data ->
  (forall m, In m (mods l) -> 0 <= coef_of l m) -> Forall (fun x => nonneg (mvalue x)) data ->
  exists l' d, train rnd c l data it = (l', Ok tt) /\ well_formed l' /\ mods l' = mods l /\ dims l' = dims l /\ coefs l' = coefs l /\ lk l' = lk l /\
    trained l' d /\ nonneg d /\
    forall t, (t < lk l)%nat -> exists s, 0 <= s /\ lsum (row d t) = s / (s + / 10000000000000000) /\ 0 <= lsum (row d t) < 1 /\
      (s = 0 -> forall j, (j < width l (mods l))%nat -> el d [t; j] = 0).
Proof.
  intros W Sp Hk Hi Nm F Nc Nd. pose proof (Forall2_len _ _ _ F) as L. assert (E : firstn (length data) (mods l) = mods l) by (rewrite L; apply firstn_all).
  destruct (train_value rnd c l n data it W Sp Hk Hi) as (l' & d & Et & A1 & A2 & A3 & A4 & A5 & A6 & A7 & A8 & A9); auto; try (rewrite E; auto); try lia.
  { intro X. apply Nm. subst. destruct (mods l); auto; discriminate. }
  rewrite E in *. exists l', d. split; auto. split; [unfold well_formed; rewrite A1, A2, A3; exact W|]. repeat (split; auto).
  rewrite A4, A7. unfold width, dim_of. now rewrite A1, A2.
Qed.
Lemma train_missing : forall rnd c, exists l x l' d, well_formed l /\ length (mods l) = 2%nat /\ fits 1 1 x /\
  train rnd c l [x] 1 = (l', Ok tt) /\ dico l' = Some d /\ shape d = [1; 1]%nat /\ width l (mods l) = 3%nat.
Proof.
  intros rnd c. set (l := learner_new ["a"; "b"]%string [1; 2]%nat [1; 1] 1 false). set (x := Dense (mat 1 [[1]])).
  assert (W : well_formed l). { unfold well_formed. cbn. repeat split; auto. constructor; [intros [H|[]]; discriminate|]. constructor; [tauto|constructor]. }
  destruct (train_value rnd c l 1 [x] 1 W eq_refl) as (l' & d & E & _ & _ & _ & _ & _ & D & S & _); cbn; auto; try lia; try discriminate.
  - repeat constructor.
  - intros m [<-|[]]. unfold coef_of. cbn. lra.
  - constructor; [|constructor]. unfold x. cbn. apply (nonneg2 (mat 1 [[1]]) 1 1 eq_refl). intros [|i] [|j] Hi Hj; try lia. cbn. lra.
  - exists l, x, l', d. split; auto. split; auto. split; [reflexivity|]. auto.
Qed.
Lemma compose rnd c l orig dest data it r : modalities_to_modalities rnd c l orig dest data it = Ok r <->
  exists w, reconstruct_internal_multi rnd c l orig data it = Ok w /\ reconstruct_modalities l dest w = Ok r.
Proof.
  unfold modalities_to_modalities. destruct (reconstruct_internal_multi rnd c l orig data it) as [w|e]; cbn [bind].
  - split; [eauto|]. intros (w' & E & H). now injection E as <-.
  - split; [discriminate|]. intros (w & E & _). discriminate.
Qed.
Lemma cross rnd c l d n orig dest data it : well_formed l -> trained l d -> nonneg d -> (1 <= lk l)%nat -> (1 <= it)%Z ->
  orig <> [] -> dest <> [] -> Forall (fun m => In m (mods l)) orig -> Forall (fun m => In m (mods l)) dest ->
  Forall2 (fun m x => fits n (dim_of l m) x) orig data ->
  (forall m, In m orig -> 0 <= coef_of l m) -> Forall (fun x => nonneg (mvalue x)) data ->
  exists w r, reconstruct_internal_multi rnd c l orig data it = Ok w /\ shape w = [n; lk l] /\ nonneg w /\
    modalities_to_modalities rnd c l orig dest data it = Ok r /\ shape r = [n; width l dest] /\ nonneg r /\
    forall p m, nth_error dest p = Some m -> exists rm, reconstruct_modality l m w = Ok rm /\
      forall i j, (i < n)%nat -> (j < dim_of l m)%nat -> el r [i; (width l (firstn p dest) + j)%nat] = el rm [i; j].
Proof.
  intros W T Nd Hk Hi No Ne Ko Kd F Nc Nx.
  destruct (internal_value l W n orig data No Ko F Nc Nx d T Nd Hk rnd c it Hi) as (w & Ew & Sw & Nw & _).
  destruct (modalities_value l W d T n w Sw dest Ne Kd) as (r & Er & Sr & Lr). exists w, r. split; auto. split; auto. split; auto.
  split; [apply compose; eauto|]. split; auto. split; auto. eapply modalities_nonneg; eauto.
Qed.
Lemma slice_back l n data q m x d : well_formed l -> mods l <> [] -> Forall2 (fun m x => fits n (dim_of l m) x) (mods l) data ->
  nth_error (mods l) q = Some m -> nth_error data q = Some d -> stack_data l (mods l) data = Ok x ->
  exists a b, get_axis_range l m = Ok (a, b) /\ (b - a = dim_of l m)%nat /\
    forall i j, (i < n)%nat -> (a <= j < b)%nat -> el (mvalue x) [i; j] = coef_of l m * el (mvalue d) [i; (j - a)%nat].
Proof.
  intros W Ne F Em Ed Ex. destruct (stack_value l W n (mods l) data Ne) as (x' & E & _ & _ & L); auto; [apply Forall_forall; auto|].
  rewrite Ex in E. injection E as <-. rewrite (axis_range l W q m Em). do 2 eexists. split; [reflexivity|]. split; [lia|].
  intros i j Hi Hj. specialize (L q m d Em Ed i (j - width l (firstn q (mods l)))%nat Hi ltac:(lia)).
  replace (width l (firstn q (mods l)) + (j - width l (firstn q (mods l))))%nat with j in L by lia. exact L.
Qed.
Lemma unknown_modality l m : ~ In m (mods l) -> get_index l m = Err ValueError /\ get_axis_range l m = Err ValueError /\ get_dico l m = Err ValueError.
Proof. intro H. split; [now apply get_index_no|]. split; [now apply axis_range_no|now apply get_dico_no]. Qed.
