(** * Proofs on frames and their features. *)

From Coq Require Import List ZArith Arith Bool QArith Reals String Ascii Lia.
Import ListNotations.
From Verif Require Import Py Py_proof pairing_proof utils_proof sound_model sound_count nd_model nd_spec array_utils_spec motion_model motion_proof
  objects_model objects_spec objects_proof.
Local Open Scope nat_scope.
Local Open Scope string_scope.

Lemma Forall2_length' {A B} {R : A -> B -> Prop} {l m} : Forall2 R l m -> List.length l = List.length m.
Proof. induction 1; cbn; congruence. Qed.
Lemma Forall2_nth_intro {A B} (R : A -> B -> Prop) l : forall m, List.length l = List.length m ->
  (forall i a b, nth_error l i = Some a -> nth_error m i = Some b -> R a b) -> Forall2 R l m.
Proof.
  induction l as [|x l IH]; intros [|y m] L H; try discriminate; constructor; [exact (H 0 x y eq_refl eq_refl)|].
  apply IH; [injection L; auto|]. intros i a b. exact (H (S i) a b).
Qed.

Section Words.
Variable int_of : string -> result Z.
Variable time_of : string -> result Q.
Variable float_of : string -> result R.

(** ** Lines of the statistics file *)
Lemma views_ok bs vs : mapM (fun s => v <- string_to_object_view int_of s ;; Ok (Some v))%py bs = Ok vs <->
  exists ws, vs = map Some ws /\ Forall2 (fun b v => exists xs, words b xs /\ Forall2 (fun w z => int_of w = Ok z) xs v) bs ws.
Proof.
  rewrite mapM_ok. split.
  - induction 1 as [|b v bs vs H _ IH]; [exists []; split; [reflexivity|constructor]|]. destruct IH as (ws & -> & IH).
    apply bind_ok in H. destruct H as (x & H & [= <-]). unfold string_to_object_view in H. apply mapM_ok in H.
    exists (x :: ws). split; [reflexivity|]. constructor; [|exact IH]. exists (split b). split; [apply split_words|exact H].
  - intros (ws & -> & F). induction F as [|b v bs ws (xs & W & H) _ IH]; cbn [map]; constructor; [|exact IH].
    apply words_split in W. unfold string_to_object_view. rewrite W. apply mapM_ok in H. rewrite H. reflexivity.
Qed.
Lemma line_spec line f : from_line int_of time_of line = Ok f <-> describes int_of time_of line f.
Proof.
  unfold from_line. split.
  - pose proof (split_bar_blocks line) as SB. destruct (split_bar line) as (b, bs). destruct SB as (-> & NB). intros H.
    apply bind_ok in H. destruct H as (vs & V & H). apply bind_ok in H. destruct H as ((l, t) & P & H). injection H as <-.
    unfold parse_filename in P. destruct (search (drop_last b)) as [(lt, tt)|] eqn:SE; [|discriminate]. apply bind_ok in P. destruct P as (x & TX & P).
    injection P as <- <-. apply search_spec in SE. apply views_ok in V. destruct V as (ws & -> & V).
    destruct (snoc_cases b) as [->|(a & c & ->)].
    { exfalso. destruct SE as (pre & aa & cc & bb & tail & E & _). cbn in E. destruct pre; discriminate. }
    rewrite drop_last_snoc in *. exists c, bs, ws, lt, tt. cbn [f_name f_label f_time f_views Frame]. split; [reflexivity|]. split; [exact NB|]. split; [exact V|].
    split; [exact SE|]. split; [|split; [exact TX|]].
    + apply value_decimal. destruct SE as (pre & aa & cc & bb & tail & _ & (_ & D) & _). exact D.
    + rewrite map_length. destruct (List.length ws =? 4)%nat; reflexivity.
  - intros (c & bs & vs & label & time & -> & NB & V & N & D & T & E). rewrite split_bar_concat; [|apply NB; cbn; auto|intros x I; apply NB; cbn; auto].
    rewrite drop_last_snoc. assert (VO : mapM (fun s => v <- string_to_object_view int_of s ;; Ok (Some v))%py bs = Ok (map Some vs)) by (apply views_ok; eauto).
    rewrite VO. cbn [bind]. unfold parse_filename. assert (SE : search (f_name f) = Some (label, time)) by (apply search_spec, N). rewrite SE, T. cbn [bind].
    assert (DL : chars dec label) by (destruct N as (pre & aa & cc & bb & tail & _ & (_ & DL) & _); exact DL).
    rewrite (decimal_value _ _ D DL). unfold Frame. rewrite map_length. f_equal. destruct f as [n l t v]. cbn in *. f_equal. rewrite E. destruct (List.length vs =? 4)%nat; reflexivity.
Qed.
Lemma line_errors line e : (forall w x, int_of w = Err x -> x = ValueError) -> (forall w x, time_of w = Err x -> x = ValueError) ->
  from_line int_of time_of line = Err e -> e = ValueError.
Proof.
  intros HI HT. unfold from_line. destruct (split_bar line) as (b, bs). intros H. apply bind_err in H. destruct H as [H|(vs & _ & H)].
  - apply mapM_fails in H. destruct H as (s & _ & H). apply bind_err in H. destruct H as [H|(x & _ & H)]; [|discriminate].
    unfold string_to_object_view in H. apply mapM_fails in H. destruct H as (w & _ & H). eauto.
  - apply bind_err in H. destruct H as [H|((l, t) & _ & H)]; [|discriminate]. unfold parse_filename in H. destruct (search _) as [(l, t)|]; [|congruence].
    apply bind_err in H. destruct H as [H|(x & _ & H)]; [eauto|discriminate].
Qed.
Lemma named_once name l t l' t' : named name l t -> named name l' t' -> l = l' /\ t = t'.
Proof. rewrite <- !search_spec. intros A B. rewrite A in B. injection B as -> ->. auto. Qed.

(** ** Features *)
Lemma rev_filter_rev {A} (p : A -> bool) l : rev (filter p (rev l)) = filter p l.
Proof.
  induction l as [|x l IH]; [reflexivity|]. cbn [rev]. rewrite filter_app, rev_app_distr, IH. cbn [filter]. destruct (p x); reflexivity.
Qed.
Fixpoint chunks {A} (n : nat) (l : list A) : list (list A) := match n with 0 => [] | S n' => firstn 5 l :: chunks n' (skipn 5 l) end.
Lemma chunks_length {A} n : forall l : list A, List.length (chunks n l) = n.
Proof. induction n as [|n IH]; intros l; cbn [chunks List.length]; congruence. Qed.
Lemma skipn_plus {A} a b (l : list A) : skipn a (skipn b l) = skipn (b + a) l.
Proof. revert l. induction b as [|b IH]; intros l; [reflexivity|]. destruct l as [|x l]; [now rewrite !skipn_nil|]. cbn [skipn plus]. apply IH. Qed.
Lemma chunks_nth {A} n : forall (l : list A) v, v < n -> nth_error (chunks n l) v = Some (firstn 5 (skipn (5 * v) l)).
Proof.
  induction n as [|n IH]; intros l v H; [lia|]. destruct v as [|v]; [reflexivity|]. cbn [chunks nth_error]. rewrite IH by lia. rewrite skipn_plus. do 3 f_equal. lia.
Qed.
Lemma pop_features_rev n : forall r, n <= List.length r ->
  pop_features float_of n (rev r) = (xs <- mapM (string_to_features float_of) (firstn n r) ;; Ok (xs, rev (skipn n r)))%py.
Proof.
  induction n as [|n IH]; intros r H; [reflexivity|]. destruct r as [|x r]; [cbn in H; lia|]. cbn [pop_features firstn skipn mapM].
  unfold pop. rewrite rev_involutive. cbn [bind]. destruct (string_to_features float_of x) as [y|e]; cbn [bind]; [|reflexivity].
  rewrite IH by (cbn in H; lia). destruct (mapM _ (firstn n r)); reflexivity.
Qed.
Lemma pop_views_rev n : forall r, 5 * n <= List.length r ->
  pop_views float_of n (rev r) = (xs <- mapM (mapM (string_to_features float_of)) (chunks n r) ;; Ok (xs, rev (skipn (5 * n) r)))%py.
Proof.
  induction n as [|n IH]; intros r H; [reflexivity|]. cbn [pop_views chunks mapM]. change (List.length FEATURES) with 5. rewrite pop_features_rev by lia.
  destruct (mapM (string_to_features float_of) (firstn 5 r)) as [y|e]; cbn [bind]; [|reflexivity].
  rewrite IH by (rewrite skipn_length; lia). destruct (mapM _ (chunks n (skipn 5 r))) as [ys|e]; cbn [bind]; [|reflexivity].
  rewrite skipn_plus. replace (5 * S n) with (5 + 5 * n) by lia. reflexivity.
Qed.
Lemma read_value files f path : read_features float_of files f path =
  match files (feature_file f path) with
  | None => Err IOError
  | Some ls => let L := filter (fun l => negb (isspace l)) ls in
      if (List.length L =? 5 * List.length (f_views f))%nat then mapM (mapM (string_to_features float_of)) (chunks (List.length (f_views f)) (rev L)) else Err WrongFile
  end.
Proof.
  unfold read_features. change (get_full_path f path) with (feature_file f path). destruct (files (feature_file f path)) as [ls|]; [|reflexivity].
  cbn [bind]. rewrite rev_filter_rev. set (L := filter _ ls). change (List.length FEATURES) with 5. rewrite Nat.mul_comm.
  destruct (Nat.eqb_spec (List.length L) (5 * List.length (f_views f))) as [E|]; [|reflexivity]. cbn [negb].
  rewrite <- (rev_involutive L) at 1. rewrite pop_views_rev by (rewrite rev_length; lia). destruct (mapM _ (chunks _ _)); reflexivity.
Qed.
Lemma nth_error_rev {A} (l : list A) i : i < List.length l -> nth_error (rev l) i = nth_error l (List.length l - 1 - i).
Proof.
  intros H. destruct l as [|a l]; [cbn in H; lia|]. set (l' := a :: l) in *. rewrite (nth_error_nth' (rev l') a) by (rewrite rev_length; exact H).
  rewrite (nth_error_nth' l' a) by lia. f_equal. rewrite rev_nth by exact H. f_equal. lia.
Qed.
Lemma numbers_spec line x : numbers float_of line x <-> string_to_features float_of line = Ok x.
Proof.
  unfold numbers, string_to_features. split.
  - intros (ws & W & F). apply words_split in W. subst ws. apply mapM_ok. exact F.
  - intros H. exists (split line). split; [apply split_words|apply mapM_ok, H].
Qed.
Lemma read_spec files f path vs : read_features float_of files f path = Ok vs <-> reads float_of files path f vs.
Proof.
  rewrite read_value. unfold reads. destruct (files (feature_file f path)) as [ls|]; [|split; [discriminate|intros (? & ? & ? & _); discriminate]].
  cbv zeta. set (n := List.length (f_views f)). split.
  - destruct (Nat.eqb_spec (List.length (filter (fun l => negb (isspace l)) ls)) (5 * n)) as [E|]; [|discriminate]. set (L := filter _ ls) in *. intros H.
    exists ls, L. split; [reflexivity|]. split; [apply without_lines; reflexivity|]. split; [exact E|]. apply mapM_ok in H. pose proof (Forall2_length' H) as LN.
    rewrite chunks_length in LN. split; [symmetry; exact LN|]. intros v feats HV. assert (V : v < n) by (rewrite LN; apply nth_error_Some; congruence).
    destruct (Forall2_nth_r _ _ _ H v feats HV) as (ch & HC & M). rewrite chunks_nth in HC by exact V. assert (CH : ch = firstn 5 (skipn (5 * v) (rev L))) by congruence. subst ch. apply mapM_ok in M.
    assert (CL : List.length (firstn 5 (skipn (5 * v) (rev L))) = 5) by (rewrite firstn_length, skipn_length, rev_length; lia).
    split; [rewrite <- (Forall2_length' M); exact CL|]. intros k x HX. destruct (Forall2_nth_r _ _ _ M k x HX) as (line & HL & X).
    assert (K : k < 5) by (rewrite <- CL; apply nth_error_Some; congruence). exists line. split; [|apply numbers_spec, X].
    rewrite <- nth_error_rev by lia. rewrite nth_error_firstn, nth_error_skipn in HL by exact K. exact HL.
  - intros (ls0 & L & [= <-] & W & E & LV & H). apply without_lines in W. rewrite <- W. apply Nat.eqb_eq in E. rewrite E. apply Nat.eqb_eq in E.
    apply mapM_ok. fold n in E, LV. clearbody n. clear W. apply Forall2_nth_intro; [rewrite chunks_length; symmetry; exact LV|].
    intros v ch feats HC HV. assert (V : v < n) by (rewrite <- LV; apply nth_error_Some; congruence). rewrite chunks_nth in HC by exact V. assert (CH : ch = firstn 5 (skipn (5 * v) (rev L))) by congruence. subst ch.
    destruct (H v feats HV) as (L5 & HK). apply mapM_ok. apply Forall2_nth_intro; [rewrite L5, firstn_length, skipn_length, rev_length; lia|].
    intros k line x HL HX. destruct (HK k x HX) as (line' & HL' & N). assert (K : k < 5) by (rewrite <- L5; apply nth_error_Some; congruence).
    rewrite nth_error_firstn, nth_error_skipn in HL by exact K. rewrite nth_error_rev in HL by lia.
    rewrite HL' in HL. injection HL as ->. apply numbers_spec, N.
Qed.
Lemma left_out_spec files f path : left_out files path f <-> read_features float_of files f path = Err IOError /\ files (feature_file f path) = None \/
  (exists ls, files (feature_file f path) = Some ls /\ List.length (filter (fun l => negb (isspace l)) ls) <> 5 * List.length (f_views f)) /\ read_features float_of files f path = Err WrongFile.
Proof.
  rewrite read_value. unfold left_out. destruct (files (feature_file f path)) as [ls|]; split.
  - intros [H|(ls0 & L & [= <-] & W & N)]; [discriminate|]. apply without_lines in W. subst L. right. split; [eauto|]. apply Nat.eqb_neq in N. rewrite N. reflexivity.
  - intros [(_ & H)|((ls0 & [= <-] & N) & _)]; [discriminate|]. right. exists ls. eexists. split; [reflexivity|]. split; [apply without_lines; reflexivity|exact N].
  - intros _. left. auto.
  - intros _. left. reflexivity.
Qed.
(** Nothing else makes read_features fail, if float() only raises ValueError. *)
Lemma read_errors files f path e : (forall w x, float_of w = Err x -> x = ValueError) ->
  read_features float_of files f path = Err e -> e = ValueError \/ left_out files path f.
Proof.
  intros HF. rewrite read_value. destruct (files (feature_file f path)) as [ls|] eqn:E; [|right; left; exact E].
  cbv zeta. destruct (Nat.eqb_spec (List.length (filter (fun l => negb (isspace l)) ls)) (5 * List.length (f_views f))) as [X|X].
  - intros H. left. apply mapM_fails in H. destruct H as (ch & _ & H). apply mapM_fails in H. destruct H as (line & _ & H).
    unfold string_to_features in H. apply mapM_fails in H. destruct H as (w & _ & H). eauto.
  - intros _. right. right. exists ls. eexists. split; [exact E|]. split; [apply without_lines; reflexivity|exact X].
Qed.
End Words.
