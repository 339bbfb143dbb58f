(** * Lemmas about the loading and merging of logs. *)

From Coq Require Import List ZArith Reals Bool Arith String Ascii QArith Qreals Lia.
Import ListNotations.
From Verif Require Import Py Py_proof nd_model logger_model logger_spec logger_proof logger_load logger_file experiment_model
  figures_model figures_spec figures_proof figures_draw figures_exp launcher_model.
Local Open Scope nat_scope.

(** ** Worlds that grow *)
Definition grows (w w' : world) : Prop :=
  (exists es, w_runs w' = w_runs w ++ es) /\ (forall j, j < length (w_logs w) -> nth_error (w_logs w') j = nth_error (w_logs w) j) /\ length (w_logs w) <= length (w_logs w').
Lemma grows_refl w : grows w w.
Proof. split; [exists []; now rewrite app_nil_r|auto]. Qed.
Lemma grows_trans w1 w2 w3 : grows w1 w2 -> grows w2 w3 -> grows w1 w3.
Proof.
  intros ((a & A) & L1 & S1) ((b & B) & L2 & S2). split; [exists (a ++ b); now rewrite B, A, app_assoc|]. split; [|lia].
  intros j H. rewrite L2 by lia. now apply L1.
Qed.
Lemma grows_value w w' j q k : wf_world w -> grows w w' -> j < length (w_logs w) -> value_at w' j q k = value_at w j q k.
Proof.
  intros [W _] ((es & E) & L & _) H. unfold value_at. rewrite (L j H). destruct (nth_error (w_logs w) j) as [l|] eqn:El; [|reflexivity].
  destruct (nth_error (lg_exps l) q) as [r|] eqn:Er; [|reflexivity]. rewrite E, nth_error_app1; [reflexivity|]. apply (W j l El). eapply nth_error_In; eauto.
Qed.
Lemma grows_global w w' j k : grows w w' -> j < length (w_logs w) -> global_at w' j k = global_at w j k.
Proof. intros (_ & L & _) H. unfold global_at. now rewrite (L j H). Qed.
Lemma grows_get w w' j k : grows w w' -> j < length (w_logs w) -> get_value w' j k = get_value w j k.
Proof. intros (_ & L & _) H. unfold get_value, get_logger. now rewrite (L j H). Qed.
Lemma grows_scored w w' j k xs : wf_world w -> grows w w' -> scored w j k xs -> scored w' j k xs.
Proof.
  intros W G [R H]. assert (J : j < length (w_logs w)). { apply nth_error_Some. unfold runs_of in R. destruct (nth_error (w_logs w) j); [discriminate|discriminate]. }
  split; [unfold runs_of in *; now rewrite (proj1 (proj2 G) j J)|]. intros q v E. rewrite (grows_value _ _ _ _ _ W G J). auto.
Qed.
Lemma grows_but D w w' j : wf_world w -> grows w w' -> but_arrays D w j -> but_arrays D w' j.
Proof.
  intros W G (l & l' & A & B & C & X & Y & Z). assert (J : j < length (w_logs w)) by (apply nth_error_Some; congruence).
  exists l, l'. split; [exact A|]. split; [rewrite (proj1 (proj2 G) j J); exact B|]. split; [exact C|].
  split; [intro k; rewrite (grows_global _ _ _ _ G J); apply X|]. split; [intros p k; rewrite (grows_value _ _ _ _ _ W G J); apply Y|exact Z].
Qed.

(** ** Files *)
Definition lw (w : world) (s : saved nd) (path : string) : world := loaded_world w s (sv_glob s) (sv_exps s) path false.
Definition holds (f : fs nd) (path : string) (D : world) : Prop :=
  exists s, fs_read f (path ++ ".json")%string = Some (FJson s) /\
    forall w, wf_world w -> wf_world (lw w s path) /\ but_arrays D (lw w s path) (length (w_logs w)).
Lemma lw_grows w s path : grows w (lw w s path).
Proof.
  split; [exists (sv_exps s); reflexivity|]. unfold lw, loaded_world. cbn [w_logs]. rewrite app_length. split; [|lia].
  intros j H. now apply nth_error_app1.
Qed.
Lemma holds_load f path D w : holds f path D -> wf_world w -> exists w', load w f path false false = (w', Ok (length (w_logs w))) /\
  wf_world w' /\ grows w w' /\ but_arrays D w' (length (w_logs w)) /\ length (w_logs w') = S (length (w_logs w)).
Proof.
  intros (s & E & H) W. destruct (H w W) as [W' B]. exists (lw w s path). split; [|split; [exact W'|split; [apply lw_grows|split; [exact B|]]]].
  - apply load_eq; rewrite ?andb_false_r; try discriminate; auto.
  - unfold lw, loaded_world. cbn [w_logs]. rewrite app_length. cbn. lia.
Qed.
Lemma holds_read f f' path D : fs_read f' (path ++ ".json")%string = fs_read f (path ++ ".json")%string -> holds f path D -> holds f' path D.
Proof. intros E (s & R & H). exists s. rewrite E. auto. Qed.
Fixpoint last_char (s : string) (d : ascii) : ascii := match s with EmptyString => d | String c s' => last_char s' c end.
Lemma last_app a c s : forall d, last_char (a ++ String c s) d = last_char s c.
Proof. induction a as [|b a IH]; intro d; cbn; [reflexivity|]. apply IH. Qed.
Lemma npz_last f d : last_char (npz_name f) d = "z"%char.
Proof.
  unfold npz_name. destruct (ends_with f ".npz") eqn:E; [|now rewrite last_app]. 
  apply ends_with_spec in E as (p & ->). now rewrite last_app.
Qed.
Lemma npz_json f p : npz_name f <> (p ++ ".json")%string.
Proof. intro E. pose proof (npz_last f "a"%char) as H. rewrite E, last_app in H. discriminate. Qed.
Lemma str_app_inj_r a : forall b s, (a ++ s = b ++ s)%string -> a = b.
Proof.
  assert (Ln : forall x s, String.length (x ++ s) = String.length x + String.length s) by (induction x as [|c x IH]; intro s; cbn; [reflexivity|now rewrite IH]).
  induction a as [|c a IH]; intros [|d b] s E; cbn in E; [reflexivity| | |].
  - exfalso. apply (f_equal String.length) in E. cbn in E. rewrite Ln in E. lia.
  - exfalso. apply (f_equal String.length) in E. cbn in E. rewrite Ln in E. lia.
  - injection E as <- E. f_equal. exact (IH b s E).
Qed.
Lemma fs_read_write (f : fs nd) p c q : fs_read (fs_write f (p, c)) q = if String.eqb p q then Some c else fs_read f q.
Proof. reflexivity. Qed.
(** A log that is saved. *)
Lemma saved_holds ord w l path fl : enumerates ord -> wf_world w -> nth_error (w_logs w) 0 = Some l -> lg_filename l = Some path -> all_storable w 0 ->
  exists fl', save ord w 0 fl = (fl', Ok tt) /\ holds fl' path w /\
    forall p, p <> path -> fs_read fl' (p ++ ".json")%string = fs_read fl (p ++ ".json")%string.
Proof.
  intros HO W Hl Hf S. destruct (save_writes_ok ord w 0 l path W Hl Hf S) as (ds & s & N & L & NDs & Ew & HA & Ek & Erk & NDg & NDe & HG & Les & HE & HM).
  set (fl' := fs_writes fl (fst (save_writes ord w 0))). exists fl'. split; [unfold save, fl'; now rewrite Ew|]. split.
  - exists s. assert (Rd : fs_read fl' (path ++ ".json")%string = Some (FJson s)) by (unfold fl'; rewrite Ew; cbn [fst]; apply read_json_after).
    split; [exact Rd|]. intros w2 W2. split; [now apply loaded_wf|].
    destruct (roundtrip_no_np ord w 0 l path fl w2 false HO W Hl Hf S) as (fl2 & w2' & l' & Es & El & E' & Lx & Kx & Gx & Vx).
    assert (fl2 = fl') as -> by (unfold save in Es; rewrite Ew in Es; unfold fl'; rewrite Ew; cbn [fst]; congruence).
    assert (load w2 fl' path false false = (lw w2 s path, Ok (length (w_logs w2)))) as El2 by (apply load_eq; rewrite ?andb_false_r; try discriminate; auto).
    assert (w2' = lw w2 s path) as -> by congruence. exists l, l'. auto 10.
  - intros p Hp. unfold fl'. rewrite Ew. cbn [fst].
    assert (X : String.eqb (path ++ ".json") (p ++ ".json") = false). { apply String.eqb_neq. intro E. apply str_app_inj_r in E. congruence. }
    assert (Y : String.eqb (npz_name path) (p ++ ".json") = false) by (apply String.eqb_neq, npz_json).
    destruct (sv_has_np s); cbn [fs_writes fold_left app]; unfold fs_writes; cbn [fold_left app]; rewrite !fs_read_write, ?X, ?Y; reflexivity.
Qed.

(** ** Sequences of loads *)
Lemma wmap_ok {A B} (f : world -> A -> world * result B) (P : world -> A -> B -> Prop) l :
  (forall w a, In a l -> wf_world w -> exists w' b, f w a = (w', Ok b) /\ wf_world w' /\ grows w w' /\ P w' a b) ->
  (forall w w' a b, wf_world w -> grows w w' -> P w a b -> P w' a b) ->
  forall w, wf_world w -> exists w' bs, wmap f l w = (w', Ok bs) /\ wf_world w' /\ grows w w' /\ Forall2 (P w') l bs.
Proof.
  intros H M. induction l as [|a l IH]; intros w W; cbn [wmap].
  - exists w, []. split; [reflexivity|]. split; [exact W|]. split; [apply grows_refl|constructor].
  - destruct (H w a (or_introl eq_refl) W) as (w1 & b & -> & W1 & G1 & P1).
    cbn [wbind]. destruct (IH (fun w a I => H w a (or_intror I)) w1 W1) as (w2 & bs & -> & W2 & G2 & F). exists w2, (b :: bs).
    split; [reflexivity|]. split; [exact W2|]. split; [exact (grows_trans _ _ _ G1 G2)|]. constructor; [exact (M _ _ _ _ W1 G2 P1)|exact F].
Qed.
(** ** Merging of logs that were just loaded *)
Definition run_of (D : world) (K : string -> Prop) : Prop := exists l, nth_error (w_logs D) 0 = Some l /\ forall k, In k (lg_exp_keys l) <-> K k.
Lemma loads_all {A} (f : fs nd) (path : A -> string) l Ds (load1 : world -> A -> world * result nat) :
  (forall w a, In a l -> load1 w a = load w f (path a) false false) -> Forall2 (fun a D => holds f (path a) D) l Ds ->
  forall w, wf_world w -> exists w', wmap load1 l w = (w', Ok (seq (length (w_logs w)) (length l))) /\ wf_world w' /\ grows w w' /\
    length (w_logs w') = length (w_logs w) + length l /\ Forall2 (fun D j => but_arrays D w' j) Ds (seq (length (w_logs w)) (length l)).
Proof.
  intros H F. induction F as [|a D l Ds Ha F IH]; intros w W; cbn [wmap length seq].
  - exists w. split; [reflexivity|]. split; [exact W|]. split; [apply grows_refl|]. split; [lia|constructor].
  - rewrite (H w a (or_introl eq_refl)). destruct (holds_load _ _ _ w Ha W) as (w1 & -> & W1 & G1 & B1 & L1).
    cbn [wbind]. destruct (IH (fun w a I => H w a (or_intror I)) w1 W1) as (w2 & -> & W2 & G2 & L2 & B2). rewrite L1 in *. exists w2.
    split; [reflexivity|]. split; [exact W2|]. split; [exact (grows_trans _ _ _ G1 G2)|]. split; [lia|]. constructor; [exact (grows_but _ _ _ _ W1 G2 B1)|exact B2].
Qed.
Lemma merged_loads (w w1 : world) K D0 Ds : wf_world w1 -> grows w w1 -> length (w_logs w1) = length (w_logs w) + S (length Ds) ->
  (forall D, In D (D0 :: Ds) -> run_of D K) ->
  Forall2 (fun D j => but_arrays D w1 j) (D0 :: Ds) (seq (length (w_logs w)) (S (length Ds))) ->
  exists w', merge_experiments w1 (seq (length (w_logs w)) (S (length Ds))) = (w', Ok (length (w_logs w))) /\ wf_world w' /\ grows w w' /\ length (w_logs w) < length (w_logs w') /\
    (forall k, get_value w' (length (w_logs w)) k = get_value w1 (length (w_logs w)) k) /\
    forall key xss, Forall2 (fun D xs => scored D 0 key xs) (D0 :: Ds) xss -> scored w' (length (w_logs w)) key (List.concat xss).
Proof.
  intros W1 G1 L1 HK F. set (i := length (w_logs w)) in *. cbn [seq] in F |- *. set (js := seq (S i) (length Ds)) in *.
  assert (Hb : forall j, i <= j < i + S (length Ds) -> exists D l, In D (D0 :: Ds) /\ nth_error (w_logs w1) j = Some l /\ forall k, In k (lg_exp_keys l) <-> K k).
  { intros j Hj. destruct (f2_nth _ _ _ F) with (i := j - i) (a := nth (j - i) (D0 :: Ds) D0) as (j' & Ej & B).
    - apply nth_error_nth'. cbn [List.length]. lia.
    - assert (j' = j). { change (i :: js) with (seq i (S (length Ds))) in Ej. rewrite nth_error_seq in Ej. destruct (Nat.ltb_spec (j - i) (S (length Ds))); [|discriminate]. assert (i + (j - i) = j') by congruence. lia. } subst j'.
      destruct B as (l & l' & A & B & C & _ & _ & Z). exists (nth (j - i) (D0 :: Ds) D0), l'. assert (I : In (nth (j - i) (D0 :: Ds) D0) (D0 :: Ds)) by (apply nth_In; cbn [List.length]; lia).
      split; [exact I|]. split; [exact B|]. intro k. destruct (HK _ I) as (l2 & A2 & Hk). rewrite Z. assert (l2 = l) by congruence. subst. apply Hk. }
  destruct (Hb i) as (_ & a & _ & Ea & Ka); [lia|].
  assert (Ni : ~ In i js) by (unfold js; rewrite in_seq; lia).
  assert (Hj : forall j, In j js -> nth_error (w_logs w1) j <> None) by (intros j I; unfold js in I; apply in_seq in I; apply nth_error_Some; lia).
  destruct (merge_spec w1 i js a Ea Hj Ni) as [M _]. destruct M as (w' & a' & Em & Ea' & Eg & Ek & _ & _ & Ho & V).
  { intros j b I Ej k. unfold js in I. apply in_seq in I. destruct (Hb j) as (_ & l & _ & El & Kl); [lia|]. assert (l = b) by congruence. subst. rewrite Kl, Ka. tauto. }
  exists w'. split; [exact Em|]. cbn [merge_experiments] in Em. destruct (exps_after_append w1 i js a w' Ea Ni Em) as (Er & Hl & _ & bs & Fb & Ei).
  assert (Lw : length (w_logs w') = length (w_logs w1)).
  { destruct (Nat.lt_trichotomy (length (w_logs w')) (length (w_logs w1))) as [X|[X|X]]; [|exact X|].
    - exfalso. destruct (Nat.eq_dec (length (w_logs w')) i) as [E|N].
      + assert (nth_error (w_logs w') i = None) by (apply nth_error_None; lia). congruence.
      + assert (Y : nth_error (w_logs w') (length (w_logs w')) = None) by (apply nth_error_None; lia). rewrite Hl in Y by exact N. apply nth_error_None in Y. lia.
    - exfalso. assert (Y : nth_error (w_logs w') (length (w_logs w1)) <> None) by (apply nth_error_Some; lia). rewrite Hl in Y by lia. apply Y, nth_error_None. lia. }
  split; [|split; [|split; [lia|split]]].
  - destruct W1 as [A B]. split; [|rewrite Er; exact B]. intros j l El. rewrite Er. destruct (Nat.eq_dec j i) as [->|N]; [|rewrite Hl in El by exact N; exact (A j l El)].
    rewrite Ei in El. injection El as <-. cbn [lg_glob lg_exps]. split; [apply (A i a Ea)|]. intros r I. apply in_app_or in I as [I|I]; [exact (proj2 (A i a Ea) r I)|].
    apply in_flat_map in I as (b & I & J). apply In_nth_error in I as [q I]. assert (exists j, nth_error (w_logs w1) j = Some b) as [j Ej].
    { clear - Fb I. revert q I. induction Fb as [|j b' js bs E F IH]; intros [|q] I; try discriminate; [exists j; cbn in I; congruence|exact (IH q I)]. }
    exact (proj2 (A j b Ej) r J).
  - destruct G1 as (A & B & C). split; [rewrite Er; exact A|]. split; [|lia]. intros j J. fold i in J. rewrite Hl by lia. apply B. exact J.
  - intro k. unfold get_value, get_logger. rewrite Ea', Ea. cbn [bind]. now rewrite Eg.
  - intros key xss Fx. destruct (V W1 key) as (vss & A & B). apply (merged_scored w1 w' i key vss (i :: js) xss A); [|exact B].
    clear - F Fx. revert F. generalize (i :: js). induction Fx as [|D xs Ds' xss S Fx IH]; intros jj F; inversion F as [|? j ? jj' B F']; subst; constructor.
    + apply (recorded_scored D); [exact S|]. right. right. exact B.
    + now apply IH.
Qed.
