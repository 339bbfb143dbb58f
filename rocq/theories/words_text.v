(** * The words of a sentence, and sorted lists of words. *)

From Coq Require Import List Arith Bool String Ascii Lia Sorted Permutation.
Import ListNotations.
From Verif Require Import Py objects_model objects_spec objects_proof sound_file words_model words_spec.
Local Open Scope nat_scope.
Local Open Scope string_scope.

(** ** Small letters *)
Lemma small_spec c d : small c d <-> d = lower_char c.
Proof.
  unfold small, lower_char. destruct ((65 <=? nat_of_ascii c) && (nat_of_ascii c <=? 90))%nat eqn:B.
  - apply andb_true_iff in B as [B1 B2]. apply Nat.leb_le in B1, B2. split.
    + intros [[_ H]|[H _]]; [|lia]. rewrite <- H. now rewrite ascii_nat_embedding.
    + intros ->. left. split; [lia|]. apply nat_ascii_embedding. lia.
  - split; [intros [[H _]|[_ H]]; auto|intros ->; right; split; auto]; [|intros H]; apply andb_false_iff in B as [B|B]; apply Nat.leb_gt in B; lia.
Qed.
Lemma lowered_spec s : forall t, lowered s t <-> t = lower s.
Proof.
  unfold lowered. induction s as [|c s IH]; intros [|d t]; cbn; split; intro H; try inversion H; subst; auto; try discriminate.
  - apply small_spec in H3. subst. apply IH in H5. now subst.
  - constructor; [now apply small_spec|now apply IH].
Qed.

(** ** Punctuation at the ends *)
Lemma string_app_nil s : s ++ "" = s.
Proof. induction s as [|c s IH]; cbn; congruence. Qed.
Notation marks := ".?!".
Lemma punct_spec c : is_char marks c = true <-> punct c.
Proof.
  unfold is_char, punct. rewrite existsb_exists. cbn. split.
  - intros (d & I & H). apply Ascii.eqb_eq in H. subst. exact I.
  - intro I. exists c. split; auto. apply Ascii.eqb_refl.
Qed.
Lemma not_punct c : is_char marks c = false <-> ~ punct c.
Proof. rewrite <- punct_spec. destruct (is_char marks c); intuition congruence. Qed.
Lemma lstrip_app a s : chars punct a -> lstrip marks (a ++ s) = lstrip marks s.
Proof. induction a as [|c a IH]; intro H; cbn [append lstrip]; auto. apply chars_cons in H as [H H']. apply punct_spec in H. rewrite H. auto. Qed.
Lemma rstrip_all a : chars punct a -> rstrip marks a = "".
Proof. induction a as [|c a IH]; intro H; cbn [rstrip]; auto. apply chars_cons in H as [H H']. apply punct_spec in H. now rewrite (IH H'), H. Qed.
Lemma rstrip_app a s : chars punct a -> rstrip marks (s ++ a) = rstrip marks s.
Proof. intro H. induction s as [|c s IH]; cbn [append rstrip]; [now apply rstrip_all|]. now rewrite IH. Qed.
Lemma rstrip_clean t : (forall c r, t = r ++ String c "" -> ~ punct c) -> rstrip marks t = t.
Proof.
  induction t as [|c t IH]; intro H; cbn [rstrip]; auto. destruct t as [|d t].
  - cbn [rstrip]. rewrite (proj2 (not_punct c)); auto. exact (H c "" eq_refl).
  - rewrite IH; [reflexivity|]. intros e r E. apply (H e (String c r)). now rewrite E.
Qed.
Lemma strip_trimmed s : trimmed s (strip marks s).
Proof.
  assert (L : forall s, exists a, s = a ++ lstrip marks s /\ chars punct a /\ forall c r, lstrip marks s = String c r -> ~ punct c).
  { clear s. induction s as [|c s (a & E & A & H)]; [exists ""; cbn; repeat split; [apply chars_nil|discriminate]|]. cbn [lstrip]. destruct (is_char marks c) eqn:P.
    - exists (String c a). cbn. rewrite <- E. apply punct_spec in P. repeat split; auto. apply chars_cons. auto.
    - exists "". repeat split; [apply chars_nil|]. intros d r [= <- <-]. now apply not_punct. }
  assert (R : forall s, exists b, s = rstrip marks s ++ b /\ chars punct b /\ forall c r, rstrip marks s = r ++ String c "" -> ~ punct c).
  { clear s L. induction s as [|c s (b & E & B & H)]; [exists ""; cbn; repeat split; [apply chars_nil|intros c [|]; discriminate]|]. cbn [rstrip]. destruct (rstrip marks s) as [|d t] eqn:Er.
    - destruct (is_char marks c) eqn:P.
      + exists (String c b). cbn in *. subst. repeat split; [apply chars_cons; split; auto; now apply punct_spec|intros d [|]; discriminate].
      + exists b. cbn in *. subst. repeat split; auto. intros d [|e r] [=]; [subst; now apply not_punct|destruct r; discriminate].
    - exists b. cbn in E |- *. rewrite E. repeat split; auto. intros e [|f r] [=]. subst. now apply (H e r). }
  unfold strip. destruct (L s) as (a & Ea & A & Ha). destruct (R (lstrip marks s)) as (b & Eb & B & Hb). exists a, b. rewrite <- Eb. split; [exact Ea|]. do 2 (split; [assumption|]). split; [|exact Hb].
  intros c r E. rewrite E in Eb. exact (Ha c (r ++ b) Eb).
Qed.
Lemma trimmed_spec s t : trimmed s t <-> t = strip marks s.
Proof.
  split; [|intros ->; apply strip_trimmed]. intros (a & b & -> & A & B & H1 & H2). unfold strip. rewrite (lstrip_app _ _ A). destruct t as [|c t].
  - cbn [append]. replace (lstrip marks b) with ""; auto. symmetry. rewrite <- (string_app_nil b). now rewrite lstrip_app.
  - cbn [append lstrip]. rewrite (proj2 (not_punct c) (H1 c t eq_refl)). change (String c (t ++ b)) with (String c t ++ b). rewrite (rstrip_app _ _ B). symmetry. now apply rstrip_clean.
Qed.

Lemma says_spec s w : says s w <-> In w (words_of s).
Proof.
  unfold says, words_of. split.
  - intros (t & u & ws & T & U & W & I). apply trimmed_spec in T. apply lowered_spec in U. apply words_iff in W. now subst.
  - intro I. exists (strip marks s), (lower (strip marks s)), (split (lower (strip marks s))). split; [now apply trimmed_spec|]. split; [now apply lowered_spec|]. split; [now apply words_iff|exact I].
Qed.

(** ** Sorted lists of words *)
Lemma ltb_before a b : String.ltb a b = true <-> before a b.
Proof. unfold String.ltb, before. destruct (String.compare a b); split; congruence. Qed.
Lemma insert_in s l x : In x (insert_string s l) <-> x = s \/ In x l.
Proof. induction l as [|t l IH]; cbn; [intuition|]. destruct (String.ltb t s); cbn; rewrite ?IH; intuition. Qed.
Lemma sort_in l x : In x (sort_strings l) <-> In x l.
Proof. induction l as [|t l IH]; cbn; [tauto|]. rewrite insert_in, IH. intuition. Qed.
Lemma insert_nodup s l : ~ In s l -> NoDup l -> NoDup (insert_string s l).
Proof.
  intros N H. induction H as [|t l Nt H IH]; cbn; [repeat constructor; auto|]. destruct (String.ltb t s); [|constructor; auto; now constructor].
  constructor; [rewrite insert_in; intros [->|I]; [apply N; now left|auto]|]. apply IH. intro I. apply N. now right.
Qed.
Lemma sort_nodup l : NoDup l -> NoDup (sort_strings l).
Proof. induction 1 as [|t l N H IH]; cbn; [constructor|]. apply insert_nodup; auto. now rewrite sort_in. Qed.
Lemma insert_sorted s l : ~ In s l -> StronglySorted before l -> StronglySorted before (insert_string s l).
Proof.
  intros N H. induction H as [|t l H IH F]; cbn; [repeat constructor|]. destruct (String.ltb t s) eqn:L.
  - apply ltb_before in L. constructor; [apply IH; intro I; apply N; now right|]. rewrite Forall_forall in *. intros x I. apply insert_in in I as [->|I]; auto.
  - assert (B : before s t).
    { unfold before. rewrite String.compare_antisym. unfold String.ltb in L. destruct (String.compare t s) eqn:C; cbn; auto; [|discriminate]. apply String.compare_eq_iff in C. exfalso. apply N. left. exact C. }
    constructor; [now constructor|]. constructor; [exact B|]. rewrite Forall_forall in *. intros x I. exact (compare_trans _ _ _ B (F x I)).
Qed.
Lemma sort_sorted l : NoDup l -> StronglySorted before (sort_strings l).
Proof. induction 1 as [|t l N H IH]; cbn; [constructor|]. apply insert_sorted; auto. now rewrite sort_in. Qed.
