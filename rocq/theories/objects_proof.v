(** * Proofs on the text files of object databases. *)

From Coq Require Import List ZArith Arith Bool QArith Reals String Ascii Lia.
Import ListNotations.
From Verif Require Import Py Py_proof sound_model sound_count nd_model nd_spec array_utils_spec motion_model motion_proof objects_model objects_spec.
Local Open Scope nat_scope.
Local Open Scope string_scope.

(** ** Characters *)
Lemma append_nil_r (s : string) : s ++ "" = s.
Proof. induction s as [|c s IH]; [reflexivity|]. cbn [append]. rewrite IH. reflexivity. Qed.
Lemma space_spec c : is_space c = true <-> space c.
Proof.
  unfold is_space, space. set (n := nat_of_ascii c). rewrite !orb_true_iff, !andb_true_iff, !Nat.leb_le, !Nat.eqb_eq. cbn [In]. lia.
Qed.
Lemma digit_spec c : is_digit c = true <-> dec c.
Proof. unfold is_digit, dec. rewrite andb_true_iff, !Nat.leb_le. reflexivity. Qed.
Lemma chars_cons P c s : chars P (String c s) <-> P c /\ chars P s.
Proof. unfold chars. cbn. firstorder congruence. Qed.
Lemma chars_nil P : chars P "". Proof. intros c []. Qed.
Lemma chars_app P a b : chars P (a ++ b) <-> chars P a /\ chars P b.
Proof. induction a as [|c a IH]; cbn [append]; [split; [split; [apply chars_nil|assumption]|tauto]|]. rewrite !chars_cons, IH. tauto. Qed.
Lemma all_chars_spec p P s : (forall c, p c = true <-> P c) -> (all_chars p s = true <-> chars P s).
Proof.
  intros H. induction s as [|c s IH]; cbn [all_chars]; [split; [intros _; apply chars_nil|reflexivity]|]. rewrite andb_true_iff, chars_cons, IH, H. reflexivity.
Qed.
Lemma isspace_spec l : isspace l = true <-> blank_line l.
Proof.
  unfold isspace, blank_line, blank. destruct l as [|c l]; [split; [discriminate|intros []; congruence]|].
  rewrite (all_chars_spec _ _ _ space_spec). split; [intros H; split; [discriminate|exact H]|intros []; assumption].
Qed.
Lemma without_filter {A} (p : A -> bool) (P : A -> Prop) l r : (forall x, p x = true <-> P x) -> (without P l r <-> r = filter (fun x => negb (p x)) l).
Proof.
  intros H. split.
  - induction 1 as [|x l r X _ IH|x l r X _ IH]; cbn [filter]; [reflexivity| |].
    + apply H in X. rewrite X. exact IH.
    + destruct (p x) eqn:E; [apply H in E; contradiction|]. cbn. congruence.
  - intros ->. induction l as [|x l IH]; cbn [filter]; [constructor|]. destruct (p x) eqn:E; cbn.
    + constructor; [apply H, E|exact IH].
    + constructor; [intros X; apply H in X; congruence|exact IH].
Qed.
Lemma without_lines l r : without blank_line l r <-> r = filter (fun x => negb (isspace x)) l.
Proof. apply without_filter, isspace_spec. Qed.

(** ** Words *)
Lemma no_space c : is_space c = false <-> ~ space c.
Proof. rewrite <- (space_spec c). destruct (is_space c); split; congruence. Qed.
(** [split_ws]: the word at the start, and the words of the rest. *)
Lemma split_ws_words s : let '(w, ws) := split_ws s in exists r, s = w ++ r /\ chars (fun c => ~ space c) w /\
  (r = "" \/ exists c r', r = String c r' /\ space c) /\ words r ws.
Proof.
  induction s as [|c s IH]; cbn [split_ws].
  - exists "". split; [reflexivity|]. split; [apply chars_nil|]. split; [auto|]. constructor. apply chars_nil.
  - destruct (split_ws s) as (w, ws). destruct IH as (r & -> & HW & HR & IH). destruct (is_space c) eqn:E.
    + apply space_spec in E. exists (String c (w ++ r)). split; [reflexivity|]. split; [apply chars_nil|]. split; [right; eauto|].
      destruct w as [|c0 w]; cbn [cons_word append].
      * inversion IH as [b B|b x r' xs B W R X]; subst.
        -- constructor. apply chars_cons. auto.
        -- change (String c (b ++ x ++ r')) with (String c b ++ x ++ r'). constructor; auto. apply chars_cons. auto.
      * change (String c (String c0 (w ++ r))) with (String c "" ++ String c0 w ++ r). constructor; auto.
        -- apply chars_cons. split; [exact E|apply chars_nil].
        -- split; [discriminate|exact HW].
    + apply no_space in E. exists r. split; [reflexivity|]. split; [apply chars_cons; auto|]. auto.
Qed.
Lemma split_words s : words s (split s).
Proof.
  unfold split. pose proof (split_ws_words s) as H. destruct (split_ws s) as (w, ws). destruct H as (r & -> & HW & HR & H).
  destruct w as [|c w]; [exact H|]. cbn [cons_word]. change (words ("" ++ String c w ++ r) (String c w :: ws)).
  constructor; [apply chars_nil|split; [discriminate|exact HW]|exact HR|exact H].
Qed.
Lemma split_ws_blank b s : blank b -> b <> "" -> split_ws (b ++ s) = ("", split s).
Proof.
  induction b as [|c b IH]; [congruence|]. intros H _. apply chars_cons in H. destruct H as (C & B). cbn [append split_ws].
  destruct b as [|c' b].
  - cbn [append]. unfold split. destruct (split_ws s). apply space_spec in C. rewrite C. reflexivity.
  - rewrite (IH B) by discriminate. apply space_spec in C. rewrite C. reflexivity.
Qed.
Lemma split_ws_word w s : chars (fun c => ~ space c) w -> (s = "" \/ exists c r, s = String c r /\ space c) -> split_ws (w ++ s) = (w, split s).
Proof.
  intros W HS. induction w as [|c w IH]; cbn [append].
  - destruct HS as [->|(c & r & -> & C)]; [reflexivity|]. apply space_spec in C. unfold split. cbn [split_ws]. destruct (split_ws r). rewrite C. reflexivity.
  - apply chars_cons in W. destruct W as (C & W). cbn [split_ws]. rewrite (IH W). apply no_space in C. rewrite C. reflexivity.
Qed.
Lemma words_split s ws : words s ws -> split s = ws.
Proof.
  induction 1 as [b B|b w r ws B (NE & W) R H IH].
  - destruct b as [|c b]; [reflexivity|]. unfold split. rewrite <- (append_nil_r (String c b)).
    rewrite (split_ws_blank (String c b) "" B) by discriminate. reflexivity.
  - assert (X : split (w ++ r) = w :: ws) by (unfold split at 1; rewrite (split_ws_word w r W R), IH; destruct w; [congruence|reflexivity]).
    destruct b as [|c b]; [exact X|]. unfold split. rewrite (split_ws_blank (String c b) (w ++ r) B) by discriminate. exact X.
Qed.
Lemma words_iff s ws : words s ws <-> split s = ws.
Proof. split; [apply words_split|intros <-; apply split_words]. Qed.

(** ** Blocks *)
Definition no_bar (s : string) : Prop := chars (fun c => c <> "|"%char) s.
Lemma split_bar_blocks s : let '(b, bs) := split_bar s in s = String.concat "|" (b :: bs) /\ (forall x, In x (b :: bs) -> no_bar x).
Proof.
  induction s as [|c s IH]; cbn [split_bar]; [split; [reflexivity|intros x [<-|[]]; apply chars_nil]|].
  destruct (split_bar s) as (b, bs). destruct IH as (-> & H). destruct (Ascii.eqb_spec c "|"%char) as [->|N].
  - split; [reflexivity|]. intros x [<-|I]; [apply chars_nil|auto].
  - split; [destruct bs; reflexivity|]. intros x [<-|I]; [apply chars_cons; split; [exact N|apply H; cbn; auto]|apply H; cbn; auto].
Qed.
Lemma split_bar_concat b : forall bs, no_bar b -> (forall x, In x bs -> no_bar x) -> split_bar (String.concat "|" (b :: bs)) = (b, bs).
Proof.
  intros bs. revert b. induction bs as [|b' bs IH]; intros b NB H.
  - cbn [String.concat]. induction b as [|c b IHb]; [reflexivity|]. apply chars_cons in NB. destruct NB as (C & NB). cbn [split_bar].
    rewrite (IHb NB). destruct (Ascii.eqb_spec c "|"%char); [contradiction|reflexivity].
  - change (String.concat "|" (b :: b' :: bs)) with (b ++ "|" ++ String.concat "|" (b' :: bs)).
    assert (X : split_bar ("|" ++ String.concat "|" (b' :: bs)) = ("", b' :: bs)).
    { cbn [append split_bar]. rewrite IH; [reflexivity|apply H; cbn; auto|intros x I; apply H; cbn; auto]. }
    set (rest := "|" ++ String.concat "|" (b' :: bs)) in *. clearbody rest.
    induction b as [|c b IHb]; cbn [append split_bar]; [exact X|].
    apply chars_cons in NB. destruct NB as (C & NB). rewrite (IHb NB). destruct (Ascii.eqb_spec c "|"%char); [contradiction|reflexivity].
Qed.

Lemma drop_last_snoc s c : drop_last (s ++ String c "") = s.
Proof. induction s as [|a s IH]; [reflexivity|]. cbn [append drop_last]. destruct s as [|b s]; [reflexivity|]. cbn [append] in *. rewrite IH. reflexivity. Qed.
Lemma snoc_cases s : s = "" \/ exists a c, s = a ++ String c "".
Proof. induction s as [|x s IH]; [auto|right]. destruct IH as [->|(a & c & ->)]; [exists "", x; reflexivity|exists (String x a), c; reflexivity]. Qed.

(** ** File names *)
Lemma span_digits_spec s : let '(a, r) := span_digits s in s = a ++ r /\ chars dec a /\ (r = "" \/ exists c r', r = String c r' /\ ~ dec c).
Proof.
  induction s as [|c s IH]; cbn [span_digits]; [split; [reflexivity|split; [apply chars_nil|auto]]|].
  destruct (is_digit c) eqn:E.
  - destruct (span_digits s) as (a, r). destruct IH as (-> & A & R). split; [reflexivity|]. split; [|exact R]. apply chars_cons. split; [apply digit_spec, E|exact A].
  - split; [reflexivity|]. split; [apply chars_nil|]. right. exists c, s. split; [reflexivity|]. intros D. apply digit_spec in D. congruence.
Qed.
Lemma span_digits_app a r : chars dec a -> (r = "" \/ exists c r', r = String c r' /\ ~ dec c) -> span_digits (a ++ r) = (a, r).
Proof.
  intros A HR. induction a as [|c a IH]; cbn [append].
  - destruct HR as [->|(c & r' & -> & C)]; [reflexivity|]. cbn [span_digits]. destruct (is_digit c) eqn:E; [apply digit_spec in E; contradiction|reflexivity].
  - apply chars_cons in A. destruct A as (C & A). cbn [span_digits]. apply digit_spec in C. rewrite C, (IH A). reflexivity.
Qed.
Definition time_text (t : string) : Prop := exists a c b, t = a ++ String c b /\ digits a /\ digits b /\ c <> newline.
Lemma dec_newline c : dec c -> c <> newline.
Proof. intros D ->. unfold dec in D. change (nat_of_ascii newline) with 10 in D. lia. Qed.
Lemma is_time_spec s : is_time s = true <-> time_text s.
Proof.
  unfold is_time. pose proof (span_digits_spec s) as H. destruct (span_digits s) as (a, r) eqn:SP. destruct H as (E & A & R). split.
  - destruct r as [|c r].
    + rewrite Nat.leb_le. intros L. rewrite append_nil_r in E. subst s. destruct a as [|x [|y [|z a]]]; cbn in L; try lia.
      exists (String x ""), y, (String z a). split; [reflexivity|]. apply chars_cons in A. destruct A as (X & A). apply chars_cons in A. destruct A as (Y & A).
      split; [split; [discriminate|apply chars_cons; split; [exact X|apply chars_nil]]|]. split; [split; [discriminate|exact A]|]. apply dec_newline, Y.
    + rewrite !andb_true_iff, !negb_true_iff. intros (((NA & NC) & NR) & D). apply (all_chars_spec _ _ _ digit_spec) in D.
      apply String.eqb_neq in NA, NR. apply Ascii.eqb_neq in NC. exists a, c, r. unfold digits. auto 6.
  - intros (a0 & c0 & b0 & -> & (NA & DA) & (NB & DB) & NC). destruct (is_digit c0) eqn:DC.
    + assert (X : span_digits (a0 ++ String c0 b0) = (a0 ++ String c0 b0, "")).
      { rewrite <- (append_nil_r (a0 ++ String c0 b0)) at 1. apply span_digits_app; [|auto]. apply chars_app. split; [exact DA|]. apply chars_cons. split; [apply digit_spec, DC|exact DB]. }
      rewrite X in SP. injection SP as <- <-. apply Nat.leb_le. rewrite length_app. cbn [String.length].
      destruct a0; [congruence|]. destruct b0; [congruence|]. cbn [String.length]. lia.
    + assert (X : span_digits (a0 ++ String c0 b0) = (a0, String c0 b0)).
      { apply span_digits_app; [exact DA|]. right. exists c0, b0. split; [reflexivity|]. intros D. apply digit_spec in D. congruence. }
      rewrite X in SP. injection SP as <- <-. rewrite !andb_true_iff, !negb_true_iff. repeat split; try (apply String.eqb_neq; assumption).
      * apply Ascii.eqb_neq, NC.
      * apply (all_chars_spec _ _ _ digit_spec), DB.
Qed.
Lemma time_no_newline t : time_text t -> chars (fun c => c <> newline) t.
Proof.
  intros (a & c & b & -> & (_ & A) & (_ & B) & C). apply chars_app. split; [intros x I; apply dec_newline, A, I|]. apply chars_cons. split; [exact C|]. intros x I. apply dec_newline, B, I.
Qed.
Lemma match_time_spec s t : match_time s = Some t <-> time_text t /\ (s = t \/ s = t ++ String newline "").
Proof.
  unfold match_time. destruct (is_time s) eqn:E.
  - apply is_time_spec in E. split; [intros [= <-]; auto|]. intros (T & [->|EQ]); [reflexivity|]. exfalso. subst s. apply time_no_newline in E. apply chars_app in E.
    destruct E as (_ & E). apply chars_cons in E. destruct E as (E & _). congruence.
  - destruct (_ && _) eqn:F.
    + apply andb_true_iff in F. destruct F as (F1 & F2). apply String.eqb_eq in F1. apply is_time_spec in F2. split.
      * intros [= <-]. auto.
      * intros (T & [->|EQ]); [apply is_time_spec in T; congruence|]. rewrite EQ, drop_last_snoc. reflexivity.
    + split; [discriminate|]. intros (T & [->|EQ]); [apply is_time_spec in T; congruence|]. subst s. rewrite drop_last_snoc, String.eqb_refl in F.
      apply is_time_spec in T. rewrite T in F. discriminate.
Qed.
Definition here (s l t : string) : Prop := exists tail, s = "_o" ++ l ++ "_" ++ t ++ tail /\ digits l /\ time_text t /\ (tail = "" \/ tail = String newline "").
Lemma under_not_dec : ~ dec "_"%char. Proof. unfold dec. cbn. lia. Qed.
Lemma match_at_spec s l t : match_at s = Some (l, t) <-> here s l t.
Proof.
  split.
  - unfold match_at. destruct s as [|c1 [|c2 r]]; try discriminate. destruct (_ && _) eqn:E; [|discriminate]. apply andb_true_iff in E. destruct E as (E1 & E2).
    apply Ascii.eqb_eq in E1, E2. subst c1 c2. pose proof (span_digits_spec r) as H. destruct (span_digits r) as (a, q). destruct H as (-> & A & _).
    destruct q as [|c3 q]; [discriminate|]. destruct (_ && _) eqn:E; [|discriminate]. apply andb_true_iff in E. destruct E as (E1 & E2).
    apply negb_true_iff, String.eqb_neq in E1. apply Ascii.eqb_eq in E2. subst c3. destruct (match_time q) as [t'|] eqn:M; [|discriminate]. intros [= -> ->].
    apply match_time_spec in M. destruct M as (T & [->| ->]).
    + exists "". rewrite append_nil_r. split; [reflexivity|]. unfold digits. auto 6.
    + exists (String newline ""). split; [reflexivity|]. unfold digits. auto 6.
  - intros (tail & -> & (NL & DL) & T & TA). cbn [append match_at Ascii.eqb Bool.eqb andb].
    rewrite (span_digits_app l (String "_"%char (t ++ tail)) DL) by (right; eauto using under_not_dec).
    apply String.eqb_neq in NL. rewrite NL. cbn [negb Ascii.eqb Bool.eqb andb].
    assert (M : match_time (t ++ tail) = Some t) by (apply match_time_spec; split; [exact T|destruct TA as [->| ->]; [left; apply append_nil_r|right; reflexivity]]).
    rewrite M. reflexivity.
Qed.
Lemma app_prefix (a b x y : string) : a ++ x = b ++ y -> (exists d, b = a ++ d /\ x = d ++ y) \/ (exists d, a = b ++ d /\ y = d ++ x).
Proof.
  revert b. induction a as [|c a IH]; intros b; cbn [append]; [intros ->; left; exists b; auto|]. destruct b as [|c' b]; cbn [append].
  - intros <-. right. exists (String c a). auto.
  - intros [= <- E]. destruct (IH b E) as [(d & -> & ->)|(d & -> & ->)]; [left|right]; exists d; auto.
Qed.
(** A match cannot contain another one. *)
Lemma o_not_dec : ~ dec "o"%char. Proof. unfold dec. cbn. lia. Qed.
Lemma chars_in P s c a b : chars P s -> s = a ++ String c b -> P c.
Proof. intros H ->. apply chars_app in H. destruct H as (_ & H). apply chars_cons in H. tauto. Qed.
Lemma one_mark t tail pre s : time_text t -> (tail = "" \/ tail = String newline "") -> t ++ tail <> pre ++ "_o" ++ s.
Proof.
  intros (a & c & b & -> & (_ & A) & (_ & B) & _) TA E. rewrite append_assoc in E. cbn [append] in E.
  assert (REST : forall x p, chars dec x -> x ++ tail <> p ++ String "o" s).
  { intros x p X F. apply app_prefix in F. destruct F as [(d & -> & F)|(d & -> & F)].
    - destruct TA as [-> | ->]; destruct d as [|y d]; cbn in F; try discriminate. injection F as _ F. destruct d; discriminate.
    - destruct d as [|y d]; cbn in F; [destruct TA as [-> | ->]; discriminate|]. injection F as <- F. apply o_not_dec. eapply chars_in; [exact X|reflexivity]. }
  apply app_prefix in E. destruct E as [(d & -> & E)|(d & -> & E)].
  - destruct d as [|y d]; cbn [append] in E.
    + injection E as -> E. exact (REST b "" B E).
    + injection E as <- E. apply (REST b (d ++ "_") B). rewrite append_assoc. exact E.
  - destruct d as [|y d]; cbn [append] in E.
    + injection E as <- E. exact (REST b "" B (eq_sym E)).
    + injection E as <- E. apply under_not_dec. eapply chars_in; [exact A|reflexivity].
Qed.
Lemma same_mark l l' x y : digits l -> digits l' -> l ++ "_" ++ x = l' ++ "_" ++ y -> l = l' /\ x = y.
Proof.
  intros (_ & A) (_ & B) E. apply app_prefix in E. destruct E as [(d & -> & E)|(d & -> & E)].
  - destruct d as [|c d]; cbn in E; [injection E as <-; rewrite append_nil_r; auto|]. injection E as <- E. exfalso. apply under_not_dec. eapply chars_in; [exact B|reflexivity].
  - destruct d as [|c d]; cbn in E; [injection E as <-; rewrite append_nil_r; auto|]. injection E as <- E. exfalso. apply under_not_dec. eapply chars_in; [exact A|reflexivity].
Qed.
Lemma same_time t t' a b : time_text t -> time_text t' -> (a = "" \/ a = String newline "") -> (b = "" \/ b = String newline "") -> t ++ a = t' ++ b -> t = t'.
Proof.
  intros T T' A B E. assert (M : match_time (t ++ a) = Some t) by (apply match_time_spec; split; [exact T|destruct A as [->| ->]; [left; apply append_nil_r|auto]]).
  rewrite E in M. apply match_time_spec in M. destruct M as (_ & [X|X]); destruct B as [->| ->].
  - rewrite append_nil_r in X. congruence.
  - exfalso. apply time_no_newline in T. rewrite <- X in T. apply chars_app in T. destruct T as (_ & T). apply chars_cons in T. destruct T; congruence.
  - rewrite append_nil_r in X. exfalso. apply time_no_newline in T'. rewrite X in T'. apply chars_app in T'. destruct T' as (_ & T'). apply chars_cons in T'. destruct T'; congruence.
  - apply cancel_right in X. congruence.
Qed.
Lemma named_here name l t : named name l t <-> exists pre s, name = pre ++ s /\ here s l t.
Proof.
  split.
  - intros (pre & a & c & b & tail & E & L & -> & A & B & C & T). exists pre. eexists. split; [exact E|]. exists tail. split; [reflexivity|]. split; [exact L|].
    split; [exists a, c, b; auto|exact T].
  - intros (pre & s & -> & tail & -> & L & (a & c & b & -> & A & B & C) & T). exists pre, a, c, b, tail. auto 10.
Qed.
Lemma search_spec name l t : search name = Some (l, t) <-> named name l t.
Proof.
  rewrite named_here. induction name as [|c name IH].
  - cbn. split; [discriminate|]. intros (pre & s & E & tail & -> & _). destruct pre; discriminate.
  - cbn [search]. destruct (match_at (String c name)) as [(l', t')|] eqn:M.
    + apply match_at_spec in M. split; [intros [= -> ->]; exists "", (String c name); auto|]. intros (pre & s & E & H).
      destruct pre as [|c' pre]; cbn [append] in E.
      * subst s. destruct M as (ta & E1 & D1 & T1 & A1). destruct H as (tb & E2 & D2 & T2 & A2). rewrite E1 in E2. cbn [append] in E2. injection E2 as E2.
        apply (same_mark _ _ _ _ D1 D2) in E2. destruct E2 as (-> & E2). apply (same_time _ _ _ _ T1 T2 A1 A2) in E2. subst. reflexivity.
      * exfalso. destruct H as (tb & -> & D2 & T2 & A2). destruct M as (ta & E1 & D1 & T1 & A1). rewrite E in E1. cbn [append] in E1. injection E1 as -> E1.
        destruct pre as [|c2 pre]; cbn [append] in E1; [discriminate|]. injection E1 as -> E1.
        assert (X : l' ++ "_" ++ t' ++ ta = pre ++ "_o" ++ l ++ "_" ++ t ++ tb) by (first [exact E1|exact (eq_sym E1)]).
        apply app_prefix in X. destruct X as [(d & -> & X)|(d & -> & X)].
        -- cbn [append] in X. destruct d as [|y d]; cbn [append] in X.
           ++ injection X as X. destruct T1 as (a & z & b & -> & (NA & A) & _). destruct a as [|a0 a]; [congruence|]. cbn in X. injection X as -> _.
              apply chars_cons in A. destruct A as (A & _). exact (o_not_dec A).
           ++ injection X as <- X. exact (one_mark t' ta d (l ++ "_" ++ t ++ tb) T1 A1 X).
        -- destruct D1 as (_ & D1). destruct d as [|y d]; cbn [append] in X.
           ++ injection X as X. symmetry in X. destruct T1 as (a & z & b & -> & (NA & A) & _). destruct a as [|a0 a]; [congruence|]. cbn in X. injection X as -> _.
              apply chars_cons in A. destruct A as (A & _). exact (o_not_dec A).
           ++ injection X as <- X. apply under_not_dec. eapply chars_in; [exact D1|reflexivity].
    + rewrite IH. split.
      * intros (pre & s & -> & H). exists (String c pre), s. auto.
      * intros (pre & s & E & H). destruct pre as [|c' pre]; cbn [append] in E.
        -- subst s. apply match_at_spec in H. congruence.
        -- injection E as <- ->. eauto.
Qed.
Lemma decimal_value s z : decimal s z -> chars dec s -> int_digits 0 s = z.
Proof.
  assert (SN : forall a c acc, int_digits acc (a ++ String c "") = (10 * int_digits acc a + digit c)%Z).
  { induction a as [|x a IH]; intros c acc; cbn [append int_digits]; [reflexivity|apply IH]. }
  induction 1 as [|s c v D IH]; [reflexivity|]. intros H. apply chars_app in H. destruct H as (H & C). apply chars_cons in C. destruct C as (C & _).
  rewrite SN, (IH H). unfold digit, dec in *. rewrite Nat2Z.inj_sub by lia. lia.
Qed.
Lemma value_decimal s : chars dec s -> decimal s (int_digits 0 s).
Proof.
  assert (X : exists z, decimal s z).
  { induction s as [s H] using (well_founded_induction (well_founded_ltof _ String.length)). destruct (snoc_cases s) as [->|(a & c & ->)]; [exists 0%Z; constructor|].
    destruct (H a) as (z & Z); [unfold ltof; rewrite length_app; cbn; lia|]. eexists. constructor. exact Z. }
  intros D. destruct X as (z & Z). rewrite (decimal_value _ _ Z D). exact Z.
Qed.
