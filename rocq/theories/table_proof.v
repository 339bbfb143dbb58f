(** * Lemmas about the printed table. *)
From Coq Require Import List ZArith Reals Bool Arith String Ascii Lia Lra.
From Coq Require DecimalString DecimalNat DecimalFacts.
From Flocq Require Import Core.
Import ListNotations.
From Verif Require Import Py nd_model nd_spec logger_model experiment_model figures_model table_model table_spec.
Open Scope py_scope.
Local Open Scope nat_scope.

(** ** Strings *)
Lemma length_append a b : String.length (a ++ b)%string = String.length a + String.length b.
Proof. induction a; cbn; auto. Qed.
Lemma chars_append a b : chars (a ++ b)%string = (chars a ++ chars b)%list.
Proof. unfold chars. induction a; cbn; congruence. Qed.
Lemma append_empty a : (a ++ "" = a)%string.
Proof. induction a; cbn; congruence. Qed.
Lemma length_repeated c n : String.length (repeated c n) = n.
Proof. induction n; cbn; auto. Qed.
Lemma blank_repeated n : blank (repeated " " n).
Proof. induction n; cbn; [intros c []|]. intros c [<-|H]; auto. Qed.
Lemma substring_skip a b n m : substring (String.length a + n) m (a ++ b)%string = substring n m b.
Proof. induction a; cbn; auto. Qed.
Lemma substring_take a b : substring 0 (String.length a) (a ++ b)%string = a.
Proof. induction a; cbn; [destruct b; reflexivity|congruence]. Qed.

(** ** Centering *)
Lemma center_parts w s : exists l r, center w s = (repeated " " l ++ s ++ repeated " " r)%string /\
  l + r = w - String.length s /\ l <= S r /\ r <= S l.
Proof.
  unfold center. set (m := w - String.length s). set (l := m / 2 + _). exists l, (m - l). split; [reflexivity|].
  assert (D : m = 2 * (m / 2) + m mod 2) by (apply Nat.div_mod; lia).
  assert (B : m mod 2 < 2) by (apply Nat.mod_upper_bound; lia).
  assert (O : Nat.odd m = true -> m mod 2 = 1).
  { intro O. apply Nat.odd_spec in O. destruct O as (k & ->). replace (2 * k + 1) with (1 + k * 2) by lia. rewrite Nat.mod_add by lia. reflexivity. }
  unfold l. destruct (Nat.odd m) eqn:E; cbn [andb]; [|lia]. specialize (O eq_refl). destruct (Nat.odd w); lia.
Qed.
Lemma center_length w s : String.length (center w s) = Nat.max w (String.length s).
Proof. destruct (center_parts w s) as (l & r & -> & E & _). rewrite !length_append, !length_repeated. lia. Qed.
Lemma center_middle w s : String.length s <= w -> in_middle w s (center w s).
Proof.
  intro H. pose proof (center_length w s) as L. destruct (center_parts w s) as (l & r & E & S1 & S2 & S3). rewrite E in *.
  exists (repeated " " l), (repeated " " r). rewrite !length_repeated. split; [reflexivity|]. split; [apply blank_repeated|]. split; [apply blank_repeated|]. split; [lia|]. lia.
Qed.
Lemma center_wide w s : w <= String.length s -> center w s = s.
Proof.
  intro H. unfold center. replace (w - String.length s) with 0 by lia. cbn. apply append_empty.
Qed.
Lemma center_twice w s : center w (center w s) = center w s.
Proof. apply center_wide. rewrite center_length. lia. Qed.

(** ** Rows *)
Lemma join_cons a b l : join_with " " (a :: b :: l) = (a ++ " " ++ join_with " " (b :: l))%string.
Proof. reflexivity. Qed.
Lemma columns_join w cells : cells <> [] -> (forall c, In c cells -> String.length c = w) ->
  S (String.length (join_with " " cells)) = List.length cells * S w /\
  (forall c t, nth_error cells c = Some t -> substring (c * S w) w (join_with " " cells) = t) /\
  (forall c, S c < List.length cells -> substring (c * S w + w) 1 (join_with " " cells) = " "%string).
Proof.
  induction cells as [|a cells IH]; [congruence|]. intros _ H. pose proof (H a (or_introl eq_refl)) as La. destruct cells as [|b cells].
  - cbn [join_with List.length]. split; [lia|]. split; [|intros c Hc; cbn in Hc; lia].
    intros [|c] t E; [|destruct c; discriminate]. injection E as <-. cbn [Nat.mul]. rewrite <- La. rewrite <- (append_empty a) at 2. apply substring_take.
  - destruct IH as (I1 & I2 & I3); [discriminate|intros c Hc; apply H; now right|]. rewrite join_cons. set (rest := join_with " " (b :: cells)) in *.
    assert (Sk : forall n m, substring (S w + n) m (a ++ " " ++ rest)%string = substring n m rest).
    { intros n m. replace (S w + n) with (String.length a + (1 + n)) by lia. rewrite substring_skip. exact (substring_skip " " rest n m). }
    split; [rewrite !length_append; cbn [String.length List.length] in *; lia|]. split.
    + intros [|c] t E; cbn [nth_error] in E.
      * injection E as <-. cbn [Nat.mul]. rewrite <- La. apply substring_take.
      * replace (S c * S w) with (S w + c * S w) by lia. rewrite Sk. apply I2. exact E.
    + intros [|c] Hc.
      * cbn [Nat.mul Nat.add]. replace w with (String.length a + 0) by lia. rewrite substring_skip. exact (substring_take " " rest).
      * replace (S c * S w + w) with (S w + (c * S w + w)) by lia. rewrite Sk. apply I3. cbn [List.length] in *. lia.
Qed.
Lemma row_columns w texts : texts <> [] -> (forall t, In t texts -> String.length t <= w) -> columns w texts (row_of w texts).
Proof.
  intros N H. unfold columns, row_of. destruct (columns_join w (map (center w) texts)) as (A & B & C).
  - now destruct texts.
  - intros c Hc. apply in_map_iff in Hc. destruct Hc as (t & <- & Ht). rewrite center_length. specialize (H t Ht). lia.
  - rewrite map_length in *. split; [exact A|]. split; [|exact C].
    intros c t E. rewrite (B c (center w t)) by (rewrite nth_error_map, E; reflexivity). apply center_middle. apply H. eapply nth_error_In; eauto.
Qed.
Lemma row_length w texts : texts <> [] -> S (String.length (row_of w texts)) = list_sum (map (fun t => S (Nat.max w (String.length t))) texts).
Proof.
  intro N. unfold row_of. induction texts as [|a texts IH]; [congruence|]. destruct texts as [|b texts].
  - cbn [map join_with list_sum fold_right]. rewrite center_length. lia.
  - specialize (IH ltac:(discriminate)). cbn [map] in *. rewrite join_cons, !length_append, center_length. cbn [list_sum fold_right] in *. cbn [String.length]. lia.
Qed.

(** ** Digits *)
Lemma digit_code d : d < 10 -> nat_of_ascii (ascii_of_nat (48 + d)) = 48 + d.
Proof. intro H. apply nat_ascii_embedding. lia. Qed.
Lemma digit_digits d : d < 10 -> digits (digit d).
Proof. intros H c [<-|[]]. rewrite digit_code by exact H. lia. Qed.
Lemma digits_app a b : digits a -> digits b -> digits (a ++ b)%string.
Proof. intros A B c Hc. rewrite chars_append in Hc. apply in_app_iff in Hc. destruct Hc; auto. Qed.
Definition value_from (z : nat) (s : string) : nat := fold_left (fun a c => 10 * a + (nat_of_ascii c - 48)) (chars s) z.
Lemma value_app z a b : value_from z (a ++ b)%string = value_from (value_from z a) b.
Proof. unfold value_from. rewrite chars_append. apply fold_left_app. Qed.
Lemma value_digit z d : d < 10 -> value_from z (digit d) = 10 * z + d.
Proof. intro H. unfold value_from. cbn [chars digit list_ascii_of_string fold_left]. unfold chars, digit. cbn [list_ascii_of_string fold_left]. rewrite digit_code by exact H. lia. Qed.
Lemma value_uint d : forall z, value_from z (DecimalString.NilEmpty.string_of_uint d) = Nat.of_uint_acc d z.
Proof.
  induction d; intro z; cbn [DecimalString.NilEmpty.string_of_uint Nat.of_uint_acc]; [reflexivity|..];
    rewrite <- IHd; unfold value_from, chars; cbn [list_ascii_of_string fold_left]; f_equal; rewrite Nat.tail_mul_spec; vm_compute (nat_of_ascii _ - 48); lia.
Qed.
Lemma digits_uint d : digits (DecimalString.NilEmpty.string_of_uint d).
Proof. induction d; cbn; intros c H; [destruct H|..]; (destruct H as [<-|H]; [vm_compute; lia|auto]). Qed.
Lemma nat_digits n : digits (string_of_nat n) /\ string_of_nat n <> ""%string /\ value_from 0 (string_of_nat n) = n /\
  (forall a', string_of_nat n = ("0" ++ a')%string -> a' = ""%string).
Proof.
  unfold string_of_nat, DecimalString.NilZero.string_of_uint. pose proof (DecimalNat.Unsigned.of_to n) as E. pose proof (DecimalNat.Unsigned.to_of (Nat.to_uint n)) as U. rewrite E in U.
  assert (Nz : forall d, Nat.to_uint n = Decimal.D0 d -> d = Decimal.Nil).
  { intros d Ed. rewrite Ed in U. unfold Decimal.unorm in U. cbn [Decimal.nzhead] in U. destruct (Decimal.nzhead d) eqn:X; try discriminate U.
    - now injection U.
    - exfalso. exact (DecimalFacts.nzhead_nonzero d _ X). }
  destruct (Nat.to_uint n) eqn:D; try (split; [apply digits_uint|]; split; [discriminate|]; split; [rewrite value_uint; exact E|]; intros a' X; try discriminate X).
  - split; [intros c [<-|[]]; vm_compute; lia|]. split; [discriminate|]. split; [rewrite <- E; reflexivity|]. intros a' X. now injection X.
  - rewrite (Nz _ eq_refl) in X. now injection X.
Qed.
Lemma thousands n : n = 10 * (10 * (10 * (n / 1000) + n / 100 mod 10) + n / 10 mod 10) + n mod 10.
Proof.
  assert (E2 : n / 100 = n / 10 / 10) by (rewrite Nat.div_div by discriminate; reflexivity).
  assert (E3 : n / 1000 = n / 10 / 10 / 10) by (rewrite !Nat.div_div by discriminate; reflexivity).
  rewrite E2, E3. clear E2 E3.
  pose proof (Nat.div_mod n 10 ltac:(discriminate)) as A. pose proof (Nat.div_mod (n / 10) 10 ltac:(discriminate)) as B. pose proof (Nat.div_mod (n / 10 / 10) 10 ltac:(discriminate)) as C.
  rewrite <- C, <- B. exact A.
Qed.
Lemma fixed_thousandths n : thousandths (string_of_nat (n / 1000) ++ "." ++ digit (n / 100 mod 10) ++ digit (n / 10 mod 10) ++ digit (n mod 10)) n.
Proof.
  destruct (nat_digits (n / 1000)) as (D & N & V & Z).
  assert (B : forall k, k mod 10 < 10) by (intro k; apply Nat.mod_upper_bound; lia).
  exists (string_of_nat (n / 1000)), (digit (n / 100 mod 10) ++ digit (n / 10 mod 10) ++ digit (n mod 10))%string.
  split; [reflexivity|]. split; [exact D|]. split; [repeat apply digits_app; apply digit_digits; apply B|]. split; [exact N|]. split; [reflexivity|]. split; [|exact Z].
  change (denotes ?s) with (value_from 0 s). rewrite !value_app, V, !value_digit by apply B. symmetry. apply thousands.
Qed.
Lemma znearest_near x : (0 <= x)%R -> exists n, Z.to_nat (ZnearestE x) = n /\ (Rabs (x - INR n) <= 1 / 2)%R /\ ((Rabs (x - INR n) = 1 / 2)%R -> Nat.Even n).
Proof.
  intro H. exists (Z.to_nat (ZnearestE x)). split; [reflexivity|].
  assert (P : (0 <= ZnearestE x)%Z) by (rewrite <- (Zrnd_IZR ZnearestE 0); apply Zrnd_le; auto with typeclass_instances).
  assert (I : INR (Z.to_nat (ZnearestE x)) = IZR (ZnearestE x)) by (rewrite INR_IZR_INZ, Z2Nat.id by exact P; reflexivity).
  rewrite I. pose proof (Znearest_half (fun z => negb (Z.even z)) x) as Nh. split; [lra|]. intro T.
  assert (Ev : Z.Even (ZnearestE x)).
  { apply Z.even_spec. unfold Znearest in *. pose proof (Zfloor_lb x) as F1. pose proof (Zfloor_ub x) as F2.
    revert T. destruct (Rcompare_spec (x - IZR (Zfloor x)) (/2)) as [C|C|C]; intro T; cbv beta iota in T |- *.
    - exfalso. rewrite Rabs_pos_eq in T by lra. lra.
    - rewrite Zceil_floor_neq by (intro X; lra). destruct (Z.even (Zfloor x)) eqn:E; cbn [negb]; [exact E|].
      rewrite Z.add_1_r, Z.even_succ, <- Z.negb_even, E. reflexivity.
    - exfalso. rewrite Zceil_floor_neq in T by (intro X; lra). rewrite plus_IZR in T. rewrite Rabs_left1 in T by lra. lra. }
  destruct Ev as (k & Ek). exists (Z.to_nat k). lia.
Qed.
Lemma fixed_shows x : (0 <= x)%R -> shows (fixed3 x) x.
Proof.
  intro H. unfold fixed3. rewrite Raux.Rlt_bool_false by exact H. rewrite Rabs_pos_eq by exact H.
  destruct (znearest_near (x * 1000)) as (n & -> & N1 & N2); [lra|]. exists n. split; [apply fixed_thousandths|split; assumption].
Qed.
