(** * Lemmas about the printed summary of a log. *)
From Coq Require Import List ZArith Reals Bool Arith String Ascii Lia Lra Permutation QArith Qreals.
From Flocq Require Import Core.
Import ListNotations.
From Verif Require Import Py Py_proof ListUtil nd_model nd_spec logger_model logger_spec logger_proof logger_load experiment_model figures_model figures_spec figures_proof
  table_model table_spec table_proof printlog_model printlog_spec.
Open Scope py_scope.
Local Open Scope Z_scope.

(** ** Texts of digits *)
Definition reads_from (z : Z) (s : string) : Z := fold_left (fun a c => 10 * a + (Z.of_nat (nat_of_ascii c) - 48)) (chars s) z.
Lemma reads_app z a b : reads_from z (a ++ b)%string = reads_from (reads_from z a) b.
Proof. unfold reads_from. rewrite chars_append. apply fold_left_app. Qed.
Lemma reads_digit z d : (d < 10)%nat -> reads_from z (digit d) = 10 * z + Z.of_nat d.
Proof.
  intro H. unfold reads_from, digit, chars. cbn [list_ascii_of_string fold_left]. rewrite digit_code by exact H. lia.
Qed.
Lemma pow10_pos n : 0 < 10 ^ Z.of_nat n.
Proof. apply Z.pow_pos_nonneg; lia. Qed.
Lemma pow10_S n : 10 ^ Z.of_nat (S n) = 10 * 10 ^ Z.of_nat n.
Proof. rewrite Nat2Z.inj_succ, Z.pow_succ_r by lia. reflexivity. Qed.
Lemma mod10_nat d : (Z.to_nat (d mod 10) < 10)%nat.
Proof. pose proof (Z.mod_pos_bound d 10 ltac:(lia)). lia. Qed.
Lemma last_reads n d : forall z, reads_from z (last_digits n d) = z * 10 ^ Z.of_nat n + d mod 10 ^ Z.of_nat n.
Proof.
  induction n as [|n IH]; intro z.
  - change (10 ^ Z.of_nat 0) with 1. rewrite Z.mod_1_r. change (reads_from z (last_digits 0 d)) with z. lia.
  - cbn [last_digits]. rewrite reads_app, reads_digit by apply mod10_nat. rewrite IH.
    rewrite Z2Nat.id by (apply Z.mod_pos_bound; lia). rewrite pow10_S. rewrite (Z.mul_comm 10 (10 ^ Z.of_nat n)).
    rewrite Z.rem_mul_r by (pose proof (pow10_pos n); lia). ring.
Qed.
Lemma last_length n d : String.length (last_digits n d) = n.
Proof. induction n as [|n IH]; [reflexivity|]. cbn [last_digits]. rewrite length_append, IH. reflexivity. Qed.
Lemma last_all_digits n d : digits (last_digits n d).
Proof. induction n as [|n IH]; [intros c []|]. cbn [last_digits]. apply digits_app; [apply digit_digits, mod10_nat|exact IH]. Qed.
Lemma zeros_reads n : forall z, reads_from z (repeated "0" n) = z * 10 ^ Z.of_nat n.
Proof.
  induction n as [|n IH]; intro z; [change (10 ^ Z.of_nat 0) with 1; rewrite Z.mul_1_r; reflexivity|].
  change (repeated "0" (S n)) with (digit 0 ++ repeated "0" n)%string. rewrite reads_app, reads_digit by lia. rewrite IH, pow10_S. cbn [Z.of_nat]. ring.
Qed.
Lemma zeros_digits n : digits (repeated "0" n).
Proof. induction n as [|n IH]; intros c H; [destruct H|]. destruct H as [<-|H]; [vm_compute; lia|exact (IH c H)]. Qed.

(** ** Zeros at the end *)
Lemma strip_split s : exists k, s = (strip0 s ++ repeated "0" k)%string.
Proof.
  induction s as [|c s (k & IH)]; [exists O; reflexivity|]. cbn [strip0]. destruct (strip0 s) as [|c' r].
  - cbn in IH. destruct (Ascii.eqb_spec c "0") as [->|N].
    + exists (S k). cbn. now rewrite IH at 1.
    + exists k. cbn. now rewrite IH at 1.
  - exists k. cbn. cbn in IH. now rewrite IH at 1.
Qed.
Lemma strip_end s : forall b, strip0 s <> (b ++ "0")%string.
Proof.
  induction s as [|c s IH]; intros b E; [destruct b; discriminate E|]. cbn [strip0] in E. destruct (strip0 s) as [|c' r] eqn:S.
  - destruct (Ascii.eqb_spec c "0") as [->|N]; [destruct b; discriminate E|]. destruct b as [|c1 [|c2 b]]; cbn in E; try discriminate E. injection E as ->. now apply N.
  - destruct b as [|c1 b]; cbn in E; [discriminate E|]. injection E as -> E. exact (IH b E).
Qed.
Lemma digits_part a b : digits (a ++ b)%string -> digits a /\ digits b.
Proof. intro H. split; intros c Hc; apply H; rewrite chars_append; apply in_app_iff; auto. Qed.

(** ** Powers *)
Lemma bpow10 e : bpow ten e = powerRZ 10 e.
Proof. rewrite bpow_powerRZ. reflexivity. Qed.
Lemma bpow10_nat n : bpow ten (Z.of_nat n) = (10 ^ n)%R.
Proof. rewrite bpow10. symmetry. apply pow_powerRZ. Qed.
Lemma izr_pow n : IZR (10 ^ Z.of_nat n) = (10 ^ n)%R.
Proof. rewrite <- bpow10_nat. rewrite <- (IZR_Zpower ten) by lia. reflexivity. Qed.

Lemma str_assoc (a b c : string) : (a ++ (b ++ c) = (a ++ b) ++ c)%string.
Proof. induction a as [|x a IH]; cbn; [reflexivity|now rewrite IH]. Qed.

(** Digits, with the decimals [b] cut down. *)
Lemma decimals_plain a b v : a <> ""%string -> digits a -> digits b -> (forall a', a = ("0" ++ a')%string -> a' = ""%string) ->
  (v = IZR (reads (a ++ b)) / 10 ^ String.length b)%R -> plain (a ++ decimals b) v.
Proof.
  intros Na Da Db Za ->. exists a, (strip0 b). destruct (strip_split b) as (k & Eb).
  assert (Db' : digits (strip0 b)) by (rewrite Eb in Db; exact (proj1 (digits_part _ _ Db))).
  split; [unfold decimals; destruct (strip0 b); reflexivity|]. split; [exact Na|]. split; [exact Da|]. split; [exact Db'|]. split; [exact Za|].
  split; [apply strip_end|]. set (c := strip0 b) in *. clearbody c. subst b. change reads with (reads_from 0).
  rewrite !reads_app, zeros_reads, length_append, length_repeated, mult_IZR, izr_pow, pow_add.
  assert (H : forall n, (10 ^ n <> 0)%R) by (intro; apply pow_nonzero; lra). field. split; apply H.
Qed.

(** ** Six digits *)
Lemma six_spec x : x <> 0%R -> exists d e, six_digits x = (d, e) /\ 100000 <= d < 1000000 /\ six_nearest (Rabs x) (IZR d * bpow ten (e - 5)).
Proof.
  intro Nx. unfold six_digits. destruct (mag ten x) as (e0 & B). cbn [mag_val]. specialize (B Nx).
  set (y := (Rabs x * bpow ten (6 - e0))%R).
  assert (By : (IZR 100000 <= y < IZR 1000000)%R).
  { unfold y. replace (IZR 100000) with (bpow ten (e0 - 1) * bpow ten (6 - e0))%R by (rewrite <- bpow_plus; replace (e0 - 1 + (6 - e0)) with 5 by lia; reflexivity).
    replace (IZR 1000000) with (bpow ten e0 * bpow ten (6 - e0))%R by (rewrite <- bpow_plus; replace (e0 + (6 - e0)) with 6 by lia; reflexivity).
    pose proof (bpow_gt_0 ten (6 - e0)). split; [apply Rmult_le_compat_r; lra|apply Rmult_lt_compat_r; lra]. }
  assert (Lo : 100000 <= ZnearestE y) by (rewrite <- (Zrnd_IZR ZnearestE 100000); apply Zrnd_le; [auto with typeclass_instances|lra]).
  assert (Hi : ZnearestE y <= 1000000) by (rewrite <- (Zrnd_IZR ZnearestE 1000000); apply Zrnd_le; [auto with typeclass_instances|lra]).
  destruct (znearest_near y) as (n & En & N1 & N2); [lra|].
  assert (Ez : ZnearestE y = Z.of_nat n) by lia. rewrite Ez in Lo, Hi |- *. clear En Ez.
  assert (Xy : Rabs x = (y * bpow ten (e0 - 6))%R) by (unfold y; rewrite Rmult_assoc, <- bpow_plus; replace (6 - e0 + (e0 - 6)) with 0 by lia; cbn; ring).
  assert (Near : six_nearest (Rabs x) (IZR (Z.of_nat n) * bpow ten (e0 - 6))).
  { exists (Z.of_nat n), (e0 - 1). replace (e0 - 1 + 1) with e0 by lia. replace (e0 - 1 - 5) with (e0 - 6) by lia. rewrite <- !bpow10.
    split; [exact B|]. split; [reflexivity|]. rewrite Xy.
    assert (G : Rabs (y * bpow ten (e0 - 6) - IZR (Z.of_nat n) * bpow ten (e0 - 6)) = (Rabs (y - INR n) * bpow ten (e0 - 6))%R).
    { rewrite <- Rmult_minus_distr_r, Rabs_mult, (Rabs_pos_eq (bpow _ _)) by apply bpow_ge_0. now rewrite <- INR_IZR_INZ. }
    rewrite G. pose proof (bpow_gt_0 ten (e0 - 6)) as P. split; [nra|]. intro T. destruct N2 as (k & Ek); [nra|]. exists (Z.of_nat k). lia. }
  destruct (Z.eqb_spec (Z.of_nat n) 1000000) as [E|N].
  - exists 100000, e0. split; [reflexivity|]. split; [lia|]. rewrite E in Near.
    replace (IZR 100000 * bpow ten (e0 - 5))%R with (IZR 1000000 * bpow ten (e0 - 6))%R; [exact Near|].
    replace (e0 - 5) with (1 + (e0 - 6)) by lia. rewrite bpow_plus. change (bpow ten 1) with 10%R. lra.
  - exists (Z.of_nat n), (e0 - 1). split; [reflexivity|]. split; [lia|]. replace (e0 - 1 - 5) with (e0 - 6) by lia. exact Near.
Qed.

(** ** Layouts *)
Lemma first_digit n d a' : 10 ^ Z.of_nat n <= d < 10 ^ Z.of_nat (S n) -> last_digits (S n) d <> ("0" ++ a')%string.
Proof.
  intros B E. apply (f_equal (fun s => match s with String c _ => nat_of_ascii c | EmptyString => O end)) in E.
  assert (L : 1 <= d / 10 ^ Z.of_nat n < 10).
  { pose proof (pow10_pos n). rewrite pow10_S in B. split; [apply Z.div_le_lower_bound; lia|apply Z.div_lt_upper_bound; lia]. }
  change (nat_of_ascii (ascii_of_nat (48 + Z.to_nat (d / 10 ^ Z.of_nat n mod 10))) = 48%nat) in E.
  rewrite digit_code in E by apply mod10_nat. rewrite Z.mod_small in E by lia. lia.
Qed.
Lemma all_reads n m d : 0 <= d < 10 ^ Z.of_nat (n + m) -> reads_from 0 (last_digits n (d / 10 ^ Z.of_nat m) ++ last_digits m d) = d.
Proof.
  intro B. rewrite reads_app, !last_reads. pose proof (pow10_pos m) as P. rewrite Z.mul_0_l, Z.add_0_l.
  rewrite Z.mod_small. { rewrite Z.mul_comm. symmetry. apply Z.div_mod. lia. }
  split; [apply Z.div_pos; lia|]. apply Z.div_lt_upper_bound; [lia|]. rewrite <- Z.pow_add_r by lia. rewrite <- Nat2Z.inj_add, Nat.add_comm. lia.
Qed.
Lemma six_pow : 10 ^ Z.of_nat 6 = 1000000. Proof. reflexivity. Qed.
Lemma split_plain n d : (n < 6)%nat -> 100000 <= d < 1000000 ->
  plain (last_digits (S n) (d / 10 ^ Z.of_nat (5 - n)) ++ decimals (last_digits (5 - n) d)) (IZR d * bpow ten (Z.of_nat n - 5)).
Proof.
  intros Hn Bd. apply decimals_plain.
  - intro E. apply (f_equal String.length) in E. rewrite last_length in E. discriminate E.
  - apply last_all_digits.
  - apply last_all_digits.
  - intros a' E. exfalso. revert E. apply first_digit. pose proof (pow10_pos (5 - n)).
    split; [apply Z.div_le_lower_bound; [lia|]|apply Z.div_lt_upper_bound; [lia|]]; rewrite <- Z.pow_add_r by lia.
    + replace (Z.of_nat (5 - n) + Z.of_nat n) with 5 by lia. lia.
    + replace (Z.of_nat (5 - n) + Z.of_nat (S n)) with 6 by lia. lia.
  - rewrite last_length. change reads with (reads_from 0). rewrite all_reads by (replace (S n + (5 - n))%nat with 6%nat by lia; rewrite six_pow; lia).
    rewrite <- bpow10_nat. unfold Rdiv. rewrite <- bpow_opp. f_equal. f_equal. lia.
Qed.
Lemma small_plain n d : 100000 <= d < 1000000 -> plain ("0" ++ decimals (repeated "0" n ++ last_digits 6 d)) (IZR d * bpow ten (- Z.of_nat n - 6)).
Proof.
  intro Bd. apply (decimals_plain "0").
  - discriminate.
  - exact (zeros_digits 1).
  - apply digits_app; [apply zeros_digits|apply last_all_digits].
  - intros a' E. now injection E.
  - change reads with (reads_from 0). rewrite !reads_app, zeros_reads, last_reads. change (reads_from 0 "0") with 0.
    rewrite six_pow, Z.mod_small by lia. rewrite !Z.mul_0_l, Z.add_0_l, length_append, length_repeated, last_length.
    rewrite <- bpow10_nat. unfold Rdiv. rewrite <- bpow_opp. f_equal. f_equal. lia.
Qed.
Lemma reads_value s : digits s -> forall z, reads_from (Z.of_nat z) s = Z.of_nat (value_from z s).
Proof.
  unfold reads_from, value_from. induction s as [|c s IH]; intros D z; [reflexivity|]. cbn [chars list_ascii_of_string fold_left].
  assert (C : (48 <= nat_of_ascii c <= 57)%nat) by (apply D; now left). rewrite <- IH by (intros c' H; apply D; now right). f_equal. lia.
Qed.
(** The digits of the exponent. *)
Lemma exponent_text n : exists e, ((if (Z.of_nat n <? 10)%Z then "0" else "") ++ string_of_nat n)%string = e /\ digits e /\ (2 <= String.length e)%nat /\
  ((2 < String.length e)%nat -> forall e', e <> ("0" ++ e')%string) /\ reads e = Z.of_nat n.
Proof.
  destruct (nat_digits n) as (D & N & V & Z0). eexists. split; [reflexivity|].
  assert (Rd : reads_from 0 (string_of_nat n) = Z.of_nat n) by (change 0 with (Z.of_nat 0); now rewrite reads_value, V).
  destruct (Z.ltb_spec (Z.of_nat n) 10) as [L|L].
  - assert (K : (n < 10)%nat) by lia. clear - K Rd D.
    assert (String.length (string_of_nat n) = 1%nat) as Ln by (do 10 (destruct n as [|n]; [reflexivity|]); lia).
    split; [apply (digits_app "0"); [exact (zeros_digits 1)|exact D]|]. cbn [append String.length]. rewrite Ln. split; [lia|]. split; [lia|].
    change reads with (reads_from 0). exact Rd.
  - cbn [append]. split; [exact D|]. split.
    + destruct (string_of_nat n) as [|c [|c' s]] eqn:E; [now elim N| |cbn; lia]. exfalso.
      assert (C : (48 <= nat_of_ascii c <= 57)%nat) by (apply D; now left). unfold value_from in V. cbn in V. lia.
    + split; [|exact Rd]. intros L2 e' E. rewrite (Z0 _ E) in E. rewrite E in L2. cbn in L2. lia.
Qed.
Lemma bpow_range d e : 100000 <= d < 1000000 -> (bpow ten e <= IZR d * bpow ten (e - 5) < bpow ten (e + 1))%R.
Proof.
  intro B. replace (bpow ten e) with (IZR 100000 * bpow ten (e - 5))%R by (change (IZR 100000) with (bpow ten 5); rewrite <- bpow_plus; f_equal; lia).
  replace (bpow ten (e + 1)) with (IZR 1000000 * bpow ten (e - 5))%R by (change (IZR 1000000) with (bpow ten 6); rewrite <- bpow_plus; f_equal; lia).
  pose proof (bpow_gt_0 ten (e - 5)). split; [apply Rmult_le_compat_r; [lra|apply IZR_le; lia]|apply Rmult_lt_compat_r; [lra|apply IZR_lt; lia]].
Qed.
Lemma scientific_text d e : 100000 <= d < 1000000 ->
  scientific (last_digits 1 (d / 100000) ++ decimals (last_digits 5 d) ++ "e" ++ (if e <? 0 then "-" else "+") ++
     (if Z.abs e <? 10 then "0" else "") ++ string_of_nat (Z.abs_nat e)) (IZR d * bpow ten (e - 5)).
Proof.
  intro Bd. pose proof (split_plain 0 d ltac:(lia) Bd) as P. pose proof (bpow_range d 0 Bd) as U. cbn [Nat.sub Z.of_nat] in P. change (10 ^ Z.pos (Pos.of_succ_nat 4)) with 100000 in P.
  change (0 - 5) with (-5) in *. change (bpow ten 0) with 1%R in U. change (bpow ten (0 + 1)) with 10%R in U.
  destruct (exponent_text (Z.abs_nat e)) as (t & Et & Dt & Lt & Zt & Rt). rewrite Zabs2Nat.id_abs in Et, Rt.
  exists (last_digits 1 (d / 100000) ++ decimals (last_digits 5 d))%string, (IZR d * bpow ten (-5))%R, t, (if (e <? 0)%Z then "-" else "+")%string.
  rewrite Et. split; [rewrite !str_assoc; reflexivity|].
  split; [exact P|]. split; [lra|]. split; [exact Dt|]. split; [exact Lt|]. split; [exact Zt|]. rewrite Rt, <- !bpow10.
  rewrite !Rmult_assoc, <- !bpow_plus.
  destruct (Z.ltb_spec e 0) as [L|L]; [right|left]; (split; [reflexivity|]); [split; [lia|]|]; f_equal; f_equal; lia.
Qed.

Lemma general_shows x : shows6 (general x) x.
Proof.
  unfold general. destruct (Req_bool_spec x 0) as [Ex|Nx]; [left; split; [exact Ex|reflexivity]|]. right.
  destruct (six_spec x Nx) as (d & e & -> & Bd & Near).
  match goal with |- exists t v, _ /\ (_ ++ ?u)%string = _ /\ _ => exists u end. exists (IZR d * bpow ten (e - 5))%R.
  split; [exact Nx|]. split. { f_equal. destruct (Rlt_dec x 0) as [L|L]; [now rewrite Raux.Rlt_bool_true|rewrite Raux.Rlt_bool_false by lra; reflexivity]. }
  split; [exact Near|]. rewrite <- !bpow10. pose proof (bpow_range d e Bd) as V.
  destruct (Z.ltb_spec e (-4)) as [L1|L1]; cbn [orb].
  - right. split; [left|now apply scientific_text]. apply Rlt_le_trans with (1 := proj2 V). apply bpow_le. lia.
  - destruct (Z.leb_spec 6 e) as [L2|L2].
    + right. split; [right|now apply scientific_text]. apply Rle_trans with (2 := proj1 V). apply bpow_le. lia.
    + left. split.
      { split; [apply Rle_trans with (2 := proj1 V); apply bpow_le; lia|apply Rlt_le_trans with (1 := proj2 V); apply bpow_le; lia]. }
      destruct (Z.ltb_spec e 0) as [L3|L3].
      * replace (e - 5) with (- Z.of_nat (Z.to_nat (- e - 1)) - 6) by lia. now apply small_plain.
      * pose proof (split_plain (Z.to_nat e) d ltac:(lia) Bd) as P. replace (S (Z.to_nat e)) with (Z.to_nat (e + 1)) in P by lia.
        replace (5 - Z.to_nat e)%nat with (Z.to_nat (5 - e)) in P by lia. rewrite !Z2Nat.id in P by lia. exact P.
Qed.

(** ** One line *)
Lemma number_is v x : is_number v x -> number v = Ok x.
Proof. intros []; reflexivity. Qed.
Lemma measured_get w i key xs : wf_world w -> measured w i key xs -> exists vs, get_values w i key = Ok vs /\ mapM number vs = Ok xs.
Proof.
  intros W (R & H). unfold runs_of in R. destruct (nth_error (w_logs w) i) as [l|] eqn:El; [|discriminate R]. cbn in R.
  destruct (get_values_ok w i l key W El) as (vs & E & L & V). exists vs. split; [exact E|].
  assert (Ln : List.length vs = List.length xs) by congruence.
  assert (N : forall q v x, nth_error vs q = Some v -> nth_error xs q = Some x -> number v = Ok x).
  { intros q v x Hv Hx. destruct (H q x Hx) as (v' & Ev & Nv). rewrite V in Hv by (rewrite <- L; apply nth_error_Some; congruence).
    rewrite Ev in Hv. injection Hv as <-. now apply number_is. }
  clear - Ln N. revert xs Ln N. induction vs as [|v vs IH]; intros [|x xs] Ln N; try discriminate; [reflexivity|].
  cbn [mapM]. rewrite (N O v x eq_refl eq_refl). cbn [bind]. rewrite (IH xs); [reflexivity|cbn in Ln; lia|]. intros q v' x'. exact (N (S q) v' x').
Qed.
Lemma print_line w i key text xs : wf_world w -> measured w i key xs -> xs <> [] ->
  exists s, print_result w i key text = Ok s /\ summary_line (match text with None => key | Some t => t end) xs s.
Proof.
  intros W H N. destruct (measured_get _ _ _ _ W H) as (vs & E & E2). unfold print_result, get_stats. rewrite E. cbn [bind].
  destruct vs as [|v vs]. { cbn in E2. injection E2 as <-. now elim N. }
  rewrite E2. cbn [bind]. eexists. split; [reflexivity|]. exists (np_mean xs), (np_std xs). do 2 eexists.
  split; [now apply mean_average|]. split; [now apply std_deviation|]. split; [apply general_shows|]. split; [apply general_shows|reflexivity].
Qed.
Lemma print_no_runs w i key text : wf_world w -> runs_of w i = Some 0%nat ->
  print_result w i key text = Ok ((match text with None => key | Some t => t end) ++ ": nan (std dev.: nan)")%string.
Proof.
  intros W R. unfold runs_of in R. destruct (nth_error (w_logs w) i) as [l|] eqn:El; [|discriminate R]. cbn in R.
  destruct (get_values_ok w i l key W El) as (vs & E & L & _). unfold print_result. rewrite E. cbn [bind]. destruct vs; [reflexivity|cbn in L; congruence].
Qed.
Lemma print_missing w i n q key text : wf_world w -> runs_of w i = Some n -> (q < n)%nat -> value_at w i q key = None -> print_result w i key text = Err TypeError.
Proof.
  intros W R Hq V. unfold runs_of in R. destruct (nth_error (w_logs w) i) as [l|] eqn:El; [|discriminate R]. cbn in R. injection R as <-.
  destruct (get_values_ok w i l key W El) as (vs & E & L & _). unfold print_result. rewrite E. cbn [bind]. destruct vs as [|v vs]; [cbn in L; lia|].
  now rewrite (stats_missing w i l key q W El Hq V).
Qed.

(** ** All the results *)
Lemma set_add_nodup s k : NoDup s -> NoDup (set_add s k).
Proof.
  intro N. unfold set_add. destruct (set_mem k s) eqn:E; [exact N|]. apply NoDup_app_intro; [exact N|constructor; [intros []|constructor]|].
  intros x Hx [<-|[]]. apply set_mem_in in Hx. congruence.
Qed.
Definition results_step (w : world) (o : op nd) (i : nat) (l l' : logger nd) : Prop :=
  (exists k v, o = OStoreResult i k v /\ snd (store_result w i k v) = Ok tt /\ lg_result_keys l' = set_add (lg_result_keys l) k) \/
  ((forall k v, o = OStoreResult i k v -> snd (store_result w i k v) <> Ok tt) /\ lg_result_keys l' = lg_result_keys l).
Lemma exec_results w o i :
  match nth_error (w_logs w) i with
  | Some l => exists l', nth_error (w_logs (exec w o)) i = Some l' /\ results_step w o i l l'
  | None => (forall k v, o = OStoreResult i k v -> snd (store_result w i k v) <> Ok tt) /\
            (nth_error (w_logs (exec w o)) i = None \/ exists l', nth_error (w_logs (exec w o)) i = Some l' /\ lg_result_keys l' = [])
  end.
Proof.
  assert (Set1 : forall (ls : list (logger nd)) j a b, nth_error ls j = Some a -> lg_result_keys b = lg_result_keys a ->
    match nth_error ls i with
    | Some l => exists l', nth_error (list_set ls j b) i = Some l' /\ lg_result_keys l' = lg_result_keys l
    | None => nth_error (list_set ls j b) i = None end).
  { intros ls j a b Ea Eb. destruct (Nat.eq_dec i j) as [->|Nij].
    - rewrite Ea. exists b. split; [|exact Eb]. now apply nth_error_set_same with a.
    - rewrite nth_error_set_other by congruence. destruct (nth_error ls i) as [l|]; [exists l; auto|reflexivity]. }
  assert (Other : forall ls', (forall k v, o = OStoreResult i k v -> snd (store_result w i k v) <> Ok tt) ->
    match nth_error (w_logs w) i with
    | Some l => exists l', nth_error ls' i = Some l' /\ lg_result_keys l' = lg_result_keys l
    | None => nth_error ls' i = None end -> w_logs (exec w o) = ls' ->
    match nth_error (w_logs w) i with
    | Some l => exists l', nth_error (w_logs (exec w o)) i = Some l' /\ results_step w o i l l'
    | None => (forall k v, o = OStoreResult i k v -> snd (store_result w i k v) <> Ok tt) /\
            (nth_error (w_logs (exec w o)) i = None \/ exists l', nth_error (w_logs (exec w o)) i = Some l' /\ lg_result_keys l' = [])
    end).
  { intros ls' No H ->. destruct (nth_error (w_logs w) i) as [l|]; [|auto]. destruct H as (l' & E & K). exists l'. split; [exact E|]. right. auto. }
  assert (Same : match nth_error (w_logs w) i with
    | Some l => exists l', nth_error (w_logs w) i = Some l' /\ lg_result_keys l' = lg_result_keys l
    | None => nth_error (w_logs w) i = None end) by (destruct (nth_error (w_logs w) i); eauto).
  destruct o as [f|j|j k v|j k v|j k v|a b]; cbn [exec].
  - clear Other. cbn [new_logger fst w_logs]. destruct (nth_error (w_logs w) i) as [l|] eqn:E.
    + exists l. rewrite nth_error_app1 by (apply nth_error_Some; congruence). split; [exact E|]. right. split; [discriminate|reflexivity].
    + split; [discriminate|]. apply nth_error_None in E. rewrite nth_error_app2 by exact E. destruct (i - List.length (w_logs w))%nat as [|[|?]]; cbn; [right; eauto|left; reflexivity|left; reflexivity].
  - unfold exec in Other. unfold new_run in *. destruct (get_logger w j) as [l|e] eqn:G; [|eapply Other; [discriminate|exact Same|reflexivity]].
    eapply Other; [discriminate| |reflexivity]. unfold get_logger in G. destruct (nth_error (w_logs w) j) eqn:Ej; [|discriminate G]. injection G as ->. cbn [fst w_logs]. now apply Set1 with l.
  - unfold exec in Other. destruct (store_cases w j k v) as [(l & r & d & El & _ & _ & _ & S)|(e & S)]; rewrite S in *; (eapply Other; [discriminate| |reflexivity]); [|exact Same].
    cbn [fst w_logs]. now apply Set1 with l.
  - destruct (store_cases w j k v) as [(l & r & d & El & _ & _ & _ & S)|(e & S)].
    + clear Other. unfold store_result. rewrite S. unfold get_logger. cbn [w_logs]. rewrite (nth_error_set_same _ _ _ _ El). cbn [fst snd put_logger w_logs lg_result_keys].
      rewrite list_set_twice. destruct (Nat.eq_dec i j) as [->|Nij].
      * rewrite El. eexists. split; [exact (nth_error_set_same _ _ _ _ El)|]. left. exists k, v. split; [reflexivity|]. split; [|reflexivity].
        unfold store_result. rewrite S. unfold get_logger. cbn [w_logs]. now rewrite (nth_error_set_same _ _ _ _ El).
      * rewrite nth_error_set_other by congruence. destruct (nth_error (w_logs w) i) as [l'|] eqn:Ei.
        -- exists l'. split; [reflexivity|]. right. split; [congruence|reflexivity].
        -- split; [congruence|now left].
    + assert (S' : store_result w j k v = (w, Err e)) by (unfold store_result; now rewrite S). unfold exec in Other. rewrite S' in *.
      eapply Other; [|exact Same|reflexivity]. intros k' v' E. injection E as -> -> ->. rewrite S'. discriminate.
  - unfold exec in Other. unfold store_global in *. destruct (get_logger w j) as [l|e] eqn:G; [|eapply Other; [discriminate|exact Same|reflexivity]].
    eapply Other; [discriminate| |reflexivity]. unfold get_logger in G. destruct (nth_error (w_logs w) j) eqn:Ej; [|discriminate G]. injection G as ->. cbn [fst put_logger w_logs]. now apply Set1 with l.
  - unfold exec in Other. unfold append_exps_from_other in *. destruct (get_logger w a) as [la|e] eqn:Ga; cbn [bind] in *; [|eapply Other; [discriminate|exact Same|reflexivity]].
    destruct (get_logger w b) as [lb|e] eqn:Gb; cbn [bind] in *; [|eapply Other; [discriminate|exact Same|reflexivity]].
    destruct (set_eqb (lg_exp_keys la) (lg_exp_keys lb)); (eapply Other; [discriminate| |reflexivity]); [|exact Same].
    unfold get_logger in Ga. destruct (nth_error (w_logs w) a) eqn:Ej; [|discriminate Ga]. injection Ga as ->. cbn [fst put_logger w_logs]. now apply Set1 with la.
Qed.
Lemma stored_snoc h o i k : stored_result (h ++ [o]) i k <-> stored_result h i k \/ exists v, o = OStoreResult i k v /\ snd (store_result (exec_all empty_world h) i k v) = Ok tt.
Proof.
  split.
  - intros (h1 & h2 & v & E & S). destruct (exists_last (l := OStoreResult i k v :: h2)) as (m & y & Em); [discriminate|].
    destruct m as [|y0 m]; cbn in Em.
    + injection Em as <- ->. apply app_inj_tail in E as (-> & ->). right. eauto.
    + injection Em as <- ->. change (h1 ++ OStoreResult i k v :: m ++ [y]) with (h1 ++ (OStoreResult i k v :: m) ++ [y]) in E. rewrite app_assoc in E.
      apply app_inj_tail in E as (-> & _). left. exists h1, m, v. auto.
  - intros [(h1 & h2 & v & -> & S)|(v & -> & S)].
    + exists h1, (h2 ++ [o]), v. rewrite <- app_assoc. auto.
    + exists h, [], v. auto.
Qed.
Lemma result_keys_exact (h : list (op nd)) : forall i,
  match nth_error (w_logs (exec_all empty_world h)) i with
  | Some l => NoDup (lg_result_keys l) /\ forall k, In k (lg_result_keys l) <-> stored_result h i k
  | None => forall k, ~ stored_result h i k
  end.
Proof.
  induction h as [|o h IH] using rev_ind; intro i.
  - cbn. destruct i; cbn; intros k (h1 & h2 & v & E & _); destruct h1; discriminate E.
  - specialize (IH i). assert (Ex : exec_all empty_world (h ++ [o]) = exec (exec_all empty_world h) o) by (unfold exec_all; now rewrite fold_left_app).
    rewrite Ex. pose proof (exec_results (exec_all empty_world h) o i) as H. set (w := exec_all empty_world h) in *.
    destruct (nth_error (w_logs w) i) as [l|].
    + destruct IH as (N & K). destruct H as (l' & -> & [(k0 & v & -> & S & ->)|(No & ->)]).
      * split; [now apply set_add_nodup|]. intro k. rewrite in_set_add, stored_snoc, K. split; intros [A|A]; [now left|right; subst k; eauto|now left|].
        destruct A as (v' & E & _). right. congruence.
      * split; [exact N|]. intro k. rewrite stored_snoc, K. split; [now left|]. intros [A|(v & E & S)]; [exact A|]. elim (No _ _ E S).
    + destruct H as (No & H). assert (Ns : forall k, ~ stored_result (h ++ [o]) i k).
      { intros k A. apply stored_snoc in A as [A|(v & E & S)]; [exact (IH k A)|exact (No _ _ E S)]. }
      destruct H as [->|(l' & -> & ->)]; [exact Ns|]. split; [constructor|]. intro k. split; [intros []|intro A; elim (Ns k A)].
Qed.

Lemma print_keys_ok w i keys : wf_world w -> (forall k, In k keys -> exists xs, measured w i k xs /\ xs <> []) ->
  exists lines, print_keys w i keys = (lines, Ok tt) /\ Forall2 (fun k s => exists xs, measured w i k xs /\ summary_line k xs s) keys lines.
Proof.
  intro W. induction keys as [|k keys IH]; intro H; [exists []; split; [reflexivity|constructor]|].
  destruct (H k (or_introl eq_refl)) as (xs & M & N). destruct (print_line w i k None xs W M N) as (s & E & S).
  destruct IH as (lines & E2 & F); [intros k' Hk; apply H; now right|]. exists (s :: lines). cbn [print_keys]. rewrite E, E2. split; [reflexivity|]. constructor; [eauto|exact F].
Qed.
Lemma print_keys_stops w i n keys : wf_world w -> runs_of w i = Some n ->
  (forall k, In k keys -> (exists xs, measured w i k xs /\ xs <> []) \/ exists q, (q < n)%nat /\ value_at w i q k = None) ->
  (exists k q, In k keys /\ (q < n)%nat /\ value_at w i q k = None) ->
  exists done k q rest lines, keys = done ++ k :: rest /\ (q < n)%nat /\ value_at w i q k = None /\ print_keys w i keys = (lines, Err TypeError) /\
    Forall2 (fun k s => exists xs, measured w i k xs /\ summary_line k xs s) done lines.
Proof.
  intros W R. induction keys as [|k keys IH]; intros H (k0 & q0 & Hk & Hq & V); [destruct Hk|].
  destruct (H k (or_introl eq_refl)) as [(xs & M & N)|(q & Hq' & V')].
  - destruct (print_line w i k None xs W M N) as (s & E & S).
    assert (k0 <> k) as Nk. { intros ->. destruct M as (R' & M). rewrite R in R'. injection R' as ->. destruct (nth_error xs q0) as [x|] eqn:X.
      - destruct (M q0 x X) as (v & Ev & _). congruence. - apply nth_error_None in X. lia. }
    destruct IH as (done & k1 & q1 & rest & lines & -> & Hq1 & V1 & E1 & F); [intros k' Hk'; apply H; now right| |].
    + exists k0, q0. destruct Hk as [->|Hk]; [now elim Nk|auto].
    + exists (k :: done), k1, q1, rest, (s :: lines). cbn [print_keys app]. rewrite E, E1. repeat split; auto. constructor; [eauto|exact F].
  - exists [], k, q, keys, []. cbn [print_keys app]. rewrite (print_missing w i n q k None W R Hq' V'). repeat split; auto.
Qed.
Lemma print_all ord h i l : (forall s, Permutation (ord s) s) -> let w := exec_all empty_world h in nth_error (w_logs w) i = Some l ->
  (forall k, stored_result h i k -> exists xs, measured w i k xs /\ xs <> []) ->
  exists keys lines, print_all_results ord w i = (lines, Ok tt) /\ NoDup keys /\ (forall k, In k keys <-> stored_result h i k) /\
    Forall2 (fun k s => exists xs, measured w i k xs /\ summary_line k xs s) keys lines.
Proof.
  intros P w El H. pose proof (result_keys_exact h i) as K. fold w in K. rewrite El in K. destruct K as (N & K).
  assert (Kp : forall k, In k (ord (lg_result_keys l)) <-> stored_result h i k).
  { intro k. rewrite <- K. split; apply Permutation_in; [apply P|symmetry; apply P]. }
  destruct (print_keys_ok w i (ord (lg_result_keys l))) as (lines & E & F). { apply exec_all_wf, empty_wf. } { intros k Hk. apply H, Kp, Hk. }
  exists (ord (lg_result_keys l)), lines. unfold print_all_results, get_logger. rewrite El. split; [exact E|].
  split; [eapply Permutation_NoDup; [symmetry; apply P|exact N]|]. split; [exact Kp|exact F].
Qed.
Lemma print_all_stops ord h i n : (forall s, Permutation (ord s) s) -> let w := exec_all empty_world h in runs_of w i = Some n ->
  (forall k, stored_result h i k -> (exists xs, measured w i k xs /\ xs <> []) \/ exists q, (q < n)%nat /\ value_at w i q k = None) ->
  (exists k q, stored_result h i k /\ (q < n)%nat /\ value_at w i q k = None) ->
  exists keys lines k q, print_all_results ord w i = (lines, Err TypeError) /\ NoDup (k :: keys) /\ stored_result h i k /\ (q < n)%nat /\ value_at w i q k = None /\
    (forall k', In k' keys -> stored_result h i k') /\ Forall2 (fun k s => exists xs, measured w i k xs /\ summary_line k xs s) keys lines.
Proof.
  intros P w R H (k0 & q0 & S0 & Hq0 & V0). pose proof (result_keys_exact h i) as K. fold w in K.
  pose proof R as R'. unfold runs_of in R'. destruct (nth_error (w_logs w) i) as [l|] eqn:El; [|discriminate R']. clear R'. destruct K as (N & K).
  assert (Kp : forall k, In k (ord (lg_result_keys l)) <-> stored_result h i k).
  { intro k. rewrite <- K. split; apply Permutation_in; [apply P|symmetry; apply P]. }
  destruct (print_keys_stops w i n (ord (lg_result_keys l))) as (done & k & q & rest & lines & E & Hq & V & E2 & F).
  { apply exec_all_wf, empty_wf. } { exact R. } { intros k Hk. apply H, Kp, Hk. } { exists k0, q0. rewrite Kp. auto. }
  exists done, lines, k, q. unfold print_all_results, get_logger. rewrite El. split; [exact E2|].
  assert (Nd : NoDup (done ++ k :: rest)) by (rewrite <- E; eapply Permutation_NoDup; [symmetry; apply P|exact N]).
  split. { apply NoDup_remove in Nd as (A & B). constructor; [intro X; apply B, in_app_iff; now left|]. clear - A. induction done; [constructor|]. cbn in A. inversion A; subst. constructor; [intro X; apply H1, in_app_iff; now left|auto]. }
  split; [apply Kp; rewrite E; apply in_app_iff; right; now left|]. split; [exact Hq|]. split; [exact V|]. split; [|exact F].
  intros k' Hk. apply Kp. rewrite E. apply in_app_iff. now left.
Qed.
Lemma print_loaded ord w f name sf np w' j : (forall s, Permutation (ord s) s) -> load w f name sf np = (w', Ok j) -> print_all_results ord w' j = ([], Ok tt).
Proof.
  intros P E. unfold load in E. match type of E with match ?X with _ => _ end = _ => destruct X as [(s & (g & es))|e] end; [|discriminate E].
  injection E as <- <-. unfold print_all_results, get_logger. cbn [w_logs]. rewrite nth_error_app2, Nat.sub_diag by lia. cbn [nth_error lg_result_keys].
  pose proof (P []) as Pn. symmetry in Pn. apply Permutation_nil in Pn. now rewrite Pn.
Qed.
