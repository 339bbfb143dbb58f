(** * Proofs on the ACORNS databases: positions, file names, loader. *)

From Coq Require Import List ZArith Arith Bool String Ascii Sorted Lia Decimal DecimalString DecimalZ.
Import ListNotations.
From Verif Require Import Py Py_proof logger_model logger_file serial_model sound_model sound_spec sound_proof sound_count
  acorns_model acorns_spec.
Local Open Scope nat_scope.

(** ** Removal by positions *)
Definition either {A B} (P : A -> B -> Prop) (x : result A) (y : result B) : Prop :=
  (exists a b, x = Ok a /\ y = Ok b /\ P a b) \/ (x = Err IndexError /\ y = Err IndexError).

Lemma F2_len {A B} (R : A -> B -> Prop) l m : Forall2 R l m -> List.length l = List.length m.
Proof. induction 1; cbn; congruence. Qed.
Lemma F2_firstn {A B} (R : A -> B -> Prop) l m k : Forall2 R l m -> Forall2 R (firstn k l) (firstn k m).
Proof. intros F. revert k. induction F; intros [|k]; cbn; constructor; auto. Qed.
Lemma F2_skipn {A B} (R : A -> B -> Prop) l m k : Forall2 R l m -> Forall2 R (skipn k l) (skipn k m).
Proof. intros F. revert k. induction F as [|x y l m XY F IH]; intros [|k]; cbn; try constructor; auto. Qed.
Lemma pop_related {A B} (R : A -> B -> Prop) l m i : Forall2 R l m -> either (Forall2 R) (pop l i) (pop m i).
Proof.
  intros F. unfold pop. rewrite (F2_len R l m F). destruct (norm_index (List.length m) i) as [k|e] eqn:E; cbn [bind].
  - left. do 2 eexists. split; [reflexivity|]. split; [reflexivity|]. apply Forall2_app; [apply F2_firstn|apply F2_skipn]; exact F.
  - right. unfold norm_index in E. destruct (_ && _); [discriminate|]. destruct (_ && _); [discriminate|]. injection E as <-. auto.
Qed.
Lemma pop_all_related {A B} (R : A -> B -> Prop) bl : forall l m, Forall2 R l m -> either (Forall2 R) (pop_all bl l) (pop_all bl m).
Proof.
  unfold pop_all. induction bl as [|i bl IH]; intros l m F; cbn [foldM].
  - left. eauto.
  - destruct (pop_related R l m i F) as [(l' & m' & -> & -> & F')|(-> & ->)]; cbn [bind]; [apply IH, F'|right; auto].
Qed.
Lemma picks_self {A} (l : list A) : picks (seq 0 (List.length l)) l l.
Proof.
  unfold picks. assert (H : forall p, Forall2 (fun i x => nth_error (p ++ l) i = Some x) (seq (List.length p) (List.length l)) l).
  - induction l as [|x l IH]; intros p; cbn [List.length seq]; constructor.
    + rewrite nth_error_app2, Nat.sub_diag by lia. reflexivity.
    + specialize (IH (p ++ [x])). rewrite app_length in IH. cbn [List.length] in IH. rewrite Nat.add_1_r in IH.
      rewrite <- app_assoc in IH. exact IH.
  - exact (H []).
Qed.
Lemma SS_app {A} (R : A -> A -> Prop) l m : StronglySorted R (l ++ m) <-> StronglySorted R l /\ StronglySorted R m /\ forall x y, In x l -> In y m -> R x y.
Proof.
  induction l as [|a l IH]; cbn.
  - split; [intros H; split; [constructor|split; [exact H|intros x y []]]|tauto].
  - split.
    + intros H. apply StronglySorted_inv in H. destruct H as (H & F). apply IH in H. destruct H as (H1 & H2 & H3). rewrite Forall_app in F. destruct F as (F1 & F2).
      split; [constructor; assumption|]. split; [assumption|]. intros x y [->|I] J; [rewrite Forall_forall in F2; auto|auto].
    + intros (H1 & H2 & H3). apply StronglySorted_inv in H1. destruct H1 as (H1 & F). constructor.
      * apply IH. split; [assumption|]. split; [assumption|auto].
      * apply Forall_app. split; [exact F|]. apply Forall_forall. auto.
Qed.
Lemma in_firstn {A} (l : list A) k x : In x (firstn k l) -> In x l.
Proof. rewrite <- (firstn_skipn k l) at 2. intros I. apply in_or_app. auto. Qed.
Lemma in_skipn {A} (l : list A) k x : In x (skipn k l) -> In x l.
Proof. rewrite <- (firstn_skipn k l) at 2. intros I. apply in_or_app. auto. Qed.
Lemma pop_sorted l i l' : increasing l -> pop l i = Ok l' -> increasing l' /\ incl l' l.
Proof.
  unfold pop. intros St. destruct (norm_index _ i) as [k|e]; cbn [bind]; [|discriminate]. intros E.
  assert (E' : l' = firstn k l ++ skipn (S k) l) by congruence. subst l'. clear E. split.
  - unfold increasing in *. rewrite <- (firstn_skipn k l) in St. apply SS_app in St. destruct St as (S1 & S2 & S3). apply SS_app. split; [exact S1|].
    assert (X : skipn (S k) l = skipn 1 (skipn k l)) by (clear; revert k; induction l as [|x l IH]; intros [|k]; try reflexivity; exact (IH k)).
    rewrite X. split.
    + rewrite <- (firstn_skipn 1 (skipn k l)) in S2. apply SS_app in S2. apply S2.
    + intros x y I J. apply S3; [exact I|]. eapply in_skipn, J.
  - intros x I. apply in_app_or in I. destruct I as [I|I]; [eapply in_firstn, I|eapply in_skipn, I].
Qed.
Lemma pop_all_sorted bl : forall l l', increasing l -> pop_all bl l = Ok l' -> increasing l' /\ incl l' l.
Proof.
  unfold pop_all. induction bl as [|i bl IH]; intros l l' S; cbn [foldM].
  - intros [= <-]. split; [exact S|intros x I; exact I].
  - destruct (pop l i) as [m|e] eqn:E; cbn [bind]; [|discriminate]. intros H. destruct (pop_sorted l i m S E) as (S' & I').
    destruct (IH m l' S' H) as (S2 & I2). split; [exact S2|]. intros x I. apply I', I2, I.
Qed.
Lemma seq_increasing a n : increasing (seq a n).
Proof.
  unfold increasing. revert a. induction n as [|n IH]; intros a; cbn [seq]; constructor; [apply IH|].
  apply Forall_forall. intros x I. apply in_seq in I. unfold Nat.lt. lia.
Qed.
Lemma same_positions {A B} bl (l : list A) (m : list B) : List.length l = List.length m ->
  (exists idx l' m', pop_all bl l = Ok l' /\ pop_all bl m = Ok m' /\ increasing idx /\ picks idx l l' /\ picks idx m m') \/
  (pop_all bl l = Err IndexError /\ pop_all bl m = Err IndexError).
Proof.
  intros L. pose proof (picks_self l) as PL. pose proof (picks_self m) as PM. rewrite <- L in PM. unfold picks in *.
  destruct (pop_all_related _ bl _ _ PL) as [(idx & l' & E & EL & FL)|(E & EL)];
  destruct (pop_all_related _ bl _ _ PM) as [(idx' & m' & E' & EM & FM)|(E' & EM)]; rewrite E in E'; try discriminate.
  - injection E' as <-. left. exists idx, l', m'. do 2 (split; [assumption|]). split; [|auto].
    apply (pop_all_sorted bl _ _ (seq_increasing 0 (List.length l)) E).
  - right. auto.
Qed.
(** Positions in decreasing order. *)
Lemma pop_at {A} (l : list A) k : k < List.length l -> pop l (Z.of_nat k) = Ok (firstn k l ++ skipn (S k) l).
Proof. intros H. unfold pop. rewrite norm_index_nonneg. apply Nat.ltb_lt in H. rewrite H. reflexivity. Qed.
Lemma pop_seq m rest b : b < m -> pop (seq 0 m ++ rest) (Z.of_nat b) = Ok (seq 0 b ++ seq (S b) (m - S b) ++ rest).
Proof.
  intros H. rewrite pop_at by (rewrite app_length, seq_length; lia). f_equal.
  replace m with (b + (1 + (m - S b))) at 1 2 by lia. rewrite seq_app. cbn [plus seq]. rewrite <- !app_assoc.
  rewrite firstn_app, seq_length, Nat.sub_diag, firstn_O, app_nil_r, firstn_all2 by (rewrite seq_length; lia). f_equal.
  rewrite skipn_app, seq_length, skipn_all2 by (rewrite seq_length; lia).
  replace (S b - b) with 1 by lia. reflexivity.
Qed.
Lemma pop_decreasing bl : forall m rest, StronglySorted (fun a b => b < a) bl -> Forall (fun b => b < m) bl ->
  exists idx, pop_all (map Z.of_nat bl) (seq 0 m ++ rest) = Ok idx /\ forall i, In i idx <-> (i < m /\ ~ In i bl) \/ In i rest.
Proof.
  induction bl as [|b bl IH]; intros m rest St F; cbn [map]; unfold pop_all; cbn [foldM].
  - eexists. split; [reflexivity|]. intros i. rewrite in_app_iff, in_seq. cbn. intuition lia.
  - inversion F as [|? ? BM F']; subst. apply StronglySorted_inv in St. destruct St as (St & FB). rewrite pop_seq by exact BM. cbn [bind].
    destruct (IH b (seq (S b) (m - S b) ++ rest) St FB) as (idx & E & I). exists idx. split; [exact E|].
    intros i. rewrite I, in_app_iff, in_seq. cbn [In]. rewrite Forall_forall in FB.
    assert (X : In i bl -> i < b) by apply FB. destruct (Nat.eq_dec b i) as [->|N]; [|destruct (Nat.lt_ge_cases i b); intuition lia].
    split; [intros [(H & _)|[H|H]]; [lia|lia|auto]|intros [(H & N)|H]; [exfalso; apply N; auto|auto]].
Qed.
Lemma positions_removed {A} (bl : list nat) (l : list A) : StronglySorted (fun a b => b < a) bl -> Forall (fun b => b < List.length l) bl ->
  exists idx l', pop_all (map Z.of_nat bl) l = Ok l' /\ increasing idx /\ picks idx l l' /\ forall i, In i idx <-> i < List.length l /\ ~ In i bl.
Proof.
  intros S F. destruct (pop_decreasing bl (List.length l) [] S F) as (idx & E & I). rewrite app_nil_r in E.
  pose proof (picks_self l) as P. destruct (pop_all_related _ (map Z.of_nat bl) _ _ P) as [(idx' & l' & E' & EL & FL)|(E' & _)]; rewrite E in E'; [|discriminate].
  injection E' as <-. exists idx, l'. split; [exact EL|]. split; [apply (pop_all_sorted _ _ _ (seq_increasing 0 _) E)|]. split; [exact FL|].
  intros i. rewrite I. cbn. tauto.
Qed.

(** ** Numbers and names *)
Lemma Z_no_us z : no_us (string_of_Z z).
Proof.
  unfold string_of_Z, NilZero.string_of_int, NilZero.string_of_uint. destruct (Z.to_int z) as [u|u]; destruct u; cbn; auto using uint_no_us.
Qed.
Definition number (s : string) : option Z := option_map Z.of_int (NilZero.int_of_string s).
Lemma number_Z z : number (string_of_Z z) = Some z.
Proof.
  unfold number, string_of_Z. pose proof (DecimalZ.of_to z) as E. destruct (Z.to_int z) as [u|u] eqn:T.
  - destruct u; try (rewrite NilZero.isi by discriminate; cbn [option_map]; rewrite E; reflexivity).
    rewrite NilZero.isi_posnil. cbn in E |- *. congruence.
  - destruct u; try (rewrite NilZero.isi by discriminate; cbn [option_map]; rewrite E; reflexivity).
    rewrite NilZero.isi_negnil. cbn in E |- *. congruence.
Qed.
Lemma number_02d z : number (format_02d z) = Some z.
Proof.
  unfold format_02d. destruct ((0 <=? z)%Z && (z <? 10)%Z) eqn:E; [|apply number_Z].
  apply andb_true_iff in E. destruct E as (E1 & E2). apply Z.leb_le in E1. apply Z.ltb_lt in E2.
  assert (D : (z = 0 \/ z = 1 \/ z = 2 \/ z = 3 \/ z = 4 \/ z = 5 \/ z = 6 \/ z = 7 \/ z = 8 \/ z = 9)%Z) by lia.
  repeat (destruct D as [->|D]; [reflexivity|]). subst z. reflexivity.
Qed.
Lemma no_us_02d z : no_us (format_02d z).
Proof. unfold format_02d. destruct (_ && _); [|apply Z_no_us]. cbn [no_us append]. split; [reflexivity|apply Z_no_us]. Qed.
Lemma file_names y s y' s' : feature_file_name y s = feature_file_name y' s' -> y = y' /\ s = s'.
Proof.
  unfold feature_file_name, format_d. intros E. apply app_cancel in E.
  remember (1 + s)%Z as a eqn:EA. remember (1 + s')%Z as a' eqn:EA'.
  pose proof (split_once_app (string_of_Z y) ("S" ++ format_02d a ++ "_python.mat") (Z_no_us y)) as A.
  pose proof (split_once_app (string_of_Z y') ("S" ++ format_02d a' ++ "_python.mat") (Z_no_us y')) as A'.
  cbn [append] in E, A, A'. rewrite E, A' in A. injection A as EY ES.
  pose proof (split_once_app (format_02d a) "python.mat" (no_us_02d _)) as B.
  pose proof (split_once_app (format_02d a') "python.mat" (no_us_02d _)) as B'.
  cbn [append] in B, B', ES. rewrite <- ES, B' in B. injection B as EB.
  pose proof (number_Z y) as N1. rewrite <- EY, number_Z in N1. pose proof (number_02d a) as N2. rewrite <- EB, number_02d in N2.
  split; [congruence|]. injection N2 as N2. lia.
Qed.

(** ** Checks *)
Lemma year_checked py3 year : (year = 1%Z \/ year = 2%Z -> check_year py3 year = Ok tt) /\
  (year <> 1%Z -> year <> 2%Z -> check_year py3 year = Err (if py3 then TypeError else ValueError)).
Proof.
  unfold check_year, raise_tuple. cbn [existsb]. split.
  - intros [->| ->]; reflexivity.
  - intros A B. apply Z.eqb_neq in A, B. rewrite A, B. reflexivity.
Qed.
Lemma speaker_checked py3 year speaker :
  ((0 <= speaker <= n_speakers year)%Z -> check_speaker py3 year speaker = Ok tt) /\
  (~ (0 <= speaker <= n_speakers year)%Z -> check_speaker py3 year speaker = Err (if py3 then TypeError else ValueError)).
Proof.
  unfold check_speaker, raise_tuple. split; intros H.
  - destruct (Z.ltb_spec speaker 0); [lia|]. destruct (Z.ltb_spec (n_speakers year) speaker); [lia|]. reflexivity.
  - destruct (Z.ltb_spec speaker 0); [reflexivity|]. destruct (Z.ltb_spec (n_speakers year) speaker); [reflexivity|]. lia.
Qed.
Lemma n_speakers_cases year : (year = 1%Z /\ n_speakers year = 4%Z) \/ (year <> 1%Z /\ n_speakers year = 10%Z).
Proof. unfold n_speakers. destruct (Z.eqb_spec year 1); auto. Qed.
Lemma blacklist_length year : Z.of_nat (List.length (blacklist_of year)) = n_speakers year.
Proof. unfold blacklist_of, n_speakers. destruct (year =? 1)%Z; reflexivity. Qed.
(** The blacklist of a speaker, as positions. *)
Definition bad_list (year speaker : Z) : list nat := if (year =? 1)%Z && (speaker =? 1)%Z then [176] else [].
Lemma blacklist_at year k : (Z.of_nat k < n_speakers year)%Z ->
  nth_error (blacklist_of year) k = Some (map Z.of_nat (bad_list year (Z.of_nat k))).
Proof.
  unfold blacklist_of, bad_list, n_speakers. destruct (year =? 1)%Z; intros H.
  - do 4 (destruct k as [|k]; [reflexivity|]). lia.
  - rewrite andb_false_l. do 10 (destruct k as [|k]; [reflexivity|]). lia.
Qed.
Lemma bad_list_in year speaker i : In i (bad_list year speaker) <-> bad year speaker i.
Proof.
  unfold bad_list, bad. destruct (Z.eqb_spec year 1), (Z.eqb_spec speaker 1); cbn [andb In]; intuition lia.
Qed.
Lemma bad_list_sorted year speaker : StronglySorted (fun a b => b < a) (bad_list year speaker).
Proof. unfold bad_list. destruct (_ && _); repeat constructor. Qed.
Lemma bad_list_enough year speaker n : enough year speaker n -> Forall (fun b => b < n) (bad_list year speaker).
Proof.
  unfold enough, bad_list. intros H. destruct (Z.eqb_spec year 1), (Z.eqb_spec speaker 1); cbn [andb]; try constructor; auto.
Qed.
Lemma remove_bad {A} year speaker (l : list A) : enough year speaker (List.length l) -> exists idx l',
  pop_all (map Z.of_nat (bad_list year speaker)) l = Ok l' /\ good_positions year speaker (List.length l) idx /\ picks idx l l'.
Proof.
  intros H. destruct (positions_removed (bad_list year speaker) l (bad_list_sorted _ _) (bad_list_enough _ _ _ H)) as (idx & l' & E & S & P & I).
  exists idx, l'. split; [exact E|]. split; [split; [exact S|]|exact P]. intros i. rewrite I, bad_list_in. reflexivity.
Qed.
Lemma remove_short {A} (l : list A) : List.length l <= 176 -> pop_all [176%Z] l = Err IndexError.
Proof.
  intros H. unfold pop_all. cbn [foldM]. unfold pop, norm_index.
  destruct (Z.ltb_spec 176 (Z.of_nat (List.length l))); [lia|]. rewrite andb_false_r.
  replace (176 <? 0)%Z with false by reflexivity. rewrite andb_false_r. reflexivity.
Qed.
