(** * Lemmas: registries and histories of sound databases. *)

From Coq Require Import List ZArith Arith Bool String Permutation Sorted Lia.
Import ListNotations.
From Verif Require Import Py Py_proof logger_model logger_spec serial_model serial_spec sound_model sound_spec.
Local Open Scope nat_scope.
Open Scope py_scope.

Lemma sget_set {V} (d : list (string * V)) k v k' :
  dict_get String.eqb (dict_set String.eqb d k v) k' = if String.eqb k k' then Some v else dict_get String.eqb d k'.
Proof.
  induction d as [|(a, x) d IH]; cbn [dict_set dict_get]; [reflexivity|].
  destruct (String.eqb_spec a k) as [->|N]; cbn [dict_get].
  - destruct (String.eqb k k'); reflexivity.
  - rewrite IH. destruct (String.eqb_spec a k') as [->|]; [|reflexivity].
    destruct (String.eqb_spec k k'); [congruence|reflexivity].
Qed.
Lemma nth_error_snoc {A} (l : list A) x i : nth_error (l ++ [x]) i = if Nat.eqb i (List.length l) then Some x else nth_error l i.
Proof.
  destruct (Nat.eqb_spec i (List.length l)) as [->|N].
  - rewrite nth_error_app2, Nat.sub_diag by lia. reflexivity.
  - destruct (Nat.lt_ge_cases i (List.length l)) as [L|L]; [apply nth_error_app1, L|].
    rewrite nth_error_app2 by lia. destruct (i - List.length l) as [|j] eqn:E; [lia|].
    rewrite (proj2 (nth_error_None l i)) by lia. destruct j; reflexivity.
Qed.
Lemma NoDup_snoc {A} (l : list A) x : NoDup l -> ~ In x l -> NoDup (l ++ [x]).
Proof. intros H N. apply NoDup_rev in H. rewrite <- (rev_involutive (l ++ [x])). apply NoDup_rev. rewrite rev_app_distr. cbn. constructor; [rewrite <- in_rev; exact N|exact H]. Qed.
Lemma py_nth_cases {A} (l : list A) i : (exists k x, norm_index (List.length l) i = Ok k /\ nth_error l k = Some x /\ py_nth l i = Ok x) \/
  (norm_index (List.length l) i = Err IndexError /\ py_nth l i = Err IndexError).
Proof.
  unfold py_nth, norm_index.
  destruct ((0 <=? i)%Z && (i <? Z.of_nat (List.length l))%Z) eqn:E.
  - left. apply andb_true_iff in E. destruct E as (E1 & E2). apply Z.leb_le in E1. apply Z.ltb_lt in E2.
    destruct (nth_error l (Z.to_nat i)) as [x|] eqn:X; [|apply nth_error_None in X; lia].
    exists (Z.to_nat i), x. cbn [bind]. rewrite X. auto.
  - destruct ((- Z.of_nat (List.length l) <=? i)%Z && (i <? 0)%Z) eqn:E'.
    + left. apply andb_true_iff in E'. destruct E' as (E1 & E2). apply Z.leb_le in E1. apply Z.ltb_lt in E2.
      destruct (nth_error l (Z.to_nat (i + Z.of_nat (List.length l)))) as [x|] eqn:X; [|apply nth_error_None in X; lia].
      eexists _, x. cbn [bind]. split; [reflexivity|]. rewrite X. auto.
    + right. split; reflexivity.
Qed.
Lemma In_list_set {A} (l : list A) k x y : In y (list_set l k x) -> y = x \/ In y l.
Proof. revert k; induction l as [|z l IH]; intros [|k]; cbn; try tauto; intros [E|H]; auto. destruct (IH _ H); auto. Qed.

Section Proof.
Context {Arr : Type}.
Notation val := (val Arr).
Notation record := (record Arr).
Notation database := (database Arr).
Implicit Types d : database.

Lemma prefix_refl {A} (l : list A) : prefix l l.
Proof. exists []. rewrite app_nil_r. reflexivity. Qed.
Lemma prefix_trans {A} (a b c : list A) : prefix a b -> prefix b c -> prefix a c.
Proof. intros (x & ->) (y & ->). exists (x ++ y). rewrite app_assoc. reflexivity. Qed.
Lemma extends_refl d : extends d d.
Proof. split; [reflexivity|]. split; [|split]; apply prefix_refl. Qed.
Lemma extends_trans (a b c : database) : extends a b -> extends b c -> extends a c.
Proof.
  intros (I1 & T1 & S1 & F1) (I2 & T2 & S2 & F2). split; [congruence|].
  split; [eapply prefix_trans; eauto|]. split; eapply prefix_trans; eauto.
Qed.

Lemma has_tag_in d t : consistent d -> (has_tag d t = true <-> In t (d_tags d)).
Proof.
  intros (_ & T & _). unfold has_tag. destruct (dict_get _ _ t) as [i|] eqn:E.
  - apply T in E. split; [|reflexivity]. intros _. eapply nth_error_In, E.
  - split; [discriminate|]. intros H. apply In_nth_error in H. destruct H as (i & H). apply T in H. congruence.
Qed.

Lemma add_tag_new d t : consistent d -> ~ In t (d_tags d) -> exists d', add_tag d t = (d', Ok (List.length (d_tags d))) /\
  d_tags d' = d_tags d ++ [t] /\ consistent d' /\ extends d d' /\ d_records d' = d_records d /\
  d_spkrs d' = d_spkrs d /\ d_spkrs_info d' = d_spkrs_info d /\ d_root d' = d_root d.
Proof.
  intros C N. unfold add_tag. destruct (has_tag d t) eqn:H; [apply (has_tag_in d t C) in H; contradiction|].
  replace (List.length (d_tags d ++ [t]) - 1) with (List.length (d_tags d)) by (rewrite app_length; cbn; lia).
  eexists. split; [reflexivity|]. cbn [d_tags d_records d_spkrs d_spkrs_info d_root]. split; [reflexivity|]. split; [|split; [|auto]].
  - destruct C as (ND & T & R). split; [apply NoDup_snoc; assumption|]. split; [|exact R].
    cbn [d_tags d_tag_id]. intros t' i. rewrite sget_set, nth_error_snoc. destruct (String.eqb_spec t t') as [<-|X].
    + destruct (Nat.eqb_spec i (List.length (d_tags d))) as [->|NE]; [tauto|]. split; [congruence|].
      intros E. apply nth_error_In in E. contradiction.
    + rewrite T. destruct (Nat.eqb_spec i (List.length (d_tags d))) as [->|NE]; [|tauto].
      rewrite (proj2 (nth_error_None _ _)) by lia. split; congruence.
  - split; [reflexivity|]. split; [eexists; reflexivity|]. split; apply prefix_refl.
Qed.
Lemma add_tag_old d t : consistent d -> In t (d_tags d) -> add_tag d t = (d, Err ValueError).
Proof. intros C H. unfold add_tag. rewrite (proj2 (has_tag_in d t C) H). reflexivity. Qed.

Lemma get_tag_old d t i : consistent d -> nth_error (d_tags d) i = Some t -> get_tag_add d t = (d, Ok i).
Proof.
  intros C H. unfold get_tag_add. rewrite (proj2 (has_tag_in d t C)) by (eapply nth_error_In, H). cbn [negb].
  destruct C as (_ & T & _). rewrite (proj2 (T t i) H). reflexivity.
Qed.
Lemma get_tag_new d t : consistent d -> ~ In t (d_tags d) -> get_tag_add d t = add_tag d t.
Proof.
  intros C N. unfold get_tag_add. destruct (has_tag d t) eqn:H; [apply (has_tag_in d t C) in H; contradiction|]. reflexivity.
Qed.

Lemma existsb_name name (l : list string) : existsb (String.eqb name) l = true <-> In name l.
Proof.
  rewrite existsb_exists. split; [intros (x & I & E); apply String.eqb_eq in E; subst; exact I|].
  intros I. exists name. split; [exact I|apply String.eqb_refl].
Qed.
Lemma add_speaker_old d name info : In name (d_spkrs d) -> add_speaker d name info = (d, Err ValueError).
Proof. intros I. unfold add_speaker. rewrite (proj2 (existsb_name _ _) I). reflexivity. Qed.
Lemma add_speaker_new d name info : consistent d -> ~ In name (d_spkrs d) -> exists d',
  add_speaker d name info = (d', Ok (List.length (d_spkrs d))) /\ consistent d' /\ extends d d' /\
  d_tags d' = d_tags d /\ d_tag_id d' = d_tag_id d /\ d_root d' = d_root d /\
  d_spkrs d' = d_spkrs d ++ [name] /\ d_spkrs_info d' = d_spkrs_info d ++ [info] /\
  d_records d' = d_records d ++ [[]].
Proof.
  intros C N. unfold add_speaker. destruct (existsb (String.eqb name) (d_spkrs d)) eqn:E; [apply existsb_name in E; contradiction|].
  replace (List.length (d_spkrs d ++ [name]) - 1) with (List.length (d_spkrs d)) by (rewrite app_length; cbn; lia).
  eexists. split; [reflexivity|]. cbn [d_tags d_tag_id d_records d_spkrs d_spkrs_info d_root]. split; [|split; [|auto 10]].
  - destruct C as (ND & T & NS & L1 & L2 & B). do 2 (split; [assumption|]). cbn [d_records d_spkrs d_spkrs_info d_id].
    split; [apply NoDup_snoc; assumption|]. rewrite !app_length. cbn [List.length]. split; [lia|]. split; [lia|].
    intros rs r I J. apply in_app_or in I. destruct I as [I|[<-|[]]]; [eauto|destruct J].
  - split; [reflexivity|]. cbn [d_tags d_spkrs d_spkrs_info]. split; [apply prefix_refl|]. split; eexists; reflexivity.
Qed.

Lemma append_cases d i r : (exists k rs, norm_index (List.length (d_records d)) i = Ok k /\ nth_error (d_records d) k = Some rs /\
    append_record d i r = (with_records d (list_set (d_records d) k (rs ++ [r])), Ok tt)) \/
  (norm_index (List.length (d_records d)) i = Err IndexError /\ append_record d i r = (d, Err IndexError)).
Proof.
  unfold append_record. destruct (py_nth_cases (d_records d) i) as [(k & rs & K & X & E)|(K & E)]; rewrite E; cbn [bind].
  - left. exists k, rs. unfold py_set. rewrite K. auto.
  - right. auto.
Qed.
Lemma append_keeps d i r : consistent d -> r_db r = d_id d -> consistent (fst (append_record d i r)) /\ extends d (fst (append_record d i r)).
Proof.
  intros C B. destruct (append_cases d i r) as [(k & rs & K & X & E)|(_ & E)]; rewrite E; cbn [fst]; [|split; [exact C|apply extends_refl]].
  split.
  - destruct C as (ND & T & NS & L1 & L2 & BB). do 3 (split; [assumption|]). cbn [with_records d_records d_spkrs d_spkrs_info d_id].
    rewrite list_set_length. do 2 (split; [assumption|]). intros l q I J. apply In_list_set in I. destruct I as [->|I]; [|eauto].
    apply in_app_or in J. destruct J as [J|[<-|[]]]; [|exact B]. apply (BB rs); [eapply nth_error_In, X|exact J].
  - split; [reflexivity|]. cbn. split; [|split]; apply prefix_refl.
Qed.

(** ** Sorting *)
Lemma insert_perm (r : record) l : Permutation (r :: l) (insert r l).
Proof.
  induction l as [|x l IH]; cbn [insert]; [apply Permutation_refl|]. destruct (audio_lt x r); [|apply Permutation_refl].
  eapply perm_trans; [apply perm_swap|]. apply perm_skip, IH.
Qed.
Lemma sort_perm (l : list record) : Permutation l (stable_sort l).
Proof.
  induction l as [|r l IH]; cbn [stable_sort fold_right]; [apply perm_nil|].
  eapply perm_trans; [apply perm_skip, IH|apply insert_perm].
Qed.
Lemma sort_records_perm (l l' : list record) : sort_records l = Ok l' -> Permutation l l'.
Proof. unfold sort_records. destruct (_ && _); [discriminate|]. intros [= <-]. apply sort_perm. Qed.
Lemma sort_all_perm (ls : list (list record)) : Forall2 (@Permutation record) ls (fst (sort_all ls)).
Proof.
  induction ls as [|l ls IH]; cbn [sort_all]; [constructor|]. destruct (sort_records l) as [l'|e] eqn:E.
  - destruct (sort_all ls) as (ls', r). cbn [fst] in *. constructor; [apply sort_records_perm, E|exact IH].
  - cbn [fst]. constructor; [apply Permutation_refl|]. clear. induction ls; constructor; auto.
Qed.
Lemma sort_keeps d : consistent d -> consistent (fst (sort d)) /\ extends d (fst (sort d)).
Proof.
  intros C. unfold sort. pose proof (sort_all_perm (d_records d)) as P. destruct (sort_all (d_records d)) as (rs, r). cbn [fst] in *. split.
  - destruct C as (ND & T & NS & L1 & L2 & B). do 3 (split; [assumption|]). cbn [with_records d_records d_spkrs d_spkrs_info d_id].
    assert (L : List.length rs = List.length (d_records d)) by (clear -P; induction P; cbn; lia).
    split; [lia|]. split; [lia|]. intros l q I J. clear L L1.
    enough (exists l0, In l0 (d_records d) /\ In q l0) by (destruct H as (l0 & H1 & H2); eauto).
    clear - P I J. induction P as [|a b x y PA _ IH]; [destruct I|]. destruct I as [<-|I].
    + exists a. split; [left; reflexivity|]. eapply Permutation_in; [apply Permutation_sym, PA|exact J].
    + destruct (IH I) as (l0 & H1 & H2). exists l0. split; [right; exact H1|exact H2].
  - split; [reflexivity|]. cbn. split; [|split]; apply prefix_refl.
Qed.

(** ** Every action keeps a database consistent *)
Definition keeps {A} (x : action Arr A) (Q : database -> A -> Prop) : Prop :=
  forall d, consistent d -> consistent (fst (x d)) /\ extends d (fst (x d)) /\ forall a, snd (x d) = Ok a -> Q (fst (x d)) a.
Lemma keeps_lift {A} (r : result A) (Q : database -> A -> Prop) : (forall d a, Q d a) -> keeps (lift r) Q.
Proof. intros H d C. cbn. split; [exact C|]. split; [apply extends_refl|]. intros a _. apply H. Qed.
Lemma keeps_bind {A B} (x : action Arr A) (f : A -> action Arr B) (P : database -> A -> Prop) (Q : database -> B -> Prop) :
  keeps x P -> (forall a d, consistent d -> P d a -> consistent (fst (f a d)) /\ extends d (fst (f a d)) /\ forall b, snd (f a d) = Ok b -> Q (fst (f a d)) b) ->
  keeps (bindA x f) Q.
Proof.
  intros X F d C. destruct (X d C) as (C' & E & H). unfold bindA. destruct (x d) as (d', [a|e]); cbn [fst snd] in *.
  - destruct (F a d' C' (H a eq_refl)) as (C2 & E2 & H2). split; [exact C2|]. split; [eapply extends_trans; eauto|exact H2].
  - split; [exact C'|]. split; [exact E|]. discriminate.
Qed.
Definition any {A} : database -> A -> Prop := fun _ _ => True.
Lemma keeps_bind_any {A B} (x : action Arr A) (f : A -> action Arr B) (Q : database -> B -> Prop) : keeps x any -> (forall a, keeps (f a) Q) -> keeps (bindA x f) Q.
Proof. intros X F. eapply keeps_bind; [exact X|]. intros a d C _. apply F, C. Qed.
Lemma keeps_iter {A} (f : A -> action Arr unit) l : (forall x, keeps (f x) any) -> keeps (iterA f l) any.
Proof.
  intros F. induction l as [|x l IH]; cbn [iterA].
  - intros d C. cbn. split; [exact C|]. split; [apply extends_refl|]. intros; exact Logic.I.
  - apply keeps_bind_any; [apply F|intros _; exact IH].
Qed.
Lemma keeps_map {A B} (f : A -> action Arr B) l : (forall x, keeps (f x) any) -> keeps (mapA f l) any.
Proof.
  intros F. induction l as [|x l IH]; cbn [mapA].
  - intros d C. cbn. split; [exact C|]. split; [apply extends_refl|]. intros; exact Logic.I.
  - apply keeps_bind_any; [apply F|intros y]. apply keeps_bind_any; [exact IH|intros ys].
    intros d C. cbn. split; [exact C|]. split; [apply extends_refl|]. intros; exact Logic.I.
Qed.
Lemma keeps_add_tag t : keeps (fun d => add_tag d t) any.
Proof.
  intros d C. destruct (in_dec string_dec t (d_tags d)) as [I|N].
  - rewrite add_tag_old by assumption. cbn. split; [exact C|]. split; [apply extends_refl|]. intros; exact Logic.I.
  - destruct (add_tag_new d t C N) as (d' & E & _ & C' & X & _). rewrite E. cbn. repeat (split; [assumption|]). intros; exact Logic.I.
Qed.
Lemma keeps_get_tag t : keeps (fun d => get_tag_add d t) any.
Proof.
  intros d C. destruct (in_dec string_dec t (d_tags d)) as [I|N].
  - apply In_nth_error in I. destruct I as (i & I). rewrite (get_tag_old d t i) by assumption. cbn. split; [exact C|].
    split; [apply extends_refl|]. intros; exact Logic.I.
  - rewrite get_tag_new by assumption. apply keeps_add_tag, C.
Qed.
Lemma keeps_add_speaker name info : keeps (fun d => add_speaker d name info) any.
Proof.
  intros d C. destruct (in_dec string_dec name (d_spkrs d)) as [I|N].
  - rewrite add_speaker_old by assumption. cbn. split; [exact C|]. split; [apply extends_refl|]. intros; exact Logic.I.
  - destruct (add_speaker_new d name info C N) as (d' & E & C' & X & _). rewrite E. cbn. repeat (split; [assumption|]). intros; exact Logic.I.
Qed.
Lemma keeps_from_dict k v : keeps (from_dict k v) (fun d r => r_db r = d_id d).
Proof.
  unfold from_dict. apply keeps_bind_any; [apply keeps_lift; intros; exact Logic.I|intros audio].
  apply keeps_bind_any; [apply keeps_lift; intros; exact Logic.I|intros ts].
  apply keeps_bind_any; [apply keeps_map; intros t; apply keeps_bind_any; [apply keeps_lift; intros; exact Logic.I|intros s; apply keeps_get_tag]|intros ids].
  apply keeps_bind_any; [apply keeps_lift; intros; exact Logic.I|intros trans].
  apply keeps_bind_any; [apply keeps_lift; intros; exact Logic.I|intros style].
  intros d C. cbn. split; [exact C|]. split; [apply extends_refl|]. intros a [= <-]. reflexivity.
Qed.
Lemma keeps_load_record k v : keeps (load_record k v) any.
Proof.
  unfold load_record. eapply keeps_bind; [apply keeps_from_dict|]. intros r d C B.
  destruct (append_keeps d (-1) r C B) as (C' & E). split; [exact C'|]. split; [exact E|]. intros; exact Logic.I.
Qed.
Lemma keeps_load_speaker s : keeps (load_speaker s) any.
Proof.
  unfold load_speaker. repeat (apply keeps_bind_any; [first [apply keeps_lift; intros; exact Logic.I|apply keeps_add_speaker]|intros ?]).
  apply keeps_iter. intros v. apply keeps_load_record.
Qed.
Lemma keeps_sort : keeps sort any.
Proof. intros d C. destruct (sort_keeps d C) as (A & B). split; [exact A|]. split; [exact B|]. intros; exact Logic.I. Qed.
Lemma keeps_load_data data sorted : keeps (load_data data sorted) any.
Proof.
  unfold load_data. apply keeps_bind_any; [apply keeps_lift; intros; exact Logic.I|intros root].
  apply keeps_bind_any.
  { intros d C. cbn. split; [exact C|]. split; [split; [reflexivity|split; [|split]; apply prefix_refl]|intros; exact Logic.I]. }
  intros _. apply keeps_bind_any; [apply keeps_lift; intros; exact Logic.I|intros ts].
  apply keeps_bind_any; [apply keeps_iter; intros t; apply keeps_bind_any; [apply keeps_lift; intros; exact Logic.I|intros s]|intros _].
  { apply keeps_bind_any; [apply keeps_add_tag|intros i]. intros d C. cbn. split; [exact C|]. split; [apply extends_refl|]. intros; exact Logic.I. }
  apply keeps_bind_any; [apply keeps_lift; intros; exact Logic.I|intros ss].
  apply keeps_bind_any; [apply keeps_iter; intros s; apply keeps_load_speaker|intros _].
  destruct sorted; [apply keeps_sort|]. intros d C. cbn. split; [exact C|]. split; [apply extends_refl|]. intros; exact Logic.I.
Qed.
Lemma add_record_keeps d r : consistent d -> consistent (fst (add_record d r)) /\ extends d (fst (add_record d r)).
Proof.
  intros C. unfold add_record. destruct (Nat.eqb_spec (r_db r) (d_id d)) as [E|N]; cbn [negb]; [|split; [exact C|apply extends_refl]].
  destruct (existsb _ _); [split; [exact C|apply extends_refl]|]. apply append_keeps; assumption.
Qed.

Lemma step_keeps d d' : step d d' -> consistent d -> consistent d' /\ extends d d'.
Proof.
  intros S C. destruct S.
  - destruct (keeps_add_tag t d C) as (A & B & _). auto.
  - destruct (keeps_get_tag t d C) as (A & B & _). auto.
  - destruct (keeps_add_speaker name info d C) as (A & B & _). auto.
  - apply add_record_keeps, C.
  - apply sort_keeps, C.
  - unfold load_from. destruct (dict_get _ _ _) as [[data|]|]; try (split; [exact C|apply extends_refl]).
    destruct (keeps_load_data data sorted d C) as (A & B & _). auto.
Qed.
Lemma new_consistent id : consistent (DataBase (Arr := Arr) id).
Proof.
  split; [constructor|]. split; [|split; [constructor|]; split; [reflexivity|]; split; [reflexivity|intros ? ? []]].
  intros t i. cbn. split; [discriminate|]. destruct i; discriminate.
Qed.
Lemma reachable_consistent d : reachable d -> consistent d.
Proof. induction 1 as [id|d d' _ IH S]; [apply new_consistent|]. apply (step_keeps d d' S IH). Qed.

Lemma steps_extend d d' : steps d d' -> consistent d -> consistent d' /\ extends d d'.
Proof.
  induction 1 as [d|d d' d'' _ IH S]; intros C; [split; [exact C|apply extends_refl]|].
  destruct (IH C) as (C' & E'). destruct (step_keeps _ _ S C') as (C2 & E2). split; [exact C2|eapply extends_trans; eauto].
Qed.
Lemma prefix_nth {A} (l l' : list A) i x : prefix l l' -> nth_error l i = Some x -> nth_error l' i = Some x.
Proof. intros (m & ->) H. rewrite nth_error_app1; [exact H|]. apply nth_error_Some. congruence. Qed.

(** ** Statements *)
Lemma ids_kept d d' : reachable d -> steps d d' ->
  d_id d' = d_id d /\
  (forall t i, dict_get String.eqb (d_tag_id d) t = Some i -> dict_get String.eqb (d_tag_id d') t = Some i) /\
  (forall s i, nth_error (d_spkrs d) i = Some s -> nth_error (d_spkrs d') i = Some s) /\
  (forall s i, nth_error (d_spkrs_info d) i = Some s -> nth_error (d_spkrs_info d') i = Some s).
Proof.
  intros R S. pose proof (reachable_consistent _ R) as C. destruct (steps_extend _ _ S C) as (C' & (I & T & P & F)).
  split; [exact I|]. destruct C as (_ & T1 & _). destruct C' as (_ & T2 & _).
  split; [intros t i H; apply T2; apply T1 in H; eapply prefix_nth; eauto|]. split; intros s i H; eapply prefix_nth; eauto.
Qed.
Lemma tag_add d t : reachable d -> exists d' i, get_tag_add d t = (d', Ok i) /\ get_tag_add d' t = (d', Ok i) /\
  nth_error (d_tags d') i = Some t /\
  (In t (d_tags d) -> d' = d) /\ (~ In t (d_tags d) -> i = List.length (d_tags d) /\ d_tags d' = d_tags d ++ [t]).
Proof.
  intros R. pose proof (reachable_consistent _ R) as C. destruct (in_dec string_dec t (d_tags d)) as [I|N].
  - pose proof I as I'. apply In_nth_error in I. destruct I as (i & I). exists d, i. rewrite (get_tag_old d t i C I). do 4 (split; [auto|]). contradiction.
  - destruct (add_tag_new d t C N) as (d' & E & T & C' & _). exists d', (List.length (d_tags d)). rewrite (get_tag_new d t C N).
    assert (X : nth_error (d_tags d') (List.length (d_tags d)) = Some t) by (rewrite T, nth_error_snoc, Nat.eqb_refl; reflexivity).
    split; [exact E|]. split; [apply get_tag_old; assumption|]. split; [exact X|]. split; [contradiction|]. auto.
Qed.
Lemma duplicates d : reachable d ->
  (forall t, In t (d_tags d) -> add_tag d t = (d, Err ValueError)) /\
  (forall t, ~ In t (d_tags d) -> exists d', add_tag d t = (d', Ok (List.length (d_tags d))) /\ d_tags d' = d_tags d ++ [t]) /\
  (forall s info, In s (d_spkrs d) -> add_speaker d s info = (d, Err ValueError)) /\
  (forall s info, ~ In s (d_spkrs d) -> exists d', add_speaker d s info = (d', Ok (List.length (d_spkrs d))) /\
     d_spkrs d' = d_spkrs d ++ [s] /\ d_spkrs_info d' = d_spkrs_info d ++ [info] /\ d_records d' = d_records d ++ [[]]).
Proof.
  intros R. pose proof (reachable_consistent _ R) as C. split; [|split; [|split]].
  - intros t. apply add_tag_old, C.
  - intros t N. destruct (add_tag_new d t C N) as (d' & E & T & _). eauto.
  - intros s info. apply add_speaker_old.
  - intros s info N. destruct (add_speaker_new d s info C N) as (d' & E & _ & _ & _ & _ & _ & A & B & F). eauto 6.
Qed.

Lemma add_record_cases d r :
  (r_db r <> d_id d -> add_record d r = (d, Err ValueError)) /\
  ((exists t, In t (r_tags r) /\ (Z.of_nat (List.length (d_tags d)) < t)%Z) -> add_record d r = (d, Err ValueError)) /\
  (r_db r = d_id d -> (forall t, In t (r_tags r) -> (t <= Z.of_nat (List.length (d_tags d)))%Z) ->
    (~ (- Z.of_nat (List.length (d_records d)) <= r_spkr_id r < Z.of_nat (List.length (d_records d)))%Z -> add_record d r = (d, Err IndexError)) /\
    (forall k, r_spkr_id r = Z.of_nat k -> k < List.length (d_records d) ->
       exists d' rs, add_record d r = (d', Ok tt) /\ nth_error (d_records d) k = Some rs /\
         nth_error (d_records d') k = Some (rs ++ [r]) /\
         (forall j, j <> k -> nth_error (d_records d') j = nth_error (d_records d) j) /\
         d_tags d' = d_tags d /\ d_spkrs d' = d_spkrs d)).
Proof.
  unfold add_record. split; [|split].
  - intros N. rewrite (proj2 (Nat.eqb_neq _ _) N). reflexivity.
  - intros (t & I & L). destruct (negb _); [reflexivity|].
    replace (existsb _ (r_tags r)) with true; [reflexivity|]. symmetry. apply existsb_exists. exists t. split; [exact I|]. apply Z.ltb_lt, L.
  - intros B T. rewrite (proj2 (Nat.eqb_eq _ _) B). cbn [negb].
    replace (existsb _ (r_tags r)) with false.
    2:{ symmetry. apply not_true_iff_false. intros E. apply existsb_exists in E. destruct E as (t & I & L). apply Z.ltb_lt in L. specialize (T t I). lia. }
    split.
    + intros O. destruct (append_cases d (r_spkr_id r) r) as [(k & rs & K & X & E)|(_ & E)]; [|exact E].
      exfalso. unfold norm_index in K. destruct ((0 <=? r_spkr_id r)%Z && (r_spkr_id r <? Z.of_nat (List.length (d_records d)))%Z) eqn:E1.
      * apply andb_true_iff in E1. destruct E1 as (A1 & A2). apply Z.leb_le in A1. apply Z.ltb_lt in A2. lia.
      * destruct (_ && _) eqn:E2 in K; [|discriminate]. apply andb_true_iff in E2. destruct E2 as (A1 & A2). apply Z.leb_le in A1. apply Z.ltb_lt in A2. lia.
    + intros k K LK. destruct (append_cases d (r_spkr_id r) r) as [(k' & rs & K' & X & E)|(K' & E)]; rewrite K, norm_index_nonneg in K';
        rewrite (proj2 (Nat.ltb_lt _ _) LK) in K'; [|discriminate]. injection K' as <-.
      eexists _, rs. split; [exact E|]. split; [exact X|]. cbn [with_records d_records d_tags d_spkrs].
      split; [rewrite nth_error_list_set, Nat.eqb_refl, (proj2 (Nat.ltb_lt _ _) LK); reflexivity|].
      split; [|auto]. intros j J. rewrite nth_error_list_set, (proj2 (Nat.eqb_neq _ _) J). reflexivity.
Qed.

Lemma mapM_index {A} (l : list A) (is : list Z) i : In i is -> py_nth l i = Err IndexError -> mapM (fun i => py_nth l i) is = Err IndexError.
Proof.
  intros I E. induction is as [|j is IH]; [destruct I|]. cbn [mapM]. destruct (py_nth_cases l j) as [(k & x & _ & _ & X)|(_ & X)]; rewrite X; cbn [bind]; [|reflexivity].
  destruct I as [->|I]; [congruence|]. rewrite IH by exact I. reflexivity.
Qed.
Lemma accepted_tag d r k : r_db r = d_id d -> r_spkr_id r = Z.of_nat k -> k < List.length (d_records d) ->
  r_tags r = [Z.of_nat (List.length (d_tags d))] ->
  exists d', add_record d r = (d', Ok tt) /\ get_tag_names d' r = Err IndexError.
Proof.
  intros B K LK T. destruct (proj2 (proj2 (add_record_cases d r)) B) as (_ & H).
  { intros t I. rewrite T in I. destruct I as [<-|[]]. lia. }
  destruct (H k K LK) as (d' & rs & E & _ & _ & _ & TG & _). exists d'. split; [exact E|]. unfold get_tag_names. rewrite T, TG.
  apply (mapM_index _ _ (Z.of_nat (List.length (d_tags d)))); [left; reflexivity|].
  unfold py_nth. rewrite norm_index_nonneg, (proj2 (Nat.ltb_ge _ _)) by lia. reflexivity.
Qed.

(** ** Comparisons *)
Lemma ltb_lt s t : String.ltb s t = true <-> String.compare s t = Lt.
Proof. unfold String.ltb. destruct (String.compare s t); split; congruence. Qed.
End Proof.
