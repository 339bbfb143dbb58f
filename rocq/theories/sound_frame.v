(** * Lemmas: what the methods of a sound database leave as it was. *)

From Coq Require Import List ZArith Arith Bool String Ascii Permutation Sorted Lia.
Import ListNotations.
From Verif Require Import Py Py_proof logger_model logger_spec serial_model serial_spec sound_model sound_spec
  sound_proof sound_file sound_count.
Local Open Scope nat_scope.

Section Frame.
Context {Arr : Type}.
Notation record := (record Arr).
Notation database := (database Arr).
Implicit Types d : database.

Lemma add_tag_frame d t : let d' := fst (add_tag d t) in
  d_id d' = d_id d /\ d_records d' = d_records d /\ d_root d' = d_root d /\
  d_spkrs d' = d_spkrs d /\ d_spkrs_info d' = d_spkrs_info d.
Proof. unfold add_tag. destruct (has_tag d t); cbn; auto. Qed.

Lemma get_tag_frame d t : let d' := fst (get_tag_add d t) in
  d_id d' = d_id d /\ d_records d' = d_records d /\ d_root d' = d_root d /\
  d_spkrs d' = d_spkrs d /\ d_spkrs_info d' = d_spkrs_info d.
Proof.
  unfold get_tag_add. destruct (negb (has_tag d t)); [apply add_tag_frame|].
  destruct (dict_get String.eqb (d_tag_id d) t); cbn; auto.
Qed.

Lemma add_speaker_frame d s info : let d' := fst (add_speaker d s info) in
  d_id d' = d_id d /\ d_tags d' = d_tags d /\ d_tag_id d' = d_tag_id d /\ d_root d' = d_root d.
Proof. unfold add_speaker. destruct (existsb (String.eqb s) (d_spkrs d)); cbn; auto. Qed.

Lemma append_frame d i r : let d' := fst (append_record d i r) in
  d_id d' = d_id d /\ d_tags d' = d_tags d /\ d_tag_id d' = d_tag_id d /\ d_root d' = d_root d /\
  d_spkrs d' = d_spkrs d /\ d_spkrs_info d' = d_spkrs_info d.
Proof.
  unfold append_record.
  destruct (bind (py_nth (d_records d) i) _); cbn; repeat split.
Qed.

Lemma add_record_frame d r : let d' := fst (add_record d r) in
  d_id d' = d_id d /\ d_tags d' = d_tags d /\ d_tag_id d' = d_tag_id d /\ d_root d' = d_root d /\
  d_spkrs d' = d_spkrs d /\ d_spkrs_info d' = d_spkrs_info d.
Proof.
  unfold add_record. destruct (negb _); [cbn; repeat split|].
  destruct (existsb _ _); [cbn; repeat split|]. apply append_frame.
Qed.

Lemma sort_frame d : let d' := fst (sort d) in
  d_id d' = d_id d /\ d_tags d' = d_tags d /\ d_tag_id d' = d_tag_id d /\ d_root d' = d_root d /\
  d_spkrs d' = d_spkrs d /\ d_spkrs_info d' = d_spkrs_info d.
Proof. unfold sort. destruct (sort_all (d_records d)); cbn; repeat split. Qed.

Lemma sort_sorts d : sortable d -> exists d', sort d = (d', Ok tt) /\
  Forall2 stably_sorted (d_records d) (d_records d').
Proof.
  intros S. unfold sort. assert (C : Forall comparable (d_records d)) by
    (apply Forall_forall; intros rs I; destruct (S rs I) as [L|N]; [left; exact L|right; apply Forall_forall; exact N]).
  rewrite (sort_all_one _ C). eexists. split; [reflexivity|]. cbn.
  clear S. induction C; cbn; constructor; auto using sort_one.
Qed.

Lemma negative_speaker d r k : r_db r = d_id d ->
  (forall t, In t (r_tags r) -> (t <= Z.of_nat (List.length (d_tags d)))%Z) ->
  k < List.length (d_records d) ->
  r_spkr_id r = (Z.of_nat k - Z.of_nat (List.length (d_records d)))%Z ->
  exists d' rs, add_record d r = (d', Ok tt) /\ nth_error (d_records d) k = Some rs /\
    nth_error (d_records d') k = Some (rs ++ [r]) /\
    (forall j, j <> k -> nth_error (d_records d') j = nth_error (d_records d) j).
Proof.
  intros H T K E. unfold add_record. rewrite H, Nat.eqb_refl. cbn [negb].
  replace (existsb _ _) with false.
  2:{ symmetry. apply not_true_is_false. intros X. apply existsb_exists in X.
      destruct X as (t & I & L). apply Z.ltb_lt in L. specialize (T t I). lia. }
  destruct (append_cases d (r_spkr_id r) r) as [(k' & rs & N & A & B)|[N B]].
  - assert (k' = k).
    { unfold norm_index in N. rewrite E in N.
      destruct (andb _ _) eqn:X in N; [apply andb_prop in X; destruct X as [X _]; apply Z.leb_le in X; lia|].
      destruct (andb _ _) eqn:Y in N; [injection N as <-; lia|discriminate N]. }
    subst k'. rewrite B. eexists _, rs. split; [reflexivity|]. split; [exact A|]. cbn [d_records with_records].
    split.
    + rewrite nth_error_list_set, Nat.eqb_refl. apply Nat.ltb_lt in K. rewrite K. reflexivity.
    + intros j J. rewrite nth_error_list_set. apply Nat.eqb_neq in J. rewrite J. reflexivity.
  - exfalso. unfold norm_index in N. rewrite E in N.
    destruct (andb _ _) in N; [discriminate N|]. destruct (andb _ _) eqn:Y in N; [discriminate N|].
    apply andb_false_iff in Y. destruct Y as [Y|Y]; [apply Z.leb_gt in Y; lia|apply Z.ltb_ge in Y; lia].
Qed.
Local Open Scope string_scope.
Lemma paths_differ_in d (r r' : record) wav root s s' a a' : plain_name wav -> d_root d = VStr root -> directory root ->
  py_nth (d_spkrs d) (r_spkr_id r) = Ok s -> plain_name s -> r_audio r = VStr a -> plain_name a ->
  py_nth (d_spkrs d) (r_spkr_id r') = Ok s' -> plain_name s' -> r_audio r' = VStr a' -> plain_name a' ->
  get_audio_path wav d r = get_audio_path wav d r' -> s = s' /\ a = a'.
Proof.
  intros W RT D S PS A PA S' PS' A' PA' E.
  rewrite (proj2 (audio_path d r root s a RT D S PS A PA) wav W), (proj2 (audio_path d r' root s' a' RT D S' PS' A' PA') wav W) in E.
  injection E as E. apply app_cancel in E. injection E as E. apply app_cancel in E. injection E as E. apply slash_split; assumption.
Qed.
End Frame.
