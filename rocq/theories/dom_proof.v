(** * Proofs about the XML element of a record. *)

From Coq Require Import List ZArith Bool String Lia.
Import ListNotations.
From Verif Require Import Py logger_model serial_model sound_model dom_model dom_spec.
Local Open Scope string_scope.

Section Proof.
Context {Arr : Type}.

Definition tag_node (t : string) : node Arr := Element "tag" [("name", VStr t)] [].
Definition whole (style : val Arr) (audio trans : string) (tags : list string) : node Arr :=
  Element "record" [("style", style)] (Element "audio" [] [Text audio] :: Element "trans" [] [Text trans] :: map tag_node tags).
Lemma fold_tags names : forall name a cs,
  fold_left (fun rd t => append_child rd (set_attribute (create_element "tag") "name" (VStr t))) names (Element name a cs) =
  Element (Arr := Arr) name a (cs ++ map tag_node names).
Proof.
  induction names as [|t names IH]; intros name a cs; cbn [fold_left map].
  - now rewrite app_nil_r.
  - cbn [append_child]. rewrite IH. now rewrite <- app_assoc.
Qed.
Lemma dom_ok (d : database Arr) r a t names : r_audio r = VStr a -> r_trans r = VStr t -> get_tag_names d r = Ok names ->
  get_dom d r = Ok (whole (r_style r) a t names).
Proof. intros A T N. unfold get_dom. rewrite A, T, N. cbn [create_text bind]. f_equal. apply fold_tags. Qed.
Lemma whole_element style a t names : element_of style a t names (whole style a t names).
Proof.
  unfold whole. split; [eexists _, _; reflexivity|]. split; [eexists _, _; split; [reflexivity|cbn; now rewrite map_length]|].
  assert (F : forall k, String.eqb "tag" k = false -> filter (fun c => match c with Element j _ _ => String.eqb j k | Text _ => false end) (map tag_node names) = []).
  { intros k K. induction names as [|n ns IH]; [reflexivity|]. cbn [map filter tag_node]. rewrite K. exact IH. }
  split; [|split].
  - exists (Element "audio" [] [Text a]). split; [|eexists; reflexivity]. cbn. f_equal. now apply F.
  - exists (Element "trans" [] [Text t]). split; [|eexists; reflexivity]. cbn. f_equal. now apply F.
  - cbn. clear. induction names as [|n ns IH]; cbn; constructor; auto. eexists _, _. reflexivity.
Qed.
Lemma element_inj style a t tags style' a' t' tags' (n : node Arr) : element_of style a t tags n -> element_of style' a' t' tags' n ->
  style = style' /\ a = a' /\ t = t' /\ tags = tags'.
Proof.
  intros ((n1 & c1 & S) & _ & (e & E & (k & A)) & (f & F & (j & T)) & G) ((n2 & c2 & S') & _ & (e' & E' & (k' & A')) & (f' & F' & (j' & T')) & G').
  split; [congruence|]. split; [congruence|]. split; [congruence|].
  revert tags' G'. induction G as [|x y l l' H G IH]; intros tags' G'; inversion G' as [|x' y' m m' H' G'' X Y]; subst; auto.
  destruct H as (p & q & H), H' as (p' & q' & H'). f_equal; [congruence|auto].
Qed.

Lemma dom_inv (d : database Arr) r e : get_dom d r = Ok e -> exists a t names, r_audio r = VStr a /\ r_trans r = VStr t /\
  get_tag_names d r = Ok names /\ e = whole (r_style r) a t names.
Proof.
  intros H. destruct (r_audio r) eqn:A; unfold get_dom in H; rewrite A in H; try discriminate H.
  destruct (r_trans r) eqn:T; try discriminate H. destruct (get_tag_names d r) as [names|] eqn:N; try discriminate H.
  exists s, s0, names. repeat split; auto. cbn [create_text bind] in H. injection H as <-. apply fold_tags.
Qed.
Lemma dom_element (d : database Arr) r a t names : r_audio r = VStr a -> r_trans r = VStr t -> get_tag_names d r = Ok names ->
  exists e, get_dom d r = Ok e /\ element_of (r_style r) a t names e.
Proof. intros A T N. eexists. split; [apply dom_ok; eassumption|apply whole_element]. Qed.
Lemma dom_same (d d' : database Arr) r r' e : get_dom d r = Ok e -> get_dom d' r' = Ok e ->
  r_style r = r_style r' /\ r_audio r = r_audio r' /\ r_trans r = r_trans r' /\ get_tag_names d r = get_tag_names d' r' /\ to_dict d r = to_dict d' r'.
Proof.
  intros H H'. apply dom_inv in H as (a & t & names & A & T & N & ->). apply dom_inv in H' as (a' & t' & names' & A' & T' & N' & E).
  assert (X : element_of (r_style r') a' t' names' (whole (r_style r) a t names)) by (rewrite E; apply whole_element).
  destruct (element_inj _ _ _ _ _ _ _ _ _ (whole_element _ _ _ _) X) as (S & <- & <- & <-).
  repeat split; try congruence. unfold to_dict. now rewrite N, N', A, A', T, T', S.
Qed.
Lemma dom_type (d : database Arr) r : (forall s, r_audio r <> VStr s) \/ (forall s, r_trans r <> VStr s) -> get_dom d r = Err TypeError.
Proof.
  intros H. unfold get_dom. destruct (r_audio r) eqn:A; cbn [create_text bind]; try reflexivity.
  destruct (r_trans r) eqn:T; cbn [create_text bind]; try reflexivity. exfalso. destruct H as [H|H]; eapply H; reflexivity.
Qed.
Lemma dom_tags (d : database Arr) r a t e : r_audio r = VStr a -> r_trans r = VStr t -> get_tag_names d r = Err e -> get_dom d r = Err e.
Proof. intros A T N. unfold get_dom. now rewrite A, T, N. Qed.
Lemma names_error (d : database Arr) r i : In i (r_tags r) -> (i < - Z.of_nat (List.length (d_tags d)) \/ Z.of_nat (List.length (d_tags d)) <= i)%Z ->
  get_tag_names d r = Err IndexError.
Proof.
  unfold get_tag_names. intros I H. induction (r_tags r) as [|j l IH]; [destruct I|]. cbn [mapM].
  assert (E : forall k, py_nth (d_tags d) k = Err IndexError \/ exists s, py_nth (d_tags d) k = Ok s).
  { intros k. unfold py_nth, norm_index. repeat match goal with |- context [if ?b then _ else _] => destruct b end; cbn; auto; destruct (nth_error _ _); eauto. }
  destruct I as [->|I].
  - replace (py_nth (d_tags d) i) with (@Err string IndexError); [reflexivity|]. unfold py_nth, norm_index.
    destruct (Z.leb_spec 0 i), (Z.ltb_spec i (Z.of_nat (List.length (d_tags d)))); cbn; try lia;
    destruct (Z.leb_spec (- Z.of_nat (List.length (d_tags d))) i), (Z.ltb_spec i 0); cbn; try lia; reflexivity.
  - destruct (E j) as [->|(s & ->)]; [reflexivity|]. cbn [bind]. rewrite (IH I). reflexivity.
Qed.
End Proof.
