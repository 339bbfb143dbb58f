(** * Proofs on the names of the VCTK corpus. *)

From Coq Require Import List Arith ZArith Bool String Ascii Sorted Lia.
Import ListNotations.
From Verif Require Import Py objects_spec objects_proof words_model words_spec words_text vctk_model vctk_spec.
Local Open Scope nat_scope.
Local Open Scope string_scope.

Lemma ascii_eqb_iff a b : Ascii.eqb a b = true <-> a = b.
Proof. destruct (Ascii.eqb_spec a b); split; congruence. Qed.
Lemma has_spec c s : has c s = true <-> In c (list_ascii_of_string s).
Proof.
  induction s as [|a s IH]; cbn [has list_ascii_of_string In]; [split; [discriminate|intros []]|].
  rewrite orb_true_iff, ascii_eqb_iff, IH. reflexivity.
Qed.
Lemma has_not c s : has c s = false <-> lacks c s.
Proof. unfold lacks. rewrite <- has_spec. destruct (has c s); intuition congruence. Qed.
Lemma chars_app a b : list_ascii_of_string (a ++ b) = (list_ascii_of_string a ++ list_ascii_of_string b)%list.
Proof. induction a as [|c a IH]; cbn [append list_ascii_of_string app]; [reflexivity|]. f_equal. exact IH. Qed.
Lemma lacks_app c a b : lacks c (a ++ b) <-> lacks c a /\ lacks c b.
Proof. unfold lacks. rewrite chars_app, in_app_iff. tauto. Qed.
Lemma lacks_cons c a b : lacks c (String a b) <-> a <> c /\ lacks c b.
Proof. unfold lacks. cbn [list_ascii_of_string In]. tauto. Qed.
Lemma app_assoc_s (a b c : string) : (a ++ b) ++ c = a ++ b ++ c.
Proof. induction a as [|x a IH]; cbn [append]; [reflexivity|]. f_equal. exact IH. Qed.

(** ** Pieces *)
Lemma last_piece_all c s : lacks c s -> last_piece c s = s.
Proof.
  destruct s as [|a s]; [reflexivity|]. rewrite lacks_cons. intros (N & L). cbn [last_piece].
  rewrite (proj2 (has_not c s) L). destruct (Ascii.eqb_spec a c); [contradiction|reflexivity].
Qed.
Lemma last_piece_app c a b : lacks c b -> last_piece c (a ++ String c b) = b.
Proof.
  intros L. induction a as [|x a IH]; cbn [append last_piece].
  - rewrite (proj2 (has_not c b) L), Ascii.eqb_refl. reflexivity.
  - replace (has c (a ++ String c b)) with true; [exact IH|]. symmetry. apply has_spec. rewrite chars_app, in_app_iff. right. left. reflexivity.
Qed.
Lemma last_piece_ok c s : after_last c s (last_piece c s).
Proof.
  induction s as [|a s IH]; cbn [last_piece]; [split; [intros []|left; split; [intros []|reflexivity]]|].
  destruct (has c s) eqn:H.
  - destruct IH as (L & IH). split; [exact L|]. destruct IH as [(N & _)|(p & E)]; [apply has_not in N; congruence|].
    right. exists (String a p). cbn [append]. congruence.
  - apply has_not in H. destruct (Ascii.eqb_spec a c) as [->|N].
    + split; [exact H|]. right. exists "". reflexivity.
    + assert (lacks c (String a s)) by (apply lacks_cons; auto). split; [assumption|auto].
Qed.
Lemma after_last_spec c s b : after_last c s b <-> b = last_piece c s.
Proof.
  split; [|intros ->; apply last_piece_ok]. intros (L & [(N & ->)|(a & ->)]); symmetry; [apply last_piece_all, N|apply last_piece_app, L].
Qed.
Lemma first_piece_all c s : lacks c s -> first_piece c s = s.
Proof.
  induction s as [|a s IH]; [reflexivity|]. rewrite lacks_cons. intros (N & L). cbn [first_piece].
  destruct (Ascii.eqb_spec a c); [contradiction|]. rewrite (IH L). reflexivity.
Qed.
Lemma first_piece_app c a b : lacks c a -> first_piece c (a ++ String c b) = a.
Proof.
  induction a as [|x a IH]; cbn [append first_piece]; [rewrite Ascii.eqb_refl; reflexivity|]. rewrite lacks_cons. intros (N & L).
  destruct (Ascii.eqb_spec x c); [contradiction|]. rewrite (IH L). reflexivity.
Qed.
Lemma first_piece_ok c s : up_to_first c s (first_piece c s).
Proof.
  induction s as [|a s (L & IH)]; cbn [first_piece]; [split; [intros []|auto]|]. destruct (Ascii.eqb_spec a c) as [->|N].
  - split; [intros []|]. right. exists s. reflexivity.
  - split; [apply lacks_cons; auto|]. destruct IH as [E|(b & E)]; [left|right; exists b]; cbn [append]; congruence.
Qed.
Lemma up_to_first_spec c s a : up_to_first c s a <-> a = first_piece c s.
Proof.
  split; [|intros ->; apply first_piece_ok]. intros (L & [->|(b & ->)]); symmetry; [apply first_piece_all, L|apply first_piece_app, L].
Qed.
Lemma record_name_spec path r : record_name path r <-> r = first_piece "." (last_piece "_" path).
Proof.
  unfold record_name. split.
  - intros (b & A & U). apply after_last_spec in A. apply up_to_first_spec in U. congruence.
  - intros ->. exists (last_piece "_" path). rewrite after_last_spec, up_to_first_spec. auto.
Qed.

(** ** Extensions *)
Lemma dot_char c : is_char "." c = true <-> c = "."%char.
Proof. unfold is_char. cbn [list_ascii_of_string existsb]. rewrite orb_false_r. apply ascii_eqb_iff. Qed.
Lemma dots_gone s : exists dots, s = dots ++ lstrip "." s /\ chars (fun c => c = "."%char) dots.
Proof.
  induction s as [|c s (dots & E & D)]; cbn [lstrip]; [exists ""; split; [reflexivity|intros c []]|].
  destruct (is_char "." c) eqn:I.
  - exists (String c dots). split; [cbn [append]; congruence|]. apply dot_char in I. intros x [<-|H]; [exact I|auto].
  - exists "". split; [reflexivity|intros x []].
Qed.
Lemma strip_head s c r : lstrip "." s = String c r -> c <> "."%char.
Proof.
  induction s as [|x s IH]; cbn [lstrip]; [discriminate|]. destruct (is_char "." x) eqn:I; [exact IH|].
  intros [= <- <-] E. apply dot_char in E. congruence.
Qed.
Lemma strip_keeps s rest : (exists c, In c (list_ascii_of_string s) /\ c <> "."%char) ->
  exists c t, lstrip "." (s ++ rest) = String c t ++ rest.
Proof.
  induction s as [|x s IH]; intros (c & I & N); [destruct I|]. cbn [append lstrip]. destruct (is_char "." x) eqn:D.
  - apply dot_char in D. apply IH. exists c. destruct I as [<-|I]; [contradiction|auto].
  - exists x, s. reflexivity.
Qed.
Lemma lower_app a b : lower (a ++ b) = lower a ++ lower b.
Proof. induction a as [|c a IH]; cbn [append lower]; [reflexivity|]. f_equal. exact IH. Qed.
Definition drop_first (s : string) : string := match s with "" => "" | String _ e => e end.
Lemma last_of_dir dir s : (dir = "" \/ exists d, dir = d ++ "/") -> lacks "/" s -> last_piece "/" (dir ++ s) = s.
Proof.
  intros [->|(d & ->)] L; [apply last_piece_all, L|]. rewrite app_assoc_s. apply last_piece_app, L.
Qed.
Lemma extension_spec path ext : ext <> "" -> (drop_first (lower (extension path)) = ext <-> has_extension path ext).
Proof.
  intros NE. split.
  - unfold extension. destruct (has "." (lstrip "." (last_piece "/" path))) eqn:H; [|cbn; intros <-; contradiction].
    destruct (last_piece_ok "/" path) as (LN & PE). set (name := last_piece "/" path) in *.
    destruct (dots_gone name) as (dots & E & D). destruct (last_piece_ok "." (lstrip "." name)) as (LD & [(N & _)|(st & ES)]).
    + apply has_not in N. congruence.
    + set (e := last_piece "." (lstrip "." name)) in *. cbn [lower drop_first]. intros X.
      assert (EN : name = (dots ++ st) ++ "." ++ e) by (rewrite E, ES, app_assoc_s; reflexivity).
      assert (LN' := LN). rewrite EN in LN'. clear LN. rename LN' into LN. apply lacks_app in LN. destruct LN as (L1 & L2). apply lacks_app in L2. destruct L2 as (_ & L2).
      assert (ST : exists c t, st = String c t).
      { destruct st as [|c t]; [|eauto]. exfalso. exact (strip_head name _ _ ES eq_refl). }
      destruct ST as (c & t & ->).
      assert (c <> "."%char) by exact (strip_head name _ _ ES).
      assert (PD : exists dir, path = dir ++ name /\ (dir = "" \/ exists d, dir = d ++ "/")).
      { destruct PE as [(_ & PE)|(a & PE)]; [exists ""; split; [symmetry; exact PE|auto]|]. exists (a ++ "/"). rewrite app_assoc_s. eauto. }
      destruct PD as (dir & P & DD). exists dir, (dots ++ String c t), e.
      split; [rewrite <- EN; exact P|]. split; [exact DD|]. do 3 (split; [assumption|]). split; [apply lowered_spec; symmetry; exact X|].
      exists c. split; [|assumption]. rewrite chars_app, in_app_iff. right. left. reflexivity.
  - intros (dir & stem & e & -> & D & L1 & L2 & L3 & LW & ND). apply lowered_spec in LW. subst ext. unfold extension.
    assert (LA : lacks "/" (stem ++ "." ++ e)).
    { apply lacks_app. split; [exact L1|]. apply lacks_app. split; [|exact L2]. intros [H|[]]. discriminate. }
    rewrite (last_of_dir dir _ D LA). destruct (strip_keeps stem ("." ++ e) ND) as (c & t & ->).
    replace (has "." (String c t ++ "." ++ e)) with true.
    + change ("." ++ e) with (String "." e). rewrite (last_piece_app "." (String c t) e L3). reflexivity.
    + symmetry. apply has_spec. rewrite chars_app, in_app_iff. right. left. reflexivity.
Qed.

(** ** The usual names *)
Lemma usual_name dir s name ext r : lacks "_" name -> lacks "." name -> lacks "_" ext ->
  record_name (dir ++ "p" ++ s ++ "_" ++ name ++ "." ++ ext) r <-> r = name.
Proof.
  intros A B C. rewrite record_name_spec.
  replace (dir ++ "p" ++ s ++ "_" ++ name ++ "." ++ ext) with ((dir ++ "p" ++ s) ++ String "_" (name ++ "." ++ ext)) by (rewrite !app_assoc_s; reflexivity).
  rewrite last_piece_app.
  - change (name ++ "." ++ ext) with (name ++ String "." ext). rewrite (first_piece_app "." name ext B). reflexivity.
  - apply lacks_app. split; [exact A|]. apply lacks_app. split; [|exact C]. intros [H|[]]. discriminate.
Qed.
Lemma usual_extension dir s name ext ext' : (dir = "" \/ exists d, dir = d ++ "/") ->
  lacks "/" s -> lacks "/" name -> lacks "/" ext -> lacks "." ext -> ext' <> "" ->
  has_extension (dir ++ "p" ++ s ++ "_" ++ name ++ "." ++ ext) ext' <-> lowered ext ext'.
Proof.
  intros D A B C E NE.
  assert (X : has_extension (dir ++ "p" ++ s ++ "_" ++ name ++ "." ++ ext) (lower ext) <-> True).
  { split; [auto|]. intros _. exists dir, ("p" ++ s ++ "_" ++ name), ext. rewrite !app_assoc_s. split; [reflexivity|]. split; [exact D|].
    split; [|split; [exact C|]; split; [exact E|]; split; [apply lowered_spec; reflexivity|]].
    - apply lacks_cons. split; [discriminate|]. cbn [append]. apply lacks_app. split; [exact A|]. apply lacks_cons. split; [discriminate|exact B].
    - exists "p"%char. split; [left; reflexivity|discriminate]. }
  rewrite lowered_spec. split.
  - intros H. destruct (string_dec (lower ext) "") as [Z|NZ].
    + destruct H as (dir' & stem & e & EQ & _ & _ & _ & L3 & LW & _). apply lowered_spec in LW.
      assert (e = ext) as ->; [|exact LW].
      assert (P : forall q, lacks "." q -> forall h, last_piece "." (h ++ "." ++ q) = q) by (intros q Q h; apply last_piece_app, Q).
      rewrite <- (P ext E (dir ++ "p" ++ s ++ "_" ++ name)), <- (P e L3 (dir' ++ stem)). f_equal. rewrite !app_assoc_s. symmetry. exact EQ.
    + apply (extension_spec _ _ NE) in H. apply proj2 in X. specialize (X I). apply (extension_spec _ _ NZ) in X. congruence.
  - intros ->. apply X. exact I.
Qed.
