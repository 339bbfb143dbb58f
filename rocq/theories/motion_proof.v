(** * Proofs on motion databases. *)

From Coq Require Import List ZArith Arith Bool String Ascii Lia Decimal DecimalString.
Import ListNotations.
From Verif Require Import Py Py_proof logger_model logger_spec logger_file serial_model serial_spec serial_proof sound_model sound_spec sound_proof sound_file
  sound_count acorns_proof motion_model motion_spec.
Local Open Scope nat_scope.

(** ** Paths *)
Section Paths.
Local Open Scope string_scope.
Lemma head_base f : base_name f -> head_part f = "".
Proof.
  unfold base_name. induction f as [|c f IH]; intros H; [reflexivity|]. cbn [head_part]. rewrite IH by (intros I; apply H; right; exact I).
  destruct (Ascii.eqb_spec c "/"%char) as [->|]; [destruct H; left; reflexivity|reflexivity].
Qed.
Lemma head_app d f : base_name f -> head_part (d ++ "/" ++ f) = d ++ "/".
Proof.
  intros B. induction d as [|c d IH].
  - change ("" ++ "/" ++ f) with (String "/"%char f). cbn [head_part]. rewrite (head_base f B). reflexivity.
  - change (String c d ++ "/" ++ f) with (String c (d ++ "/" ++ f)). cbn [head_part]. rewrite IH. change (String c d ++ "/") with (String c (d ++ "/")).
    destruct (d ++ "/") eqn:E; [destruct d; discriminate|reflexivity].
Qed.
Lemma strip_app a c : c <> slash -> strip_slashes (a ++ String c "/") = a ++ String c "".
Proof.
  intros N. induction a as [|x a IH].
  - cbn. destruct (Ascii.eqb_spec c "/"%char); [contradiction|reflexivity].
  - cbn [append strip_slashes]. rewrite IH. destruct (a ++ String c "") eqn:E; [destruct a; discriminate|reflexivity].
Qed.
Lemma strip_directory d : directory d -> strip_slashes (d ++ "/") = d.
Proof. intros (a & c & -> & N). rewrite sound_count.append_assoc. exact (strip_app a c N). Qed.
Lemma dirname_join d f : directory d -> base_name f -> dirname (d ++ "/" ++ f) = d.
Proof.
  intros D B. unfold dirname. rewrite (head_app d f B), (strip_directory d D). destruct D as (a & c & -> & _). destruct a; reflexivity.
Qed.
Lemma base_app f g : base_name f -> base_name g -> base_name (f ++ g).
Proof.
  unfold base_name. intros F G I. assert (H : In slash (list_ascii_of_string f) \/ In slash (list_ascii_of_string g)); [|tauto].
  clear F G. induction f as [|c f IH]; [right; exact I|]. destruct I as [<-|I]; [left; left; reflexivity|]. destruct (IH I); [left; right|right]; assumption.
Qed.
Lemma starts_base f : base_name f -> starts_with_slash f = false.
Proof. unfold base_name. destruct f as [|c f]; [reflexivity|]. cbn. intros N. destruct (Ascii.eqb_spec c "/"%char) as [->|]; [destruct N; left; reflexivity|reflexivity]. Qed.
Lemma join_dir a b : directory a -> starts_with_slash b = false -> path_join a b = a ++ "/" ++ b.
Proof.
  intros A B. unfold path_join. rewrite B. destruct (ends_directory a A) as (E & N). rewrite E. destruct a; [congruence|reflexivity].
Qed.
Lemma join_dir_slash a b : starts_with_slash b = false -> path_join (a ++ "/") b = a ++ "/" ++ b.
Proof.
  intros B. unfold path_join. rewrite B, ends_slash. destruct (a ++ "/") eqn:E; [destruct a; discriminate|]. rewrite <- E. apply sound_count.append_assoc.
Qed.
(** The data file is found again from the location of the meta file. *)
Lemma found_again s f g : destination s -> base_name f -> base_name g -> path_join (dirname (path_join s f)) g = path_join s g.
Proof.
  intros S F G. pose proof (starts_base f F) as SF. pose proof (starts_base g G) as SG. destruct S as [->|[->|[D|(d & D & ->)]]].
  - assert (P : path_join "" f = f) by (unfold path_join; rewrite SF; reflexivity). rewrite P. unfold dirname. rewrite (head_base f F). reflexivity.
  - assert (P : path_join "/" f = "" ++ "/" ++ f) by (unfold path_join; rewrite SF; reflexivity). rewrite P. unfold dirname. rewrite (head_app "" f F). reflexivity.
  - rewrite (join_dir s f D SF), (dirname_join s f D F). reflexivity.
  - rewrite (join_dir_slash d f SF), (dirname_join d f D F). rewrite (join_dir_slash d g SG). apply join_dir; assumption.
Qed.
(** With a file in a subdirectory it is not. *)
Lemma not_found_again s sub f g : directory s -> plain_name sub -> base_name f -> base_name g ->
  path_join (dirname (path_join s (sub ++ "/" ++ f))) (sub ++ "/" ++ g) = s ++ "/" ++ sub ++ "/" ++ sub ++ "/" ++ g /\
  path_join s (sub ++ "/" ++ g) = s ++ "/" ++ sub ++ "/" ++ g.
Proof.
  intros D P F G. assert (ST : forall x, starts_with_slash (sub ++ x) = false).
  { intros x. destruct sub as [|c sub]; [destruct P; congruence|]. exact (starts_plain _ P). }
  rewrite !(join_dir s) by auto. split; [|reflexivity].
  replace (s ++ "/" ++ sub ++ "/" ++ f) with ((s ++ "/" ++ sub) ++ "/" ++ f) by (rewrite !sound_count.append_assoc; reflexivity).
  assert (DS : directory (s ++ "/" ++ sub)) by (apply directory_app, (directory_app "/"), plain_directory, P).
  rewrite (dirname_join _ f DS F). rewrite join_dir by auto. rewrite !sound_count.append_assoc. reflexivity.
Qed.
Lemma path_longer a b : a ++ b = b -> a = "".
Proof.
  intros E. assert (L : String.length (a ++ b) = String.length b) by (rewrite E; reflexivity).
  assert (X : String.length (a ++ b) = String.length a + String.length b) by (clear; induction a; cbn; [reflexivity|rewrite IHa; reflexivity]).
  destruct a; [reflexivity|]. cbn [String.length] in *. lia.
Qed.
Lemma length_app a b : String.length (a ++ b) = String.length a + String.length b.
Proof. induction a as [|c a IH]; cbn; [reflexivity|]. rewrite IH. reflexivity. Qed.
Lemma cancel_right a b t : a ++ t = b ++ t -> a = b.
Proof.
  intros E. apply (append_split a t b t); [|exact E]. assert (L : String.length (a ++ t) = String.length (b ++ t)) by (rewrite E; reflexivity).
  rewrite !length_app in L. lia.
Qed.
Lemma int_start z t : starts_with_slash (string_of_Z z ++ t) = false.
Proof. unfold string_of_Z, NilZero.string_of_int, NilZero.string_of_uint. destruct (Z.to_int z) as [u|u]; destruct u; reflexivity. Qed.
Lemma join_cancel d f g : starts_with_slash f = false -> starts_with_slash g = false -> path_join d f = path_join d g -> f = g.
Proof.
  intros F G. unfold path_join. rewrite F, G. destruct (match d with EmptyString => true | _ => _ end); intros E; apply app_cancel in E; [exact E|].
  injection E as E. exact E.
Qed.
Lemma int_inj a b : string_of_Z a = string_of_Z b -> a = b.
Proof. intros E. pose proof (number_Z a) as H. rewrite E, number_Z in H. congruence. Qed.
Lemma text_paths d i j : path_join d (str_of_int (Z.of_nat i) ++ ".txt") = path_join d (str_of_int (Z.of_nat j) ++ ".txt") -> i = j.
Proof. intros E. apply join_cancel in E; [|apply int_start|apply int_start]. apply cancel_right in E. apply int_inj in E. lia. Qed.
End Paths.

(** ** Labels *)
Lemma label_eqb_eq a b : label_eqb a b = true <-> a = b.
Proof.
  destruct a as [x|x|x], b as [y|y|y]; cbn; try (split; discriminate).
  - rewrite Z.eqb_eq. split; congruence.
  - rewrite String.eqb_eq. split; congruence.
  - rewrite Nat.eqb_eq. split; congruence.
Qed.

Section Motion.
Context {Arr : Type}.
Variable shape : Arr -> list nat.
Variable reshape : Arr -> list nat -> Arr.
Notation val := (val Arr).
Notation db := (motion_db Arr).
Notation disk := (disk Arr).

(** ** extend *)
Lemma occurring_in (d : db) l : In l (occurring d) <-> occurs d l.
Proof.
  unfold occurring, labels, occurs. rewrite in_concat. split.
  - intros (ls & I & J). apply in_map_iff in I. destruct I as ((a & ls') & <- & I). eauto.
  - intros (a & ls & I & J). exists ls. split; [|exact J]. apply in_map_iff. exists (a, ls). auto.
Qed.
Definition compare_desc (d o : db) (l : label) : result bool :=
  bind (describe (m_desc d) l) (fun a => bind (describe (m_desc o) l) (fun b => Ok (String.eqb a b))).
Lemma mapM_fails {A B} (f : A -> result B) l e : mapM f l = Err e -> exists x, In x l /\ f x = Err e.
Proof.
  induction l as [|x l IH]; cbn [mapM]; [discriminate|]. destruct (f x) as [y|e'] eqn:E; cbn [bind].
  - destruct (mapM f l) as [ys|e'] eqn:E'; cbn [bind]; [discriminate|]. intros [= ->]. destruct (IH eq_refl) as (z & I & H). exists z. cbn. auto.
  - intros [= ->]. exists x. cbn. auto.
Qed.
Lemma mapM_succeeds {A B} (f : A -> result B) l ys : mapM f l = Ok ys -> Forall2 (fun x y => f x = Ok y) l ys.
Proof.
  revert ys. induction l as [|x l IH]; cbn [mapM]; intros ys; [intros [= <-]; constructor|]. destruct (f x) as [y|e'] eqn:E; cbn [bind]; [|discriminate].
  destruct (mapM f l) as [ys'|e'] eqn:E'; cbn [bind]; [|discriminate]. intros [= <-]. constructor; auto.
Qed.
Lemma extend_cases ord (d o : db) : lists_labels ord ->
  (extend ord d (Some o) = (with_motions d (m_records d ++ m_records o), Ok tt) /\ m_markers d = m_markers o /\
     forall l, occurs d l \/ occurs o l -> exists s, describe (m_desc d) l = Ok s /\ describe (m_desc o) l = Ok s) \/
  (extend ord d (Some o) = (d, Err ValueError) /\ m_markers d <> m_markers o) \/
  (extend ord d (Some o) = (d, Err ValueError) /\ m_markers d = m_markers o /\
     (forall l, occurs d l \/ occurs o l -> exists s t, describe (m_desc d) l = Ok s /\ describe (m_desc o) l = Ok t) /\
     exists l s t, (occurs d l \/ occurs o l) /\ describe (m_desc d) l = Ok s /\ describe (m_desc o) l = Ok t /\ s <> t) \/
  (exists e l, extend ord d (Some o) = (d, Err e) /\ m_markers d = m_markers o /\ (occurs d l \/ occurs o l) /\
     (describe (m_desc d) l = Err e \/ describe (m_desc o) l = Err e)).
Proof.
  intros HO. unfold extend. destruct (list_eq_dec string_dec (m_markers d) (m_markers o)) as [E|N]; [|right; left; auto].
  assert (OC : forall l, In l (ord (occurring d ++ occurring o)) <-> occurs d l \/ occurs o l).
  { intros l. rewrite (HO _ l), in_app_iff, !occurring_in. reflexivity. }
  set (ls := ord (occurring d ++ occurring o)) in *. clearbody ls. match goal with |- context [mapM ?f ls] => change f with (compare_desc d o) end.
  destruct (mapM (compare_desc d o) ls) as [bs|e] eqn:M.
  - apply mapM_succeeds in M. assert (ALL : forall l, In l ls -> exists s t, describe (m_desc d) l = Ok s /\ describe (m_desc o) l = Ok t).
    { intros l I. clear OC HO. induction M as [|x y ls bs X _ IH]; [destruct I|]. destruct I as [<-|I]; [|auto]. unfold compare_desc in X.
      destruct (describe (m_desc d) x) as [s|]; cbn [bind] in X; [|discriminate]. destruct (describe (m_desc o) x) as [t|]; cbn [bind] in X; [|discriminate]. eauto. }
    destruct (forallb (fun b => b) bs) eqn:F.
    + left. split; [reflexivity|]. split; [exact E|]. intros l I. apply OC in I.
      assert (X : compare_desc d o l = Ok true).
      { clear -M F I. induction M as [|x y ls bs X _ IH]; [destruct I|]. cbn in F. apply andb_true_iff in F. destruct F as (-> & F). destruct I as [<-|I]; auto. }
      destruct (ALL l I) as (s & t & S & T). unfold compare_desc in X. rewrite S, T in X. cbn [bind] in X. injection X as X. apply String.eqb_eq in X. subst t. eauto.
    + right. right. left. split; [reflexivity|]. split; [exact E|]. split; [intros l I; apply ALL, OC, I|].
      assert (X : exists l, In l ls /\ compare_desc d o l = Ok false).
      { clear -M F. induction M as [|x y ls bs X _ IH]; [discriminate|]. cbn in F. destruct y.
        - destruct (IH F) as (l & I & H). exists l. cbn. auto.
        - exists x. cbn. auto. }
      destruct X as (l & I & X). destruct (ALL l I) as (s & t & S & T). unfold compare_desc in X. rewrite S, T in X. cbn [bind] in X.
      exists l, s, t. split; [apply OC, I|]. split; [exact S|]. split; [exact T|]. injection X as X. apply String.eqb_neq, X.
  - right. right. right. apply mapM_fails in M. destruct M as (l & I & X). exists e, l. split; [reflexivity|]. split; [exact E|]. split; [apply OC, I|].
    unfold compare_desc in X. destruct (describe (m_desc d) l) as [s|]; cbn [bind] in X; [|left; congruence].
    destruct (describe (m_desc o) l) as [t|]; cbn [bind] in X; [discriminate|right; congruence].
Qed.
Lemma extend_all ord (d : db) other : fst (extend ord d other) = d \/
  exists o, other = Some o /\ extend ord d other = (with_motions d (m_records d ++ m_records o), Ok tt).
Proof.
  unfold extend. destruct other as [o|]; [|left; reflexivity]. destruct (list_eq_dec _ _ _); [|left; reflexivity].
  destruct (mapM _ _); [|left; reflexivity]. destruct (forallb _ _); [right; eauto|left; reflexivity].
Qed.

(** ** JSON *)
Lemma label_image l : plain_label l -> @json_image Arr (label_val l) (label_val l) /\ val_label (Arr := Arr) (label_val l) = Ok l.
Proof. intros (t & H). destruct H; cbn; split; try constructor; reflexivity. Qed.
Lemma labels_image ls : (forall l, In l ls -> plain_label l) ->
  @json_image Arr (VList (map label_val ls)) (VList (map label_val ls)) /\ mapM (val_label (Arr := Arr)) (map label_val ls) = Ok ls.
Proof.
  intros H. split.
  - constructor. induction ls as [|l ls IH]; cbn [map]; constructor; [apply label_image, H; cbn; auto|apply IH; intros x I; apply H; cbn; auto].
  - induction ls as [|l ls IH]; cbn [map mapM]; [reflexivity|]. rewrite (proj2 (label_image l (H l (or_introl eq_refl)))). cbn [bind].
    rewrite IH by (intros x I; apply H; cbn; auto). reflexivity.
Qed.
Lemma desc_json ds ds' : desc_image ds ds' -> exists v, @json_image Arr (desc_val ds) v /\ val_desc v = Ok ds'.
Proof.
  intros H. destruct H as [|l|d d' F ND]; cbn [desc_val].
  - exists VNone. split; [constructor|reflexivity].
  - exists (VList (map VStr l)). split; [apply serial_proof.strings_image|]. cbn [val_desc].
    assert (E : mapM (@as_string Arr) (map VStr l) = Ok l) by (clear; induction l as [|x l IH]; cbn [map mapM]; [reflexivity|]; cbn [as_string bind]; rewrite IH; reflexivity).
    rewrite E. reflexivity.
  - set (g := fun kv : label * string => (label_key (fst kv), @VStr Arr (snd kv))).
    exists (VDict (map g d')). split.
    + constructor.
      * clear ND. induction F as [|(k & s) y d d' (t & T & ->) _ IH]; cbn [map]; constructor; [|constructor|exact IH].
        cbn [fst snd g label_key] in *. destruct T; constructor.
      * rewrite map_map. assert (X : map (fun x => fst (g x)) d' = map label_key (map fst d')) by (rewrite map_map; reflexivity).
        rewrite X. clear X F. induction (map fst d') as [|x l IH]; cbn [map]; [constructor|]. inversion ND as [|? ? NI ND']; subst. constructor; [|auto].
        intros I. apply NI. apply in_map_iff in I. destruct I as (y & E & I). assert (y = x); [|congruence].
        destruct x, y; cbn in E; congruence.
    + cbn [val_desc]. match goal with |- bind ?m _ = _ => assert (E : m = Ok d') end; [|rewrite E; reflexivity].
      clear ND. induction F as [|(k & s) y d d' (t & T & ->) _ IH]; cbn [map mapM]; [reflexivity|].
      cbn [fst snd g bind as_string]. fold g. rewrite IH. reflexivity.
Qed.
Definition motion_val (il : nat * list label) : val :=
  VDict [(KStr "data_id", VInt (Z.of_nat (fst il))); (KStr "labels", VList (map label_val (snd il)))]%string.
Lemma motion_image il : (forall l, In l (snd il) -> plain_label l) -> json_image (motion_val il) (motion_val il).
Proof.
  intros H. constructor.
  - constructor; [constructor|constructor|]. constructor; [constructor|apply labels_image, H|constructor].
  - repeat constructor; cbn; intuition discriminate.
Qed.
Lemma records_image (ils : list (nat * list label)) : (forall il l, In il ils -> In l (snd il) -> plain_label l) ->
  json_image (VList (map motion_val ils)) (VList (map motion_val ils)).
Proof.
  intros H. constructor. induction ils as [|il ils IH]; cbn [map]; constructor; [apply motion_image; intros l; apply H; cbn; auto|apply IH; intros x l I; apply H; cbn; auto].
Qed.
Definition archive (as_ : list Arr) : list (string * Arr) := map (fun ia => (str_of_int (Z.of_nat (fst ia)), snd ia)) (enumerate as_).
Lemma archive_get as_ : forall n i, dict_get String.eqb (map (fun ia : nat * Arr => (str_of_int (Z.of_nat (fst ia)), snd ia)) (combine (seq n (List.length as_)) as_))
  (str_of_int (Z.of_nat (n + i))) = nth_error as_ i.
Proof.
  induction as_ as [|a l IH]; intros n i; cbn [List.length seq combine map dict_get fst snd]; [destruct i; reflexivity|].
  destruct i as [|i].
  - rewrite Nat.add_0_r, String.eqb_refl. reflexivity.
  - destruct (String.eqb_spec (str_of_int (Z.of_nat n)) (str_of_int (Z.of_nat (n + S i)))) as [E|_]; [apply int_inj in E; lia|].
    replace (n + S i) with (S n + i) by lia. apply IH.
Qed.
Lemma load_all (rs : list (Arr * list label)) : (forall a ls l, In (a, ls) rs -> In l ls -> plain_label l) ->
  mapM (load_motion (archive (map fst rs))) (map motion_val (enumerate (map snd rs))) = Ok rs.
Proof.
  intros H. assert (G : forall pre rest, rs = pre ++ rest ->
    mapM (load_motion (archive (map fst rs))) (map motion_val (combine (seq (List.length pre) (List.length (map snd rest))) (map snd rest))) = Ok rest).
  - intros pre rest. revert pre. induction rest as [|(a, ls) rest IH]; intros pre E; [reflexivity|].
    cbn [map List.length seq combine mapM]. unfold load_motion at 1. cbn [motion_val fst snd item find String.eqb Ascii.eqb Bool.eqb bind str_of_val].
    unfold archive, enumerate. pose proof (archive_get (map fst rs) 0 (List.length pre)) as AG. cbn [plus] in AG. rewrite AG.
    rewrite E at 1. rewrite map_app, nth_error_app2, map_length, Nat.sub_diag by (rewrite map_length; lia). cbn [map nth_error fst bind iter].
    rewrite (proj2 (labels_image ls (fun l => H a ls l ltac:(rewrite E; apply in_or_app; cbn; auto)))). cbn [bind].
    specialize (IH (pre ++ [(a, ls)])). rewrite app_length in IH. cbn [List.length] in IH. rewrite Nat.add_1_r in IH.
    unfold archive, enumerate in IH. rewrite IH; [reflexivity|]. rewrite <- app_assoc. exact E.
  - exact (G [] rs eq_refl).
Qed.
End Motion.
