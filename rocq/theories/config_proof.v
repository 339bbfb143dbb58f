(** * Proofs about the configuration. *)

From Coq Require Import List ZArith Bool String Ascii Lia.
Import ListNotations.
From Verif Require Import Py logger_file sound_model sound_spec motion_model motion_proof acorns_model acorns_proof config_model config_spec.
Local Open Scope string_scope.

Lemma strings_eqb_spec a : forall b, strings_eqb a b = true <-> a = b.
Proof.
  induction a as [|x a IH]; intros [|y b]; cbn; split; intros H; try discriminate; try reflexivity.
  - apply andb_true_iff in H. destruct H as [E H]. apply String.eqb_eq in E. apply IH in H. congruence.
  - injection H as -> ->. rewrite String.eqb_refl. now apply IH.
Qed.
Lemma key_eqb_spec a b : hashable a -> (key_eqb a b = true <-> a = b).
Proof.
  intros H. destruct a as [s|l|], b as [t|k|]; cbn; split; intros E; try discriminate.
  - apply String.eqb_eq in E. congruence.
  - injection E as ->. apply String.eqb_refl.
  - apply strings_eqb_spec in E. congruence.
  - injection E as ->. now apply strings_eqb_spec.
  - now exfalso; apply H.
Qed.

Lemma key_dec (a b : key) : {a = b} + {a <> b}.
Proof. decide equality; [apply string_dec|apply (list_eq_dec string_dec)]. Qed.

Section Config.
Context {A : Type}.
Notation config := (config A).

Lemma get_set (c : config) x v y : (forall z, In z (map fst c) -> hashable z) -> hashable x ->
  dict_get key_eqb (dict_set key_eqb c x v) y = if key_eqb x y then Some v else dict_get key_eqb c y.
Proof.
  intros Hc Hx. induction c as [|[z w] c IH]; cbn [dict_set dict_get]; [reflexivity|].
  assert (Hz : hashable z) by (apply Hc; now left).
  assert (Hc' : forall z, In z (map fst c) -> hashable z) by (intros; apply Hc; now right).
  destruct (key_eqb z x) eqn:E; cbn [dict_get].
  - apply (key_eqb_spec z x Hz) in E. subst z. destruct (key_eqb x y); reflexivity.
  - destruct (key_eqb z y) eqn:F.
    + destruct (key_eqb x y) eqn:G; [|reflexivity]. apply (key_eqb_spec z y Hz) in F. apply (key_eqb_spec x y Hx) in G.
      subst. rewrite (proj2 (key_eqb_spec y y Hx) eq_refl) in E. discriminate.
    + now apply IH.
Qed.
Lemma set_fst (c : config) x v z : In z (map fst (dict_set key_eqb c x v)) -> z = x \/ In z (map fst c).
Proof.
  induction c as [|[y w] c IH]; cbn [dict_set map fst In]; [intros [<-|[]]; auto|].
  destruct (key_eqb y x); cbn [map fst In]; intros [H|H]; auto. destruct (IH H); auto.
Qed.

Lemma assign_hashable (l : list (key * A)) : forall c c', (forall z, In z (map fst c) -> hashable z) -> assign c l = inl c' ->
  (forall x, In x (map fst l) -> hashable x) /\ (forall z, In z (map fst c') -> hashable z).
Proof.
  induction l as [|[x v] l IH]; cbn [assign]; intros c c' Hc H.
  - injection H as <-. split; [intros x []|exact Hc].
  - unfold setitem in H. assert (Hx : hashable x) by (destruct x; unfold hashable; discriminate).
    assert (Hs : forall z, In z (map fst (dict_set key_eqb c x v)) -> hashable z).
    { intros z Hz. destruct (set_fst c x v z Hz) as [->|G]; auto. }
    assert (H' : assign (dict_set key_eqb c x v) l = inl c') by (destruct x; [exact H|exact H|discriminate]).
    destruct (IH _ _ Hs H') as [G1 G2]. split; [|exact G2]. intros y [<-|Hy]; auto.
Qed.

Lemma assign_get (l : list (key * A)) : forall c c', (forall z, In z (map fst c) -> hashable z) -> assign c l = inl c' ->
  forall y v, hashable y -> (dict_get key_eqb c' y = Some v <-> last_assigned l y v \/ ~ In y (map fst l) /\ dict_get key_eqb c y = Some v).
Proof.
  induction l as [|[x w] l IH]; cbn [assign]; intros c c' Hc H y v Hy.
  - injection H as <-. split; [intros E; right; auto|]. intros [(b & a & E & _)|[_ E]]; [destruct b; discriminate|exact E].
  - unfold setitem in H. assert (Hx : hashable x) by (destruct x; unfold hashable; discriminate).
    assert (H' : assign (dict_set key_eqb c x w) l = inl c') by (destruct x; [exact H|exact H|discriminate]).
    assert (Hs : forall z, In z (map fst (dict_set key_eqb c x w)) -> hashable z).
    { intros z Hz. destruct (set_fst c x w z Hz) as [->|G]; auto. }
    rewrite (IH _ _ Hs H' y v Hy). rewrite (get_set c x w y Hc Hx). cbn [map fst In].
    destruct (key_eqb x y) eqn:E.
    + apply (key_eqb_spec x y Hx) in E. subst y. split.
      * intros [(b & a & -> & N)|[N G]].
        -- left. exists ((x, w) :: b), a. split; [reflexivity|exact N].
        -- injection G as ->. left. exists [], l. split; [reflexivity|exact N].
      * intros [(b & a & G & N)|[N _]]; [|exfalso; apply N; now left].
        destruct b as [|e b].
        -- injection G as -> ->. right. split; [exact N|reflexivity].
        -- injection G as _ G. left. exists b, a. auto.
    + assert (D : x <> y) by (intros C; subst; rewrite (proj2 (key_eqb_spec y y Hy) eq_refl) in E; discriminate). split.
      * intros [(b & a & -> & N)|[N G]].
        -- left. exists ((x, w) :: b), a. auto.
        -- right. split; [intros [C|C]; auto|exact G].
      * intros [(b & a & G & N)|[N G]].
        -- destruct b as [|e b]; injection G as G1 G2; [congruence|]. left. exists b, a. auto.
        -- right. split; [intros C; apply N; now right|exact G].
Qed.

Lemma getitem_value l (c : config) x v : assign [] l = inl c -> (getitem c x = inl v <-> hashable x /\ last_assigned l x v).
Proof.
  intros H. unfold getitem, dict_getitem.
  assert (N0 : forall z, In z (map fst (@nil (key * A))) -> hashable z) by (intros z []).
  assert (K : hashable x -> (dict_get key_eqb c x = Some v <-> last_assigned l x v)).
  { intros Hx. rewrite (assign_get l [] c N0 H x v Hx). cbn. split; [intros [G|[_ G]]; [exact G|discriminate]|auto]. }
  destruct x as [s|t|].
  - rewrite <- K by discriminate. destruct (dict_get key_eqb c (KStr s)); split.
    + intros G. injection G as ->. split; [discriminate|reflexivity].
    + intros [_ G]. now injection G as ->.
    + discriminate.
    + intros [_ G]. discriminate.
  - rewrite <- K by discriminate. destruct (dict_get key_eqb c (KTuple t)); split.
    + intros G. injection G as ->. split; [discriminate|reflexivity].
    + intros [_ G]. now injection G as ->.
    + cbn. destruct t as [|? [|? ?]]; discriminate.
    + intros [_ G]. discriminate.
  - split; [discriminate|]. intros [G _]. now exfalso.
Qed.

Lemma get_none l (c : config) x : assign [] l = inl c -> hashable x -> (dict_get key_eqb c x = None <-> ~ In x (map fst l)).
Proof.
  intros H Hx. assert (N0 : forall z, In z (map fst (@nil (key * A))) -> hashable z) by (intros z []).
  assert (K := assign_get l [] c N0 H x). destruct (dict_get key_eqb c x) as [v|] eqn:E.
  - split; [discriminate|]. intros N. exfalso. destruct (proj1 (K v Hx) eq_refl) as [(b & a & -> & _)|[_ G]]; [|discriminate].
    apply N. rewrite map_app. apply in_or_app. right. now left.
  - split; [|reflexivity]. intros _ C.
    assert (L : exists v, last_assigned l x v).
    { clear - C Hx. induction l as [|[y w] l IH]; [contradiction|]. destruct (in_dec key_dec x (map fst l)) as [I|I].
      - destruct (IH I) as (v & b & a & -> & N). exists v, ((y, w) :: b), a. auto.
      - destruct C as [C|C]; [|contradiction]. cbn in C. subst y. exists w, [], l. auto. }
    destruct L as (v & L). specialize (proj2 (K v Hx) (or_introl L)). discriminate.
Qed.

Lemma getitem_missing (c : config) s : dict_get key_eqb c (KStr s) = None ->
  getitem c (KStr s) = inr (NoConfigValueError (KStr s) ("No local configuration value for: '" ++ s ++ "'.")).
Proof. intros E. unfold getitem, dict_getitem. now rewrite E. Qed.

Lemma getitem_tuple (c : config) t : dict_get key_eqb c (KTuple t) = None -> List.length t <> 1 -> getitem c (KTuple t) = inr (Other TypeError).
Proof. intros E N. unfold getitem, dict_getitem. rewrite E. destruct t as [|a [|b t]]; cbn in *; [reflexivity|lia|reflexivity]. Qed.
End Config.

(** ** Places *)

Lemma strip_ok home : without_slashes home (strip_slashes home).
Proof.
  unfold without_slashes. induction home as [|c home IH]; cbn [strip_slashes].
  - exists "". split; [reflexivity|]. split; [intros c []|]. intros (b & E). destruct b; discriminate.
  - destruct IH as (t & E & S & N). destruct (strip_slashes home) as [|h r] eqn:F.
    + destruct (Ascii.eqb_spec c "/"%char) as [->|D].
      * exists (String "/" home). split; [reflexivity|]. split; [|intros (b & E'); destruct b; discriminate].
        intros c [<-|H]; [reflexivity|]. apply S. cbn in E. now rewrite E in H.
      * exists t. split; [cbn in *; now rewrite E|]. split; [exact S|]. intros (b & E'). destruct b as [|x b]; [injection E' as ->; now apply D|].
        injection E' as -> E'. destruct b; discriminate.
    + exists t. split; [rewrite E; reflexivity|]. split; [exact S|]. intros (b & E'). destruct b as [|x b]; [discriminate|].
      injection E' as -> E'. apply N. now exists b.
Qed.

Lemma without_unique home b b' : without_slashes home b -> without_slashes home b' -> b = b'.
Proof.
  intros (s & E & S & N) (s' & E' & S' & N'). rewrite E in E'. clear E home. revert b' N' E'.
  induction b as [|c b IH]; intros [|c' b'] N' E'; cbn in E'.
  - reflexivity.
  - exfalso. (* the whole of the second base is made of slashes *)
    apply N'. subst s. assert (A : forall x, In x (list_ascii_of_string (String c' b')) -> x = "/"%char).
    { intros x Hx. apply S. clear - Hx. cbn in *. destruct Hx as [Hx|Hx]; [auto|right]. induction b'; cbn in *; [contradiction|]. destruct Hx; auto. }
    clear - A. revert c' A. induction b' as [|d b' IH]; intros c' A.
    + exists "". cbn. f_equal. apply A. now left.
    + destruct (IH d) as (q & E); [intros x Hx; apply A; now right|]. exists (String c' q). cbn. now rewrite <- E.
  - exfalso. apply N. subst s'. assert (A : forall x, In x (list_ascii_of_string (String c b)) -> x = "/"%char).
    { intros x Hx. apply S'. clear - Hx. cbn in *. destruct Hx as [Hx|Hx]; [auto|right]. induction b; cbn in *; [contradiction|]. destruct Hx; auto. }
    clear - A. revert c A. induction b as [|d b IH]; intros c A.
    + exists "". cbn. f_equal. apply A. now left.
    + destruct (IH d) as (q & E); [intros x Hx; apply A; now right|]. exists (String c q). cbn. now rewrite <- E.
  - injection E' as -> E'. f_equal. apply IH.
    + intros (q & ->). apply N. now exists (String c' q).
    + intros (q & ->). apply N'. now exists (String c' q).
    + exact E'.
Qed.

(** The part of a path after the directory of the data. *)
Definition inside (p : place) : string :=
  match p with
  | Acorns => "db/ACORNS" | Vctk => "db/VCTK-Corpus" | Choreo1 => "db/choreo" | Choreo2 => "db/choreo2/choreo2.json"
  | Objects e => "db/objects/single_object_label" ++ (if e then ".json" else "")
  | Choreo2Features => "features/choreo2_angle_hist.npz" | Codebook => "features/vctk_codebook.mat"
  | AcornsFeatures y s => "features/" ++ feature_file_name y s
  end.

Lemma joined base d b : directory d -> starts_with_slash b = false -> path_join (base ++ d) b = base ++ d ++ "/" ++ b.
Proof.
  intros (a & c & -> & N) B. rewrite join_dir; [|exists (base ++ a), c; split; [now rewrite <- sound_count.append_assoc|exact N]|exact B].
  now rewrite sound_count.append_assoc.
Qed.
Lemma joined_slash base b : starts_with_slash b = false -> path_join (base ++ "/work/data/") b = base ++ "/work/data/" ++ b.
Proof.
  intros B. change "/work/data/" with ("/work/data" ++ "/") at 1. rewrite <- sound_count.append_assoc, (join_dir_slash _ b B).
  now rewrite sound_count.append_assoc.
Qed.

Lemma CONFIG_eq home : CONFIG home = inl [(KStr "data-dir", strip_slashes home ++ "/work/data/"); (KStr "db-dir", strip_slashes home ++ "/work/data/db"); (KStr "feat-dir", strip_slashes home ++ "/work/data/features")].
Proof.
  unfold CONFIG. cbn [setitem obind dict_set]. unfold expanduser. cbn [Ascii.eqb Bool.eqb].
  cbn [getitem dict_getitem dict_get key_eqb String.eqb Ascii.eqb Bool.eqb obind setitem dict_set].
  rewrite !joined_slash by reflexivity. reflexivity.
Qed.

Definition in_db (c : config string) (d : string) : Prop := getitem c (KStr "db-dir") = inl d.
Lemma path_ok home p c : CONFIG home = inl c -> path_of c p = inl (strip_slashes home ++ "/work/data/" ++ inside p).
Proof.
  intros H. rewrite CONFIG_eq in H. injection H as <-.
  assert (D1 : directory "/work/data/db") by (exists "/work/data/d", "b"%char; split; [reflexivity|discriminate]).
  assert (D2 : directory "/work/data/features") by (exists "/work/data/feature", "s"%char; split; [reflexivity|discriminate]).
  unfold path_of. cbn [getitem dict_getitem dict_get key_eqb String.eqb Ascii.eqb Bool.eqb].
  destruct p; cbn [obind]; f_equal; rewrite joined; try assumption; try reflexivity.
  - change ("/work/data/db" ++ "/" ++ "choreo2") with "/work/data/db/choreo2". rewrite joined; [reflexivity| |reflexivity].
    exists "/work/data/db/choreo", "2"%char. split; [reflexivity|discriminate].
  - change ("/work/data/db" ++ "/" ++ "objects") with "/work/data/db/objects". rewrite joined; [reflexivity| |reflexivity].
    exists "/work/data/db/object", "s"%char. split; [reflexivity|discriminate].
Qed.

Lemma inside_inj p q : inside p = inside q -> p = q.
Proof.
  destruct p as [| | | | |[]|y s|], q as [| | | | |[]|y' s'|]; cbn; intros E; try reflexivity; try discriminate.
  cbn in E. injection E as E.
  assert (F : feature_file_name y s = feature_file_name y' s') by (unfold feature_file_name; cbn; now rewrite E).
  destruct (file_names _ _ _ _ F). congruence.
Qed.

Lemma path_distinct home c p q d : CONFIG home = inl c -> path_of c p = inl d -> path_of c q = inl d -> p = q.
Proof.
  intros H P Q. rewrite (path_ok home p c H) in P. rewrite (path_ok home q c H) in Q.
  injection P as P. injection Q as Q. apply inside_inj. rewrite <- Q in P. apply str_app_inj_l in P. now injection P.
Qed.

Lemma path_missing c p k : (is_database p -> k = "db-dir") -> (~ is_database p -> k = "feat-dir") ->
  dict_get key_eqb c (KStr k) = None -> path_of c p = inr (no_value (KStr k)).
Proof.
  intros H1 H2 E.
  assert (G : getitem c (KStr k) = inr (no_value (KStr k))) by (rewrite (getitem_missing c k E); reflexivity).
  destruct p; unfold path_of; first [rewrite (H1 I) in * | rewrite (H2 (fun x => x)) in *]; now rewrite G.
Qed.

Lemma printed_key {A} (c : config A) s r : getitem c (KStr s) = inr r -> printed r = s /\
  (forall m, r = NoConfigValueError (KStr s) m -> m <> printed r).
Proof.
  intros H. unfold getitem, dict_getitem in H.
  destruct (dict_get key_eqb c (KStr s)); [discriminate|]. injection H as <-. split; [reflexivity|].
  intros m E. injection E as <-. cbn [printed]. intros C. apply (f_equal String.length) in C.
  assert (L : forall a b, String.length (a ++ b) = (String.length a + String.length b)%nat).
  { intros a b. induction a as [|x a IH]; cbn; [reflexivity|now rewrite IH]. }
  cbn in C. rewrite ?L in C. cbn in C. lia.
Qed.

Lemma places_ok home base : without_slashes home base -> exists c, CONFIG home = inl c /\
  forall p, exists name, name <> "" /\
    (is_database p -> path_of c p = inl (base ++ "/work/data/db/" ++ name)) /\
    (~ is_database p -> path_of c p = inl (base ++ "/work/data/features/" ++ name)).
Proof.
  intros H. rewrite (without_unique home base (strip_slashes home) H (strip_ok home)).
  eexists. split; [apply CONFIG_eq|]. intros p. rewrite (path_ok home p _ (CONFIG_eq home)).
  destruct p as [| | | | |e|y s|]; cbn [inside is_database].
  - exists "ACORNS". split; [discriminate|]. split; [reflexivity|tauto].
  - exists "VCTK-Corpus". split; [discriminate|]. split; [reflexivity|tauto].
  - exists "choreo". split; [discriminate|]. split; [reflexivity|tauto].
  - exists "choreo2/choreo2.json". split; [discriminate|]. split; [reflexivity|tauto].
  - exists "choreo2_angle_hist.npz". split; [discriminate|]. split; [intros []|reflexivity].
  - exists ("objects/single_object_label" ++ (if e then ".json" else "")). split; [discriminate|]. split; [reflexivity|tauto].
  - exists (feature_file_name y s). split; [discriminate|]. split; [intros []|reflexivity].
  - exists "vctk_codebook.mat". split; [discriminate|]. split; [intros []|reflexivity].
Qed.

Lemma names_ok home base c : without_slashes home base -> CONFIG home = inl c ->
  path_of c Acorns = inl (base ++ "/work/data/db/ACORNS") /\ path_of c Vctk = inl (base ++ "/work/data/db/VCTK-Corpus") /\
  path_of c Choreo1 = inl (base ++ "/work/data/db/choreo") /\ path_of c Choreo2 = inl (base ++ "/work/data/db/choreo2/choreo2.json") /\
  path_of c (Objects true) = inl (base ++ "/work/data/db/objects/single_object_label.json") /\
  path_of c (Objects false) = inl (base ++ "/work/data/db/objects/single_object_label") /\
  path_of c Choreo2Features = inl (base ++ "/work/data/features/choreo2_angle_hist.npz") /\
  path_of c Codebook = inl (base ++ "/work/data/features/vctk_codebook.mat").
Proof.
  intros H E. rewrite (without_unique home base (strip_slashes home) H (strip_ok home)). rewrite !(path_ok home _ c E). cbn [inside]. repeat split.
Qed.
