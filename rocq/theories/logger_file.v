(** * Proofs about saving and loading. *)

From Coq Require Import List ZArith Arith Bool QArith String Ascii Lia.
From Coq Require Import DecimalString.
From Coq Require DecimalNat.
Import ListNotations.
From Verif Require Import Py Py_proof ListUtil logger_model logger_spec logger_proof.
Local Open Scope nat_scope.

Lemma NoDup_app_remove_r {A} (l1 l2 : list A) : NoDup (l1 ++ l2) -> NoDup l1.
Proof.
  induction l1 as [|x l1 IH]; cbn; intros H; [constructor|]. inversion H; subst.
  constructor; auto. intros X. apply H2, in_or_app. auto.
Qed.

(** ** Strings. *)
Lemma str_app_inj_l (p a b : string) : (p ++ a = p ++ b)%string -> a = b.
Proof. induction p as [|c p IH]; simpl; intros H; [assumption|]. injection H; auto. Qed.

Lemma append_assoc (a b c : string) : (a ++ b ++ c = (a ++ b) ++ c)%string.
Proof. induction a as [|x a IH]; simpl; [reflexivity|]. rewrite IH. reflexivity. Qed.

Fixpoint no_us (s : string) : Prop :=
  match s with
  | EmptyString => True
  | String c s' => Ascii.eqb c "_" = false /\ no_us s'
  end.

Lemma split_once_app p k : no_us p -> split_once (p ++ "_" ++ k) = Ok (p, k).
Proof.
  induction p as [|c p IH]; cbn [no_us]; intros H.
  - reflexivity.
  - destruct H as [H1 H2]. change ((String c p ++ "_" ++ k)%string) with (String c (p ++ "_" ++ k)).
    cbn [split_once]. rewrite H1, IH by assumption. reflexivity.
Qed.

Lemma uint_no_us d : no_us (NilEmpty.string_of_uint d).
Proof. induction d; cbn; auto. Qed.
Lemma nat_no_us n : no_us (string_of_nat n).
Proof.
  unfold string_of_nat, NilZero.string_of_uint. destruct (Nat.to_uint n); try apply uint_no_us.
  cbn. auto.
Qed.

Lemma of_to_nat n : Nat.of_uint (Nat.to_uint n) = n.
Proof. apply DecimalNat.Unsigned.of_to. Qed.

Lemma int_of_string_of_nat n : int_of_string (string_of_nat n) = Ok n.
Proof.
  unfold int_of_string, string_of_nat, NilZero.string_of_uint.
  pose proof (of_to_nat n) as E.
  destruct (Nat.to_uint n) eqn:D; try (rewrite NilEmpty.usu, E; reflexivity).
  cbn in E. subst n. reflexivity.
Qed.

Lemma append_split (a b a' b' : string) : String.length a = String.length a' ->
  (a ++ b = a' ++ b')%string -> a = a' /\ b = b'.
Proof.
  revert a'. induction a as [|x a IH]; intros [|x' a']; simpl; intros L E; try discriminate; [auto|].
  injection E as -> E. injection L as L. destruct (IH _ L E) as [-> ->]. auto.
Qed.
Lemma append_length (a b : string) : String.length (a ++ b) = String.length a + String.length b.
Proof. induction a as [|x a IH]; simpl; auto. Qed.
Lemma substring_0_all s : substring 0 (String.length s) s = s.
Proof. induction s as [|c s IH]; simpl; [reflexivity|]. rewrite IH. reflexivity. Qed.
Lemma substring_app p s : substring (String.length p) (String.length s) (p ++ s) = s.
Proof. induction p as [|c p IH]; [apply substring_0_all|]. exact IH. Qed.
Lemma substring_split n s : n <= String.length s ->
  s = (substring 0 n s ++ substring n (String.length s - n) s)%string.
Proof.
  revert n. induction s as [|c s IH]; intros [|n] H; simpl in *; try reflexivity; try lia.
  - f_equal. symmetry. apply substring_0_all.
  - f_equal. apply IH. lia.
Qed.

Lemma ends_with_spec f suf : ends_with f suf = true <-> has_suffix f suf.
Proof.
  unfold ends_with, has_suffix. rewrite andb_true_iff, Nat.leb_le, String.eqb_eq. split.
  - intros [L E]. exists (substring 0 (String.length f - String.length suf) f).
    rewrite <- E at 2.
    rewrite (substring_split (String.length f - String.length suf) f) at 1 by lia.
    f_equal. f_equal. lia.
  - intros (p & ->). rewrite append_length. split; [lia|].
    replace (String.length p + String.length suf - String.length suf) with (String.length p) by lia.
    apply substring_app.
Qed.
Lemma npz_name_plain f : ~ has_suffix f ".npz" -> npz_name f = (f ++ ".npz")%string.
Proof.
  intros H. unfold npz_name. destruct (ends_with f ".npz") eqn:E; [|reflexivity].
  apply ends_with_spec in E. contradiction.
Qed.
Lemma npz_name_suffix f : has_suffix f ".npz" -> npz_name f = f.
Proof. intros H. unfold npz_name. apply ends_with_spec in H. rewrite H. reflexivity. Qed.

Lemma json_npz_differ f : String.eqb (npz_name f) (f ++ ".json") = false.
Proof.
  apply String.eqb_neq. unfold npz_name. destruct (ends_with f ".npz") eqn:E; intros H.
  - apply (f_equal String.length) in H. rewrite append_length in H. simpl in H. lia.
  - apply str_app_inj_l in H. discriminate.
Qed.

Section File.
Context {Arr : Type}.
Notation val := (val Arr).
Notation dict := (dict Arr).
Notation world := (world Arr).
Notation get := (dict_get String.eqb).


(** ** JSON. *)
Scheme json_image_mind := Induction for json_image Sort Prop
with images_mind := Induction for images Sort Prop
with dict_images_mind := Induction for dict_images Sort Prop.
Combined Scheme json_image_mutind from json_image_mind, images_mind, dict_images_mind.

Lemma json_key_text k s : key_text k s -> json_key k = Ok s.
Proof. destruct 1; reflexivity. Qed.

Lemma dict_build (d' : list (string * val)) : forall acc, NoDup (map fst (acc ++ d')) ->
  fold_left (fun a sv => dict_set String.eqb a (fst sv) (snd sv)) d' acc = acc ++ d'.
Proof.
  induction d' as [|[k v] d' IH]; intros acc ND; cbn [fold_left]; [rewrite app_nil_r; reflexivity|].
  cbn [fst snd]. rewrite set_fresh.
  - rewrite IH; rewrite <- app_assoc; [reflexivity|assumption].
  - rewrite map_app in ND. cbn [map fst] in ND. apply NoDup_remove_2 in ND.
    intros H. apply ND, in_or_app. auto.
Qed.

Lemma json_rt_list (l : list val) :
  json_rt (VList l) = (l' <- mapM json_rt l ;; Ok (VList l')) /\
  json_rt (VTuple l) = (l' <- mapM json_rt l ;; Ok (VList l')).
Proof.
  cbn [json_rt].
  match goal with |- bind ?a _ = _ /\ _ => assert (E : a = mapM json_rt l) end.
  { induction l as [|x l IH]; [reflexivity|]. cbn [mapM]. rewrite IH. reflexivity. }
  rewrite E. split; reflexivity.
Qed.

Lemma json_rt_image :
  (forall v v', @json_image Arr v v' -> json_rt v = Ok v') /\
  (forall l l', @images Arr l l' -> mapM json_rt l = Ok l') /\
  (forall d d', @dict_images Arr d d' ->
     exists ds, mapM (fun kv => s <- json_key (fst kv) ;; y <- json_rt (snd kv) ;; Ok (s, y)) d = Ok ds /\
       d' = as_str_keys ds).
Proof.
  apply json_image_mutind; intros; try reflexivity.
  - rewrite (proj1 (json_rt_list l)), H. reflexivity.
  - rewrite (proj2 (json_rt_list l)), H. reflexivity.
  - destruct H as (ds & E & ->).
    assert (R : json_rt (VDict d) = d'0 <- mapM (fun kv => s <- json_key (fst kv) ;; y <- json_rt (snd kv) ;; Ok (s, y)) d ;;
      Ok (VDict (as_str_keys (fold_left (fun acc sv => dict_set String.eqb acc (fst sv) (snd sv)) d'0 [])))).
    { cbn [json_rt].
      match goal with |- bind ?a _ = bind ?b _ => assert (X : a = b); [|rewrite X; reflexivity] end.
      clear. induction d as [|[k x] d IH]; [reflexivity|].
      cbn [mapM fst snd]. rewrite IH. destruct (json_key k); [|reflexivity].
      cbn [bind]. destruct (json_rt x); reflexivity. }
    rewrite R, E. cbn [bind]. rewrite dict_build; [reflexivity|]. cbn [app].
    unfold as_str_keys in n. rewrite map_map in n. cbn [fst] in n.
    rewrite <- map_map with (f := fst) (g := KStr) in n. apply NoDup_map_inv in n. exact n.
  - cbn [mapM]. rewrite H, H0. reflexivity.
  - exists []. split; reflexivity.
  - destruct H0 as (ds & E & ->). exists ((s, y) :: ds). cbn [mapM fst snd].
    rewrite (json_key_text _ _ k0), H, E. split; reflexivity.
Qed.
Lemma json_rt_ok v v' : @json_image Arr v v' -> json_rt v = Ok v'.
Proof. apply json_rt_image. Qed.
Lemma json_image_not_array a v' : ~ @json_image Arr (VArr a) v'.
Proof. intros H. inversion H. Qed.

Lemma restored_not_array v v' : @restored Arr v v' -> ~ is_array v -> json_image v v'.
Proof. intros [a|x y H] N; [exfalso; apply N; eexists; reflexivity|assumption]. Qed.

(** ** The parts of a dictionary. *)
Definition arrays (d : dict) : list (string * Arr) :=
  flat_map (fun kv => match snd kv with VArr a => [(fst kv, a)] | _ => [] end) d.
Definition plain (d : dict) : dict :=
  filter (fun kv => match snd kv with VArr _ => false | _ => true end) d.
Definition named (prefix : string) (l : list (string * Arr)) : list (string * Arr) :=
  map (fun ka => ((prefix ++ "_" ++ fst ka)%string, snd ka)) l.

Lemma arrays_keys_incl d k : In k (map fst (arrays d)) -> In k (map fst d).
Proof.
  unfold arrays. rewrite in_map_iff. intros ([k' a] & <- & H). apply in_flat_map in H.
  destruct H as ([q v] & H1 & H2). cbn [fst snd] in *. destruct v; try contradiction.
  destruct H2 as [[= <- <-]|[]]. apply in_map_iff. exists (q, VArr a0). auto.
Qed.
Lemma arrays_NoDup d : NoDup (map fst d) -> NoDup (map fst (arrays d)).
Proof.
  induction d as [|[k v] d IH]; cbn [map fst]; [constructor|]. intros H. inversion H; subst.
  unfold arrays. cbn [flat_map fst snd]. fold (arrays d).
  destruct v; cbn [app]; auto. cbn [map fst]. constructor; auto.
  intros X. apply arrays_keys_incl in X. contradiction.
Qed.
Lemma get_arrays d k : NoDup (map fst d) ->
  dict_get String.eqb (arrays d) k = match get d k with Some (VArr a) => Some a | _ => None end.
Proof.
  induction d as [|[q v] d IH]; [reflexivity|]. cbn [map fst]. intros H. inversion H; subst.
  unfold arrays. cbn [flat_map fst snd dict_get]. fold (arrays d).
  destruct (String.eqb_spec q k) as [->|n].
  - assert (E : dict_get String.eqb (arrays d) k = None).
    { apply get_none. intros X. apply arrays_keys_incl in X. contradiction. }
    destruct v; cbn [app]; auto. cbn [dict_get]. rewrite String.eqb_refl. reflexivity.
  - destruct v; cbn [app]; auto. cbn [dict_get]. apply String.eqb_neq in n. rewrite n. auto.
Qed.
Lemma plain_keys_incl d k : In k (map fst (plain d)) -> In k (map fst d).
Proof.
  rewrite !in_map_iff. intros (x & E & H). apply filter_In in H. exists x. tauto.
Qed.
Lemma get_plain d k : NoDup (map fst d) ->
  get (plain d) k = match get d k with Some (VArr _) => None | _ => get d k end.
Proof.
  induction d as [|[q v] d IH]; [reflexivity|]. cbn [map fst]. intros H. inversion H; subst.
  unfold plain. cbn [filter snd dict_get]. fold (plain d).
  destruct (String.eqb_spec q k) as [->|n].
  - destruct v; cbn [dict_get]; rewrite ?String.eqb_refl; auto.
    apply get_none. intros X. apply plain_keys_incl in X. contradiction.
  - apply String.eqb_neq in n. destruct v; cbn [dict_get]; rewrite ?n; auto.
Qed.

Lemma named_keys p l : map fst (named p l) = map (fun k => (p ++ "_" ++ k)%string) (map fst l).
Proof. unfold named. rewrite !map_map. reflexivity. Qed.

(** What [_split_for_save] computes. *)
Lemma split_for_save_eq d p : forall sd snp,
  NoDup (map fst (sd ++ d)) -> NoDup (map fst (snp ++ named p (arrays d))) ->
  split_for_save d (sd, snp) p = (sd ++ plain d, snp ++ named p (arrays d)).
Proof.
  unfold split_for_save.
  induction d as [|[k v] d IH]; intros sd snp H1 H2.
  - cbn. rewrite !app_nil_r. reflexivity.
  - cbn [fold_left fst snd].
    assert (Hk : ~ In k (map fst sd) /\ NoDup (map fst (sd ++ d))).
    { rewrite map_app in H1 |- *. cbn [map fst] in H1. split; [|eapply NoDup_remove_1; eauto].
      apply NoDup_remove_2 in H1. intros X. apply H1, in_or_app. auto. }
    assert (P : forall v', v = v' -> (forall a, v' <> VArr a) ->
       fold_left (fun (acc : dict * list (string * Arr)) kv =>
          let '(sd, snp) := acc in
          match snd kv with
          | VArr a => (sd, dict_set String.eqb snp (p ++ "_" ++ fst kv)%string a)
          | v => (dict_set String.eqb sd (fst kv) v, snp)
          end) d (dict_set String.eqb sd k v', snp) =
       (sd ++ plain ((k, v) :: d), snp ++ named p (arrays ((k, v) :: d)))).
    { intros v' <- N. rewrite set_fresh by tauto.
      assert (E1 : plain ((k, v) :: d) = (k, v) :: plain d).
      { unfold plain. cbn [filter snd]. destruct v; try reflexivity. exfalso. eapply N; reflexivity. }
      assert (E2 : arrays ((k, v) :: d) = arrays d).
      { unfold arrays. cbn [flat_map snd]. destruct v; try reflexivity. exfalso. eapply N; reflexivity. }
      rewrite E2 in *. rewrite E1. rewrite IH; rewrite <- ?app_assoc; auto. }
    destruct v; try (apply P; [reflexivity|intros; discriminate]).
    unfold plain. cbn [filter snd]. fold (plain d).
    unfold arrays in *. cbn [flat_map fst snd app named map] in *. fold (arrays d) in *. fold (named p (arrays d)) in *.
    rewrite set_fresh.
    + rewrite IH; [rewrite <- app_assoc; reflexivity|tauto|]. rewrite <- app_assoc. exact H2.
    + rewrite map_app in H2. cbn [map fst] in H2. apply NoDup_remove_2 in H2.
      intros X. apply H2, in_or_app. auto.
Qed.

Fixpoint run_members (i : nat) (ds : list dict) : list (string * Arr) :=
  match ds with
  | [] => []
  | d :: ds' => named ("exp_" ++ string_of_nat i) (arrays d) ++ run_members (S i) ds'
  end.

Lemma string_of_nat_inj n m : string_of_nat n = string_of_nat m -> n = m.
Proof. intros H. pose proof (int_of_string_of_nat n) as E. rewrite H, int_of_string_of_nat in E. congruence. Qed.

Definition exp_name (i : nat) (k : string) : string := (("exp_" ++ string_of_nat i) ++ "_" ++ k)%string.
Lemma exp_name_inj i j k k' : exp_name i k = exp_name j k' -> i = j /\ k = k'.
Proof.
  unfold exp_name. rewrite <- !append_assoc. intros H. apply str_app_inj_l in H.
  pose proof (split_once_app _ k (nat_no_us i)) as E. rewrite H, split_once_app in E by apply nat_no_us.
  injection E as E1 E2. apply string_of_nat_inj in E1. auto.
Qed.

Lemma NoDup_named p l : NoDup (map fst l) -> NoDup (map fst (named p l)).
Proof.
  intros H. rewrite named_keys. apply NoDup_map_inj_in; [|assumption].
  intros x y _ _ E. apply str_app_inj_l in E. injection E. auto.
Qed.

Lemma in_run_members ds : forall i x, In x (map fst (run_members i ds)) ->
  exists j k, i <= j /\ x = exp_name j k.
Proof.
  induction ds as [|d ds IH]; intros i x; [intros []|]. cbn [run_members].
  rewrite map_app, in_app_iff. intros [H|H].
  - rewrite named_keys in H. apply in_map_iff in H. destruct H as (k & <- & _). exists i, k. split; [lia|reflexivity].
  - destruct (IH _ _ H) as (j & k & L & ->). exists j, k. split; [lia|reflexivity].
Qed.
Lemma run_members_NoDup ds : Forall (fun d => NoDup (map fst d)) ds ->
  forall i, NoDup (map fst (run_members i ds)).
Proof.
  induction 1 as [|d ds Hd Hds IH]; intros i; [constructor|]. cbn [run_members].
  rewrite map_app. apply NoDup_app_intro.
  - apply NoDup_named, arrays_NoDup, Hd.
  - apply IH.
  - intros x Hx Hy. apply in_run_members in Hy. destruct Hy as (j & k & L & ->).
    rewrite named_keys in Hx. apply in_map_iff in Hx. destruct Hx as (k' & E & _).
    apply exp_name_inj in E. lia.
Qed.

Lemma split_runs_eq ds : Forall (fun d => NoDup (map fst d)) ds -> forall i snp,
  NoDup (map fst (snp ++ run_members i ds)) ->
  split_runs i ds snp = (map plain ds, snp ++ run_members i ds).
Proof.
  induction 1 as [|d ds Hd Hds IH]; intros i snp ND; cbn [split_runs run_members map].
  - rewrite app_nil_r. reflexivity.
  - cbn [run_members] in ND. rewrite split_for_save_eq.
    + rewrite IH; rewrite <- app_assoc; [reflexivity|assumption].
    + exact Hd.
    + rewrite app_assoc, map_app in ND. apply NoDup_app_remove_r in ND. exact ND.
Qed.

Definition members (glob : dict) (ds : list dict) : list (string * Arr) :=
  named "glob" (arrays glob) ++ run_members 0 ds.

Lemma members_NoDup glob ds : NoDup (map fst glob) -> Forall (fun d => NoDup (map fst d)) ds ->
  NoDup (map fst (members glob ds)).
Proof.
  intros Hg Hds. unfold members. rewrite map_app. apply NoDup_app_intro.
  - apply NoDup_named, arrays_NoDup, Hg.
  - apply run_members_NoDup, Hds.
  - intros x Hx Hy. apply in_run_members in Hy. destruct Hy as (j & k & L & ->).
    rewrite named_keys in Hx. apply in_map_iff in Hx. destruct Hx as (k' & E & _). discriminate.
Qed.

Lemma split_all_eq ord glob ds ek rk : NoDup (map fst glob) -> Forall (fun d => NoDup (map fst d)) ds ->
  split_all ord glob ds ek rk =
  (mkSaved (plain glob) (map plain ds) (ord ek) (ord rk) (negb (List.length (members glob ds) =? 0)),
   members glob ds).
Proof.
  intros Hg Hds. unfold split_all.
  pose proof (members_NoDup glob ds Hg Hds) as ND. unfold members in ND.
  rewrite split_for_save_eq; cbn [app].
  - rewrite split_runs_eq by assumption. reflexivity.
  - exact Hg.
  - rewrite map_app in ND. apply NoDup_app_remove_r in ND. exact ND.
Qed.

(** ** Loading the archive. *)
Definition put_arrays (l : list (string * Arr)) (d : dict) : dict :=
  fold_left (fun d ka => dict_set String.eqb d (fst ka) (VArr (snd ka))) l d.

Lemma get_put_arrays l : NoDup (map fst l) -> forall d k,
  get (put_arrays l d) k = match get l k with Some a => Some (VArr a) | None => get d k end.
Proof.
  unfold put_arrays. induction l as [|[q a] l IH]; intros ND d k; [reflexivity|].
  cbn [map fst] in ND. inversion ND; subst. cbn [fold_left fst snd dict_get]. rewrite IH by assumption.
  rewrite get_set. destruct (String.eqb_spec q k) as [->|n]; [|reflexivity].
  rewrite (proj2 (get_none l k)) by assumption. reflexivity.
Qed.
Lemma put_arrays_NoDup l : forall d, NoDup (map fst d) -> NoDup (map fst (put_arrays l d)).
Proof.
  unfold put_arrays. induction l as [|[q a] l IH]; intros d H; [assumption|].
  cbn [fold_left]. apply IH, set_keys_nodup, H.
Qed.

Lemma load_glob l : forall g es,
  foldM load_member (named "glob" l) (g, es) = Ok (put_arrays l g, es).
Proof.
  induction l as [|[k a] l IH]; intros g es; [reflexivity|].
  cbn [named map foldM fst snd]. unfold load_member at 1. cbn [fst snd].
  rewrite split_once_app by (cbn; auto). cbn [bind]. apply IH.
Qed.

Lemma list_set_self {A} (l : list A) i x : nth_error l i = Some x -> list_set l i x = l.
Proof.
  revert i. induction l as [|a l IH]; intros [|i] H; try discriminate; cbn in *.
  - congruence.
  - rewrite IH; auto.
Qed.

Lemma load_run i l : forall g es d, nth_error es i = Some d ->
  foldM load_member (named ("exp_" ++ string_of_nat i) l) (g, es) =
  Ok (g, list_set es i (put_arrays l d)).
Proof.
  induction l as [|[k a] l IH]; intros g es d Hd.
  - cbn [named map foldM put_arrays fold_left]. rewrite list_set_self by assumption. reflexivity.
  - cbn [named map foldM fst snd]. unfold load_member at 1. cbn [fst snd].
    change ((("exp_" ++ string_of_nat i) ++ "_" ++ k)%string)
      with (("exp" ++ "_" ++ (string_of_nat i ++ "_" ++ k))%string).
    rewrite split_once_app by (cbn; auto). cbn [bind].
    change (String.eqb "exp" "glob") with false. change (String.eqb "exp" "exp") with true. cbv iota.
    rewrite split_once_app by apply nat_no_us. cbn [bind]. rewrite int_of_string_of_nat. cbn [bind].
    rewrite Hd. cbn [bind]. fold (named ("exp_" ++ string_of_nat i) l).
    rewrite (IH _ _ (dict_set String.eqb d k (VArr a))).
    + rewrite list_set_twice. reflexivity.
    + eapply nth_error_set_same; eauto.
Qed.

(** The runs after loading: [ds] are the dictionaries that were saved. *)
Fixpoint overlay (ds es : list dict) : list dict :=
  match ds, es with
  | d :: ds', e :: es' => put_arrays (arrays d) e :: overlay ds' es'
  | _, _ => es
  end.
Lemma overlay_length ds : forall es, List.length (overlay ds es) = List.length es.
Proof. induction ds as [|d ds IH]; intros [|e es]; cbn; auto. Qed.

Lemma list_set_app {A} (pre : list A) e es x : list_set (pre ++ e :: es) (List.length pre) x = pre ++ x :: es.
Proof. induction pre as [|a pre IH]; cbn; [reflexivity|]. rewrite IH. reflexivity. Qed.

Lemma load_runs ds : forall pre es g, List.length ds <= List.length es ->
  foldM load_member (run_members (List.length pre) ds) (g, pre ++ es) = Ok (g, pre ++ overlay ds es).
Proof.
  induction ds as [|d ds IH]; intros pre es g L; [destruct es; reflexivity|].
  destruct es as [|e es]; [cbn in L; lia|]. cbn [List.length] in L.
  cbn [run_members overlay]. rewrite foldM_app.
  rewrite (load_run _ _ _ _ e).
  - cbn [bind]. rewrite list_set_app.
    specialize (IH (pre ++ [put_arrays (arrays d) e]) es g ltac:(lia)).
    rewrite app_length in IH. cbn [List.length] in IH.
    replace (List.length pre + 1) with (S (List.length pre)) in IH by lia.
    rewrite <- !app_assoc in IH. exact IH.
  - rewrite nth_error_app2, Nat.sub_diag by lia. reflexivity.
Qed.

Lemma load_members glob ds g es : List.length ds <= List.length es ->
  foldM load_member (members glob ds) (g, es) = Ok (put_arrays (arrays glob) g, overlay ds es).
Proof.
  intros L. unfold members. rewrite foldM_app, load_glob. cbn [bind].
  exact (load_runs ds [] es _ L).
Qed.

Lemma nth_overlay ds : forall es p,
  nth_error (overlay ds es) p =
  match nth_error es p with
  | None => None
  | Some e => match nth_error ds p with None => Some e | Some d => Some (put_arrays (arrays d) e) end
  end.
Proof.
  induction ds as [|d ds IH]; intros [|e es] [|p]; cbn; try reflexivity; auto.
  destruct (nth_error es p); reflexivity.
Qed.

(** ** JSON of the plain part. *)
Definition dict_storable (d : dict) : Prop := forall k v, In (k, v) d -> storable v.

Lemma json_rt_plain d : dict_storable d -> exists d', json_rt_dict (plain d) = Ok d' /\
  map fst d' = map fst (plain d) /\
  forall k, match get (plain d) k with
            | None => get d' k = None
            | Some v => exists v', get d' k = Some v' /\ json_image v v'
            end.
Proof.
  unfold json_rt_dict. induction d as [|[k v] d IH]; intros S.
  - exists []. repeat split.
  - destruct IH as (d' & E & Ek & H). { intros q x Hx. apply (S q). right. exact Hx. }
    unfold plain. cbn [filter snd]. fold (plain d).
    assert (C : (exists a, v = VArr a) \/ (match v with VArr _ => false | _ => true end = true
                 /\ exists v', json_image v v')).
    { destruct (S k v (or_introl eq_refl)) as (v' & R).
      destruct v; try (right; split; [reflexivity|]; exists v'; apply restored_not_array; [exact R|intros (a & X); discriminate]).
      left. eexists; reflexivity. }
    destruct C as [(a & ->)|(-> & v' & J)].
    + exists d'. auto.
    + exists ((k, v') :: d'). cbn [mapM fst snd]. rewrite (json_rt_ok _ _ J). cbn [bind].
      rewrite E. cbn [bind]. split; [reflexivity|]. split; [cbn [map fst]; rewrite Ek; reflexivity|].
      intros q. cbn [dict_get]. destruct (String.eqb k q); [eauto|apply H].
Qed.

Lemma json_rt_runs ds : Forall dict_storable ds -> exists es, mapM json_rt_dict (map plain ds) = Ok es /\
  List.length es = List.length ds /\
  forall p d, nth_error ds p = Some d -> exists e, nth_error es p = Some e /\
    map fst e = map fst (plain d) /\
    forall k, match get (plain d) k with
            | None => get e k = None
            | Some v => exists v', get e k = Some v' /\ json_image v v'
            end.
Proof.
  induction 1 as [|d ds Hd Hds IH].
  - exists []. repeat split. intros [|p] d; discriminate.
  - destruct IH as (es & E & L & H). destruct (json_rt_plain d Hd) as (e & Ee & Ek & He).
    exists (e :: es). cbn [map mapM]. rewrite Ee. cbn [bind]. rewrite E. cbn [bind].
    split; [reflexivity|]. split; [cbn; auto|]. intros [|p] d'; cbn [nth_error].
    + intros [= <-]. eauto.
    + apply H.
Qed.

(** ** Saving a logger of a well-formed world. *)
Lemma get_runs (w : world) (l : logger Arr) : (forall r, In r (lg_exps l) -> r < List.length (w_runs w)) ->
  exists ds, mapM (get_run w) (lg_exps l) = Ok ds /\ List.length ds = List.length (lg_exps l) /\
    forall p, nth_error ds p = match nth_error (lg_exps l) p with None => None
                               | Some r => nth_error (w_runs w) r end.
Proof.
  generalize (lg_exps l) as rs. induction rs as [|r rs IH]; intros H.
  - exists []. repeat split. intros [|p]; reflexivity.
  - destruct IH as (ds & E & L & N). { intros q Hq. apply H. right. exact Hq. }
    assert (Hr := H r (or_introl eq_refl)).
    destruct (nth_error (w_runs w) r) as [d|] eqn:Ed.
    2: { apply nth_error_None in Ed. exfalso. exact (Nat.lt_irrefl _ (Nat.lt_le_trans _ _ _ Hr Ed)). }
    exists (d :: ds). cbn [mapM]. rewrite (proj2 (get_run_ok w r d) Ed). cbn [bind].
    rewrite E. cbn [bind]. split; [reflexivity|]. split; [cbn; auto|].
    intros [|p]; cbn [nth_error]; [congruence|apply N].
Qed.

Lemma value_at_runs (w : world) i (l : logger Arr) (ds : list dict) p k : nth_error (w_logs w) i = Some l ->
  (forall p, nth_error ds p = match nth_error (lg_exps l) p with None => None
                               | Some r => nth_error (w_runs w) r end) ->
  value_at w i p k = match nth_error ds p with None => None | Some d => get d k end.
Proof.
  intros Hl N. unfold value_at. rewrite Hl, N. destruct (nth_error (lg_exps l) p); reflexivity.
Qed.

Lemma members_nil glob ds : members glob ds = [] <->
  arrays glob = [] /\ Forall (fun d => arrays d = []) ds.
Proof.
  unfold members. split.
  - intros H. apply app_eq_nil in H. destruct H as [H1 H2]. split.
    + destruct (arrays glob); [reflexivity|discriminate].
    + revert H2. generalize 0. induction ds as [|d ds IH]; intros n H; constructor.
      * cbn [run_members] in H. apply app_eq_nil in H. destruct H as [H _].
        destruct (arrays d); [reflexivity|discriminate].
      * cbn [run_members] in H. apply app_eq_nil in H. destruct H as [_ H]. eapply IH; eauto.
  - intros [-> H]. cbn [named map app]. generalize 0. induction H as [|d ds Hd Hds IH]; intros n; [reflexivity|].
    cbn [run_members]. rewrite Hd. cbn [named map app]. apply IH.
Qed.
Lemma arrays_nil_iff d : NoDup (map fst d) ->
  (arrays d = [] <-> forall k a, get d k <> Some (VArr a)).
Proof.
  intros ND. split.
  - intros E k a H. pose proof (get_arrays d k ND) as G. rewrite H, E in G. discriminate.
  - intros H. destruct (arrays d) as [|[k a] l] eqn:E; [reflexivity|].
    pose proof (get_arrays d k ND) as G. rewrite E in G. cbn [dict_get] in G. rewrite String.eqb_refl in G.
    destruct (get d k) as [v|] eqn:Ev; [|discriminate]. destruct v; try discriminate.
    exfalso. eapply H; eauto.
Qed.

(** Everything about a successful save. *)
Lemma save_writes_ok ord (w : world) i (l : logger Arr) f : wf_world w -> nth_error (w_logs w) i = Some l ->
  lg_filename l = Some f -> all_storable w i ->
  exists (ds : list dict) s,
    (forall p, nth_error ds p = match nth_error (lg_exps l) p with None => None
                                | Some r => nth_error (w_runs w) r end) /\
    List.length ds = List.length (lg_exps l) /\
    Forall (fun d => NoDup (map fst d)) ds /\
    save_writes ord w i =
      ((if sv_has_np s then [(npz_name f, FPartial); (npz_name f, FNpz (members (lg_glob l) ds))] else [])
       ++ [((f ++ ".json")%string, FPartial); ((f ++ ".json")%string, FJson s)], Ok tt) /\
    (sv_has_np s = true <-> has_array w i) /\
    sv_exp_keys s = ord (lg_exp_keys l) /\ sv_result_keys s = ord (lg_result_keys l) /\
    NoDup (map fst (sv_glob s)) /\ (forall e, In e (sv_exps s) -> NoDup (map fst e)) /\
    (forall k, match get (plain (lg_glob l)) k with
               | None => get (sv_glob s) k = None
               | Some v => exists v', get (sv_glob s) k = Some v' /\ json_image v v'
               end) /\
    List.length (sv_exps s) = List.length ds /\
    (forall p d, nth_error ds p = Some d -> exists e, nth_error (sv_exps s) p = Some e /\
       forall k, match get (plain d) k with
               | None => get e k = None
               | Some v => exists v', get e k = Some v' /\ json_image v v'
               end) /\
    (sv_has_np s = false -> members (lg_glob l) ds = []).
Proof.
  intros [W1 W2] Hl Hf [SG SR]. destruct (W1 _ _ Hl) as [ND Hr].
  destruct (get_runs w l Hr) as (ds & Eds & L & N).
  assert (NDs : Forall (fun d => NoDup (map fst d)) ds).
  { apply Forall_forall. intros d Hd. apply In_nth_error in Hd. destruct Hd as (p & Hp).
    rewrite N in Hp. destruct (nth_error (lg_exps l) p); [|discriminate]. eauto. }
  assert (SD : Forall dict_storable ds).
  { apply Forall_forall. intros d Hd k v Hv. pose proof (proj1 (Forall_forall _ _) NDs d Hd) as NDd.
    cbv beta in NDd.
    apply In_nth_error in Hd. destruct Hd as (p & Hp). apply (SR p k v).
    rewrite (value_at_runs w i l ds p k Hl N), Hp. apply get_in_iff; assumption. }
  assert (SGd : dict_storable (lg_glob l)).
  { intros k v Hv. apply (SG k v). unfold global_at. rewrite Hl. apply get_in_iff; assumption. }
  destruct (json_rt_plain _ SGd) as (g' & Eg & Ekg & Hg).
  destruct (json_rt_runs _ SD) as (es & Ees & Les & Hes).
  exists ds, (mkSaved g' es (ord (lg_exp_keys l)) (ord (lg_result_keys l))
               (negb (List.length (members (lg_glob l) ds) =? 0))).
  cbn [sv_glob sv_exps sv_exp_keys sv_result_keys sv_has_np].
  split; [exact N|]. split; [exact L|]. split; [exact NDs|]. split.
  { unfold save_writes. rewrite (proj2 (get_logger_ok w i l) Hl). cbn [bind]. rewrite Hf. cbn [bind].
    rewrite Eds. cbn [bind]. rewrite (split_all_eq ord (lg_glob l) ds _ _ ND NDs).
    unfold json_rt_saved. cbn [sv_glob sv_exps sv_exp_keys sv_result_keys sv_has_np].
    rewrite Eg. cbn [bind]. rewrite Ees. cbn [bind]. reflexivity. }
  split.
  { rewrite negb_true_iff, Nat.eqb_neq. split.
    - intros H. assert (H' : members (lg_glob l) ds <> []) by (intros E; rewrite E in H; apply H; reflexivity).
      destruct (arrays (lg_glob l)) as [|[k a] r] eqn:Ea.
      + assert (X : ~ Forall (fun d => arrays d = []) ds) by (intros X; apply H'; apply members_nil; auto).
        right. clear - X N NDs Hl. 
        assert (Y : exists d, In d ds /\ arrays d <> []).
        { clear N. induction ds as [|d ds IH]; [exfalso; apply X; constructor|].
          inversion NDs; subst. destruct (arrays d) eqn:E.
          - assert (X' : ~ Forall (fun d => arrays d = []) ds) by (intros Z; apply X; constructor; auto).
            destruct (IH H2 X') as (d' & A & B).
            exists d'. split; [right|]; auto.
          - exists d. split; [left; reflexivity|congruence]. }
        destruct Y as (d & Hd & B). destruct (arrays d) as [|[k a] r] eqn:E; [congruence|].
        pose proof (proj1 (Forall_forall _ _) NDs d Hd) as NDd. cbv beta in NDd.
        pose proof (get_arrays d k NDd) as G. rewrite E in G. cbn [dict_get] in G. rewrite String.eqb_refl in G.
        destruct (get d k) as [v|] eqn:Ev; [|discriminate]. destruct v; try discriminate.
        apply In_nth_error in Hd. destruct Hd as (p & Hp). exists p, k, a0.
        rewrite (value_at_runs w i l ds p k Hl N), Hp. exact Ev.
      + left. pose proof (get_arrays (lg_glob l) k ND) as G. rewrite Ea in G. cbn [dict_get] in G.
        rewrite String.eqb_refl in G. exists k. unfold global_at. rewrite Hl.
        destruct (get (lg_glob l) k) as [v|]; [|discriminate]. destruct v; try discriminate. eauto.
    - intros HA E. apply length_zero_iff_nil, members_nil in E. destruct E as [E1 E2].
      destruct HA as [(k & a & H)|(p & k & a & H)].
      + unfold global_at in H. rewrite Hl in H. eapply arrays_nil_iff in E1; eauto.
      + rewrite (value_at_runs w i l ds p k Hl N) in H. destruct (nth_error ds p) as [d|] eqn:Ed; [|discriminate].
        apply nth_error_In in Ed. pose proof (proj1 (Forall_forall _ _) NDs d Ed) as NDd.
        pose proof (proj1 (Forall_forall _ _) E2 d Ed) as E2d. cbv beta in *.
        eapply arrays_nil_iff in E2d; eauto. }
  split; [reflexivity|]. split; [reflexivity|].
  assert (PN : forall d, NoDup (map fst d) -> NoDup (map fst (plain d))).
  { clear. induction d as [|[k v] d IH]; cbn [map fst]; intros H; [constructor|]. inversion H; subst.
    unfold plain. cbn [filter snd]. fold (plain d). destruct v; cbn [map fst]; auto;
      constructor; auto; intros X; apply plain_keys_incl in X; contradiction. }
  split; [rewrite Ekg; apply PN, ND|]. split.
  { intros e He. apply In_nth_error in He. destruct He as (p & Hp).
    assert (p < List.length ds) by (rewrite <- Les; apply nth_error_Some; congruence).
    destruct (nth_error ds p) as [d|] eqn:Ed; [|apply nth_error_None in Ed; lia].
    destruct (Hes _ _ Ed) as (e' & E1 & E2 & _). replace e with e' by congruence.
    rewrite E2. apply PN. exact (proj1 (Forall_forall _ _) NDs d (nth_error_In _ _ Ed)). }
  split; [exact Hg|]. split; [exact Les|]. split.
  { intros p d Hd. destruct (Hes p d Hd) as (e & A & _ & B). eauto. }
  rewrite negb_false_iff, Nat.eqb_eq. apply length_zero_iff_nil.
Qed.

End File.
