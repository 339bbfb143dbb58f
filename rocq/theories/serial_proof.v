(** * Lemmas on the serialization of experiments. *)

From Coq Require Import List ZArith Arith Bool QArith String Lia.
Import ListNotations.
From Verif Require Import Py Py_proof ListUtil logger_model logger_spec logger_proof logger_file
  serial_model serial_spec.
Local Open Scope nat_scope.

Section Proofs.
Context {Arr : Type}.
Notation val := (val Arr).
Notation exper := (exper Arr).
Notation loader := (loader Arr).

Lemma images_map {A} (f g : A -> val) l : (forall x, In x l -> json_image (f x) (g x)) ->
  images (map f l) (map g l).
Proof.
  induction l as [|x l IH]; intros H; cbn; constructor; [apply H; left; reflexivity|].
  apply IH. intros y Hy. apply H. right. exact Hy.
Qed.
Lemma images_F2 (l l' : list val) : Forall2 json_image l l' -> images l l'.
Proof. induction 1; constructor; assumption. Qed.
Lemma strings_image l : @json_image Arr (VList (map VStr l)) (VList (map VStr l)).
Proof. constructor. apply images_map. intros. constructor. Qed.

Lemma native_image v : @native Arr v -> json_image v v.
Proof.
  induction 1 as [|b|z|q|s|l H IH]; try constructor.
  induction l as [|x l IHl]; constructor.
  - apply IH. left. reflexivity.
  - apply IHl; intros y Hy; [apply H|apply IH]; right; exact Hy.
Qed.

Definition pair_of (ord : list string -> list string) (l : loader) : val :=
  VTuple [VStr (dataset_name l); serialize ord l].

Lemma iter_strings ls : iter (VList (map VStr ls)) = Ok (map (@VStr Arr) ls).
Proof. reflexivity. Qed.
Lemma mapM_strings ls : mapM as_string (map (@VStr Arr) ls) = Ok ls.
Proof. induction ls as [|x ls IH]; [reflexivity|]. cbn [map mapM as_string bind]. rewrite IH. reflexivity. Qed.

(** One loader. *)
Lemma loader_back ord (l : loader) : lists_sets ord -> known_loader l ->
  exists p', json_image (pair_of ord l) p' /\
    exists d c l', unpack2 p' = Ok (d, c) /\ get_loader d c = Ok l' /\ same_loader l l'.
Proof.
  intros HO K. destruct l as [c n]. unfold known_loader in K. cbn [ld_conf] in K.
  unfold pair_of, dataset_name, serialize. cbn [ld_conf].
  destruct c as [s| |f ls|u c].
  - destruct K as (s' & K). eexists. split; [constructor; constructor; [constructor|constructor; [exact K|constructor]]|].
    do 3 eexists. split; [reflexivity|]. split; [reflexivity|]. constructor. exact K.
  - eexists. split; [constructor; constructor; [constructor|constructor; [constructor|constructor]]|].
    do 3 eexists. split; [reflexivity|]. split; [reflexivity|]. constructor.
  - destruct K as (f' & K).
    exists (VList [VStr "objects"; VDict [(KStr "features", f'); (KStr "labels", VList (map VStr (ord ls)))]]).
    split.
    + constructor. constructor; [constructor|]. constructor; [|constructor]. constructor.
      * constructor; [constructor|exact K|]. constructor; [constructor|apply strings_image|]. constructor.
      * cbn. constructor; [intros [|[]]; discriminate|]. constructor; [intros []|constructor].
    + do 3 eexists. split; [reflexivity|]. split.
      * unfold get_loader. cbn [String.eqb]. unfold objects_get_loader.
        cbn -[mapM map]. rewrite mapM_strings. cbn [bind]. reflexivity.
      * unfold ObjectsLoader. constructor; [exact K|]. intros x. rewrite in_set_of_list. symmetry. apply HO.
  - destruct K.
Qed.

Definition add_loader (acc : list (string * loader)) (ml : val * val) : result (list (string * loader)) :=
  '(dataset, conf) <- unpack2 (snd ml) ;;
  l <- get_loader dataset conf ;;
  m <- as_string (fst ml) ;;
  Ok (dict_set String.eqb acc m l).

Lemma loaders_back ord (ls : list loader) : lists_sets ord -> (forall l, In l ls -> known_loader l) ->
  exists ps, Forall2 json_image (map (pair_of ord) ls) ps /\
    forall ms acc, List.length ms = List.length ls -> NoDup (map fst acc ++ ms) ->
    exists ls', foldM add_loader (combine (map VStr ms) ps) acc = Ok (acc ++ combine ms ls') /\
      Forall2 same_loader ls ls'.
Proof.
  intros HO. induction ls as [|l ls IH]; intros K.
  - exists []. split; [constructor|]. intros [|m ms] acc L N; [|discriminate L].
    exists []. cbn. rewrite app_nil_r. split; [reflexivity|constructor].
  - destruct (IH (fun x Hx => K x (or_intror Hx))) as (ps & P & Q).
    destruct (loader_back ord l HO (K l (or_introl eq_refl))) as (p' & Pp & d & c & l' & U & G & SL).
    exists (p' :: ps). split; [constructor; assumption|].
    intros [|m ms] acc L N; [discriminate L|]. cbn [List.length] in L.
    destruct (Q ms (acc ++ [(m, l')])) as (ls' & F & S2).
    + lia.
    + rewrite map_app. cbn [map fst]. rewrite <- app_assoc. exact N.
    + exists (l' :: ls'). split; [|constructor; assumption].
      cbn [map combine foldM]. unfold add_loader at 1. cbn [fst snd]. rewrite U. cbn [bind]. rewrite G.
      cbn [bind as_string]. rewrite set_fresh.
      * rewrite F, <- app_assoc. reflexivity.
      * apply NoDup_remove_2 in N. intros H. apply N, in_or_app. left. exact H.
Qed.

Lemma map_fst_combine {A B} (a : list A) (b : list B) : List.length a = List.length b ->
  map fst (combine a b) = a.
Proof. revert b. induction a as [|x a IH]; intros [|y b] H; try discriminate; cbn; [reflexivity|].
  rewrite IH; [reflexivity|]. cbn in H. lia. Qed.
Lemma map_snd_combine {A B} (a : list A) (b : list B) : List.length a = List.length b ->
  map snd (combine a b) = b.
Proof. revert b. induction a as [|x a IH]; intros [|y b] H; try discriminate; cbn; [reflexivity|].
  rewrite IH; [reflexivity|]. cbn in H. lia. Qed.
Lemma F2_length {A B} (R : A -> B -> Prop) l l' : Forall2 R l l' -> List.length l = List.length l'.
Proof. induction 1; cbn; congruence. Qed.

Definition entries (ord : list string -> list string) (e : exper) : list (string * val) :=
  [("modalities", VList (map VStr (ex_modalities e))); ("k", ex_k e); ("coefs", ex_coefs e);
   ("iter_train", ex_iter_train e); ("iter_test", ex_iter_test e);
   ("shuffle_labels", ex_shuffle_labels e); ("run_mode", ex_run_mode e); ("debug", ex_debug e);
   ("loaders", VList (map (pair_of ord) (ex_loaders e)))]%string.
Lemma serialize_entries ord e : serialize_parameters ord e = Ok (entries ord e).
Proof. reflexivity. Qed.

Lemma keys_distinct (x1 x2 x3 x4 x5 x6 x7 x8 x9 : val) :
  NoDup (map fst [(KStr "modalities", x1); (KStr "k", x2); (KStr "coefs", x3); (KStr "iter_train", x4);
    (KStr "iter_test", x5); (KStr "shuffle_labels", x6); (KStr "run_mode", x7); (KStr "debug", x8);
    (KStr "loaders", x9)]).
Proof. cbn. repeat (constructor; [cbn; intuition discriminate|]). constructor. Qed.

Lemma round_trip ord (e : exper) : lists_sets ord -> serializable e ->
  exists v e', json_rt (VDict (as_str_keys (entries ord e))) = Ok v /\
    from_serialized v = Ok e' /\ same_experiment e e'.
Proof.
  intros HO (ND & L & K & ((k' & Hk) & (co & Hco) & (itr & Hitr) & (ite & Hite) & (sh & Hsh) & (rm & Hrm) & (db & Hdb))).
  destruct (loaders_back ord (ex_loaders e) HO K) as (ps & P & Q).
  destruct (Q (ex_modalities e) [] (eq_sym L) ND) as (ls' & F & SL).
  eexists (VDict [(KStr "modalities", VList (map VStr (ex_modalities e))); (KStr "k", k');
     (KStr "coefs", co); (KStr "iter_train", itr); (KStr "iter_test", ite); (KStr "shuffle_labels", sh);
     (KStr "run_mode", rm); (KStr "debug", db); (KStr "loaders", VList ps)]%string).
  eexists. split; [|split].
  - apply json_rt_ok. constructor; [|apply keys_distinct].
    unfold entries, as_str_keys. cbn [map fst snd].
    repeat (constructor; [constructor| |]); try assumption.
    + apply strings_image.
    + constructor. apply images_F2. exact P.
    + constructor.
  - unfold from_serialized.
    cbn -[combine foldM map]. unfold add_loader in F. cbn [app] in F. rewrite F. cbn [bind].
    reflexivity.
  - pose proof (F2_length _ _ _ SL) as L2.
    unfold same_experiment, init. cbn [ex_modalities ex_loaders ex_k ex_coefs ex_iter_train ex_iter_test
      ex_shuffle_labels ex_run_mode ex_debug].
    rewrite map_fst_combine, map_snd_combine by congruence.
    repeat (split; [first [reflexivity|assumption]|]). assumption.
Qed.

Lemma file_round_trip ord fs (e : exper) path : lists_sets ord -> serializable e ->
  exists fs' e', save_serialized_parameters ord fs e path = (fs', Ok tt) /\
    load_from_serialized fs' path = Ok e' /\ same_experiment e e' /\
    forall q, q <> path -> load_from_serialized fs' q = load_from_serialized fs q.
Proof.
  intros HO S. destruct (round_trip ord e HO S) as (v & e' & J & R & SE).
  unfold save_serialized_parameters. rewrite serialize_entries, J.
  do 2 eexists. split; [reflexivity|]. split; [|split; [exact SE|]].
  - unfold load_from_serialized. rewrite get_set, String.eqb_refl. exact R.
  - intros q N. unfold load_from_serialized. rewrite get_set.
    destruct (String.eqb_spec path q) as [E|_]; [congruence|reflexivity].
Qed.

(** Native parameters come back equal. *)
Lemma native_same v v' : @native Arr v -> json_image v v' -> v' = v.
Proof.
  intros N J. apply native_image, json_rt_ok in N. apply json_rt_ok in J. congruence.
Qed.

(** A loader of another class: written without complaint, refused on reading. *)
Lemma user_back ord (l : loader) : foreign l ->
  exists p', json_image (pair_of ord l) p' /\
    exists d c, unpack2 p' = Ok (d, c) /\ get_loader d c = Err ValueError.
Proof.
  unfold foreign, pair_of, dataset_name, serialize. destruct l as [[| | |u c] n]; cbn [ld_conf]; try contradiction.
  intros (N1 & N2 & N3 & (c' & W)).
  eexists. split; [constructor; constructor; [constructor|constructor; [exact W|constructor]]|].
  do 2 eexists. split; [reflexivity|]. unfold get_loader.
  rewrite (proj2 (String.eqb_neq _ _) N1), (proj2 (String.eqb_neq _ _) N2), (proj2 (String.eqb_neq _ _) N3).
  reflexivity.
Qed.

Lemma loaders_refused ord (ls : list loader) : lists_sets ord ->
  (forall l, In l ls -> known_loader l \/ foreign l) ->
  exists ps, Forall2 json_image (map (pair_of ord) ls) ps /\
    ((exists l, In l ls /\ foreign l) ->
     forall ms acc, List.length ms = List.length ls ->
     foldM add_loader (combine (map VStr ms) ps) acc = Err ValueError).
Proof.
  intros HO. induction ls as [|l ls IH]; intros K.
  - exists []. split; [constructor|]. intros (x & [] & _).
  - destruct (IH (fun x Hx => K x (or_intror Hx))) as (ps & P & Q).
    destruct (K l (or_introl eq_refl)) as [Kl|Fl].
    + destruct (loader_back ord l HO Kl) as (p' & Pp & d & c & l' & U & G & SL).
      exists (p' :: ps). split; [constructor; assumption|].
      intros (x & [<-|Hx] & Fx) [|m ms] acc L; try discriminate L.
      { exfalso. unfold known_loader in Kl. unfold foreign in Fx. destruct (ld_conf l); contradiction. }
      cbn [map combine foldM]. unfold add_loader at 1. cbn [fst snd]. rewrite U. cbn [bind]. rewrite G.
      cbn [bind as_string]. apply Q; [eauto|]. cbn in L. lia.
    + destruct (user_back ord l Fl) as (p' & Pp & d & c & U & G).
      exists (p' :: ps). split; [constructor; assumption|].
      intros _ [|m ms] acc L; [discriminate L|].
      cbn [map combine foldM]. unfold add_loader at 1. cbn [fst snd]. rewrite U. cbn [bind]. rewrite G.
      reflexivity.
Qed.

Lemma foreign_refused ord fs (e : exper) path : lists_sets ord ->
  List.length (ex_loaders e) = List.length (ex_modalities e) ->
  (forall l, In l (ex_loaders e) -> known_loader l \/ foreign l) ->
  (exists l, In l (ex_loaders e) /\ foreign l) -> parameters_writable e ->
  exists fs', save_serialized_parameters ord fs e path = (fs', Ok tt) /\
    load_from_serialized fs' path = Err ValueError.
Proof.
  intros HO L K X ((k' & Hk) & (co & Hco) & (itr & Hitr) & (ite & Hite) & (sh & Hsh) & (rm & Hrm) & (db & Hdb)).
  destruct (loaders_refused ord (ex_loaders e) HO K) as (ps & P & Q).
  assert (J : json_rt (VDict (as_str_keys (entries ord e))) =
    Ok (VDict [(KStr "modalities", VList (map VStr (ex_modalities e))); (KStr "k", k');
     (KStr "coefs", co); (KStr "iter_train", itr); (KStr "iter_test", ite); (KStr "shuffle_labels", sh);
     (KStr "run_mode", rm); (KStr "debug", db); (KStr "loaders", VList ps)]%string)).
  { apply json_rt_ok. constructor; [|apply keys_distinct].
    unfold entries, as_str_keys. cbn [map fst snd].
    repeat (constructor; [constructor| |]); try assumption.
    + apply strings_image.
    + constructor. apply images_F2. exact P.
    + constructor. }
  unfold save_serialized_parameters. rewrite serialize_entries, J.
  eexists. split; [reflexivity|]. unfold load_from_serialized. rewrite get_set, String.eqb_refl.
  unfold from_serialized. cbn -[combine foldM map].
  pose proof (Q X (ex_modalities e) [] (eq_sym L)) as F. unfold add_loader in F. rewrite F. reflexivity.
Qed.

(** An attribute the encoder refuses. *)
Lemma dict_refused (d : list (string * val)) k v : In (k, v) d -> json_rt v = Err TypeError ->
  (forall k' v' x, In (k', v') d -> json_rt v' = Err x -> x = TypeError) ->
  json_rt (VDict (as_str_keys d)) = Err TypeError.
Proof.
  intros H E A. cbn [json_rt].
  match goal with |- bind ?g _ = _ => assert (G : g = Err TypeError); [|rewrite G; reflexivity] end.
  induction d as [|[q x] d IH]; [destruct H|]. cbn [as_str_keys map fst snd json_key bind].
  destruct (json_rt x) as [y|r] eqn:X; cbn [bind].
  - destruct H as [[= -> ->]|H]; [congruence|]. fold (as_str_keys d).
    rewrite IH; [reflexivity|assumption|]. intros k' v' z Hi. apply (A k'). right. exact Hi.
  - rewrite (A q x r (or_introl eq_refl) X). reflexivity.
Qed.

Lemma json_rt_errors : forall v x, @json_rt Arr v = Err x -> x = TypeError.
Proof.
  fix IH 1. intros v x. destruct v as [|b|z|q|s|l|l|d|a|n]; cbn [json_rt]; try discriminate; try congruence.
  - match goal with |- bind ?g _ = _ -> _ => assert (G : forall y, g = Err y -> y = TypeError) end.
    { induction l as [|w l IHl]; intros y; [discriminate|].
      destruct (json_rt w) as [u|r] eqn:W; cbn [bind].
      - match goal with |- bind ?g _ = _ -> _ => destruct g as [us|r] eqn:R end; cbn [bind]; [discriminate|].
        intros [= ->]. apply IHl. exact eq_refl.
      - intros [= ->]. exact (IH w y W). }
    match goal with |- bind ?g _ = _ -> _ => destruct g as [us|r] eqn:R end; cbn [bind]; [discriminate|].
    intros [= ->]. apply G. reflexivity.
  - match goal with |- bind ?g _ = _ -> _ => assert (G : forall y, g = Err y -> y = TypeError) end.
    { induction l as [|w l IHl]; intros y; [discriminate|].
      destruct (json_rt w) as [u|r] eqn:W; cbn [bind].
      - match goal with |- bind ?g _ = _ -> _ => destruct g as [us|r] eqn:R end; cbn [bind]; [discriminate|].
        intros [= ->]. apply IHl. exact eq_refl.
      - intros [= ->]. exact (IH w y W). }
    match goal with |- bind ?g _ = _ -> _ => destruct g as [us|r] eqn:R end; cbn [bind]; [discriminate|].
    intros [= ->]. apply G. reflexivity.
  - match goal with |- bind ?g _ = _ -> _ => assert (G : forall y, g = Err y -> y = TypeError) end.
    { induction d as [|[k w] d IHd]; intros y; [discriminate|].
      destruct (json_key k) as [sk|r] eqn:Kx; cbn [bind].
      - destruct (json_rt w) as [u|r] eqn:W; cbn [bind].
        + match goal with |- bind ?g _ = _ -> _ => destruct g as [us|r] eqn:R end; cbn [bind]; [discriminate|].
          intros [= ->]. apply IHd. exact eq_refl.
        + intros [= ->]. exact (IH w y W).
      - intros [= ->]. destruct k as [| |[]| |]; cbn in Kx; congruence. }
    match goal with |- bind ?g _ = _ -> _ => destruct g as [us|r] eqn:R end; cbn [bind]; [discriminate|].
    intros [= ->]. apply G. reflexivity.
Qed.

Lemma refused ord fs (e : exper) path :
  json_rt (ex_k e) = Err TypeError \/ json_rt (ex_coefs e) = Err TypeError \/
  json_rt (ex_iter_train e) = Err TypeError \/ json_rt (ex_iter_test e) = Err TypeError \/
  json_rt (ex_shuffle_labels e) = Err TypeError \/ json_rt (ex_run_mode e) = Err TypeError \/
  json_rt (ex_debug e) = Err TypeError ->
  exists fs', save_serialized_parameters ord fs e path = (fs', Err TypeError) /\
    load_from_serialized fs' path = Err BadFile.
Proof.
  intros H. unfold save_serialized_parameters. rewrite serialize_entries.
  assert (J : json_rt (VDict (as_str_keys (entries ord e))) = Err TypeError).
  { assert (X : exists k v, In (k, v) (entries ord e) /\ json_rt v = Err TypeError).
    { unfold entries. repeat (destruct H as [H|H]; [do 2 eexists; split; [|exact H]; cbn; tauto|]).
      do 2 eexists. split; [|exact H]. cbn. tauto. }
    destruct X as (k & v & I & E). eapply dict_refused; [exact I|exact E|].
    intros. eapply json_rt_errors; eassumption. }
  rewrite J. eexists. split; [reflexivity|]. unfold load_from_serialized.
  rewrite get_set, String.eqb_refl. reflexivity.
Qed.

Lemma unwritable_refused ord fs (e : exper) path v :
  In v [ex_k e; ex_coefs e; ex_iter_train e; ex_iter_test e; ex_shuffle_labels e;
        ex_run_mode e; ex_debug e] ->
  (exists a, v = VArr a) \/ (exists n, v = VOther n) ->
  exists fs', save_serialized_parameters ord fs e path = (fs', Err TypeError) /\
    load_from_serialized fs' path = Err BadFile.
Proof.
  intros H X. apply refused.
  assert (E : json_rt v = Err TypeError) by (destruct X as [(a & ->)|(n & ->)]; reflexivity).
  cbn in H. repeat (destruct H as [<-|H]; [tauto|]). destruct H.
Qed.

Lemma same_native (e e' : exper) : same_experiment e e' ->
  (native (ex_k e) -> ex_k e' = ex_k e) /\
  (native (ex_coefs e) -> ex_coefs e' = ex_coefs e) /\
  (native (ex_iter_train e) -> ex_iter_train e' = ex_iter_train e) /\
  (native (ex_iter_test e) -> ex_iter_test e' = ex_iter_test e) /\
  (native (ex_shuffle_labels e) -> ex_shuffle_labels e' = ex_shuffle_labels e) /\
  (native (ex_run_mode e) -> ex_run_mode e' = ex_run_mode e) /\
  (native (ex_debug e) -> ex_debug e' = ex_debug e).
Proof.
  intros (_ & _ & H1 & H2 & H3 & H4 & H5 & H6 & H7).
  repeat match goal with |- _ /\ _ => split end; intros N; eapply native_same; eassumption.
Qed.

Lemma constructed (ls : list (string * loader)) k tr te co sh rm db :
  NoDup (map fst ls) -> (forall m l, In (m, l) ls -> known_loader l) ->
  native k -> native tr -> native te -> native co -> native sh -> native rm -> native db ->
  serializable (init ls k tr te co sh rm db) /\
  ex_modalities (init ls k tr te co sh rm db) = map fst ls.
Proof.
  intros ND K N1 N2 N3 N4 N5 N6 N7. split; [|reflexivity].
  split; [exact ND|]. split; [cbn; rewrite !map_length; reflexivity|]. split.
  - cbn. intros l H. apply in_map_iff in H. destruct H as ([m l'] & <- & H). exact (K m l' H).
  - unfold parameters_writable, writable. cbn.
    repeat match goal with |- _ /\ _ => split end; eexists; apply native_image; assumption.
Qed.

End Proofs.
