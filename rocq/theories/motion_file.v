(** * Proofs on the files of motion databases. *)

From Coq Require Import List ZArith Arith Bool String Ascii Lia.
Import ListNotations.
From Verif Require Import Py Py_proof logger_model logger_spec logger_file serial_model serial_spec serial_proof sound_model sound_spec sound_proof sound_file
  sound_count motion_model motion_spec motion_proof.
Local Open Scope nat_scope.

Section Motion.
Context {Arr : Type}.
Variable shape : Arr -> list nat.
Variable reshape : Arr -> list nat -> Arr.
Notation val := (val Arr).
Notation db := (motion_db Arr).
Notation disk := (disk Arr).

Lemma base_suffix f t : base_name f -> base_name t -> base_name (f ++ t).
Proof. exact (base_app f t). Qed.
Lemma base_json : base_name ".json". Proof. intros I. cbn in I. intuition discriminate. Qed.
Lemma base_npz : base_name ".npz". Proof. intros I. cbn in I. intuition discriminate. Qed.

(** The meta data of a JSON file, and what is read. *)
Definition meta_val (d : db) (dv : val) (extra : key * val) : val :=
  VDict [(KStr "name", VStr (m_name d)); (KStr "marker_names", VList (map VStr (m_markers d)));
         (KStr "label_descriptions", dv); extra; (KStr "records", VList (map motion_val (enumerate (labels d))))]%string.
Lemma meta_json (d : db) dv f s : f = "data_file"%string \/ f = "data_dir"%string ->
  (forall a ls l, In (a, ls) (m_records d) -> In l ls -> plain_label l) -> json_image (desc_val (m_desc d)) dv ->
  json_rt (meta_val d (desc_val (m_desc d)) (KStr f, VStr s)) = Ok (meta_val d dv (KStr f, VStr s)).
Proof.
  intros Hf HL HD. apply json_rt_ok. constructor.
  - repeat (first [apply serial_proof.strings_image|apply HD|constructor]).
    pose proof (records_image (Arr := Arr) (enumerate (labels d))) as R.
    assert (H : forall (il : nat * list label) l, In il (enumerate (labels d)) -> In l (snd il) -> plain_label l).
    { intros (i, ls) l I J. unfold enumerate in I. apply in_combine_r in I. unfold labels in I. apply in_map_iff in I. destruct I as ((a, ls') & E & I).
      cbn in E, J. subst ls'. eauto. }
    specialize (R H). inversion R; assumption.
  - destruct Hf as [->| ->]; repeat constructor; cbn; intuition discriminate.
Qed.

Lemma round_trip (d : db) k dest filename ff : plain_db d -> destination dest -> base_name (file_of d filename) ->
  exists k' ds, export shape reshape d k dest filename "npz" ff = (k', Ok tt) /\
    desc_image (m_desc d) ds /\
    load_from_npz shape k' (path_join dest (file_of d filename ++ ".json")) false = Ok (mkMotion (m_name d) (m_markers d) (m_records d) ds) /\
    load_from_npz shape k' (path_join dest (file_of d filename ++ ".json")) true =
      match m_records d with [] => Err ValueError | _ => Ok (mkMotion (m_name d) (m_markers d) (m_records d) ds) end /\
    (forall p, p <> path_join dest (file_of d filename ++ ".json") -> dict_get String.eqb (k_json k') p = dict_get String.eqb (k_json k) p) /\
    (forall p, p <> path_join dest (file_of d filename ++ ".npz") -> dict_get String.eqb (k_npz k') p = dict_get String.eqb (k_npz k) p) /\
    k_txt k' = k_txt k /\ k_mat k' = k_mat k /\ k_dirs k' = k_dirs k.
Proof.
  intros (HL & ds & DI) HD HB. destruct (desc_json (Arr := Arr) _ _ DI) as (dv & DJ & DV). set (f := file_of d filename) in *.
  assert (J : json_rt (meta_val d (desc_val (m_desc d)) (KStr "data_file"%string, VStr (f ++ ".npz")%string)) =
              Ok (meta_val d dv (KStr "data_file"%string, VStr (f ++ ".npz")%string))) by (apply meta_json; auto).
  set (v' := meta_val d dv (KStr "data_file"%string, VStr (f ++ ".npz")%string)) in *.
  set (k' := mkDisk (dict_set String.eqb (k_json k) (path_join dest (f ++ ".json")) (Some v'))
               (dict_set String.eqb (k_npz k) (path_join dest (f ++ ".npz")) (archive (data d))) (k_txt k) (k_mat k) (k_dirs k)).
  assert (E : export shape reshape d k dest filename "npz" ff = (k', Ok tt)).
  { unfold export. fold (file_of d filename). fold f. unfold get_meta. cbn [String.eqb Ascii.eqb Bool.eqb].
    change (VDict _) with (meta_val d (desc_val (m_desc d)) (KStr "data_file"%string, VStr (f ++ ".npz")%string)).
    unfold dump. rewrite J. reflexivity. }
  assert (LD : forall vb, load_from_npz shape k' (path_join dest (f ++ ".json")) vb =
    let r := mkMotion (m_name d) (m_markers d) (m_records d) ds in
    if vb then bind (get_data_dimension shape r) (fun _ => Ok r) else Ok r).
  { intros vb. unfold load_from_npz. cbn [k' k_json k_npz]. rewrite sget_set, String.eqb_refl. cbn [bind].
    cbn [v' meta_val item find fst snd String.eqb Ascii.eqb Bool.eqb bind as_string].
    rewrite (found_again dest (f ++ ".json") (f ++ ".npz") HD (base_suffix _ _ HB base_json) (base_suffix _ _ HB base_npz)).
    rewrite sget_set, String.eqb_refl. cbn [bind iter].
    assert (MS : mapM (@as_string Arr) (map VStr (m_markers d)) = Ok (m_markers d)).
    { generalize (m_markers d) as l. induction l as [|x l IH]; cbn [map mapM]; [reflexivity|]. cbn [as_string bind]. rewrite IH. reflexivity. }
    rewrite MS. cbn [bind]. rewrite DV. cbn [bind]. unfold data, labels. rewrite (load_all (m_records d) HL). cbn [bind]. reflexivity. }
  exists k', ds. split; [exact E|]. split; [exact DI|]. split; [exact (LD false)|]. split.
  { rewrite (LD true). cbn [get_data_dimension m_records]. unfold get_data_dimension. cbn [m_records]. destruct (m_records d); reflexivity. }
  cbn [k' k_json k_npz k_txt k_mat k_dirs]. split; [|split; [|auto]].
  - intros p N. rewrite sget_set. destruct (String.eqb_spec (path_join dest (f ++ ".json")) p); [congruence|reflexivity].
  - intros p N. rewrite sget_set. destruct (String.eqb_spec (path_join dest (f ++ ".npz")) p); [congruence|reflexivity].
Qed.

Lemma subdirectory (d : db) k dest sub f ff : plain_db d -> directory dest -> plain_name sub -> base_name f ->
  dict_get String.eqb (k_npz k) (dest ++ "/" ++ sub ++ "/" ++ sub ++ "/" ++ f ++ ".npz")%string = None ->
  exists k', export shape reshape d k dest (Some (sub ++ "/" ++ f)%string) "npz" ff = (k', Ok tt) /\
    load_from_npz shape k' (dest ++ "/" ++ sub ++ "/" ++ f ++ ".json")%string false = Err IOError.
Proof.
  intros (HL & ds & DI) HD HS HB HN. destruct (desc_json (Arr := Arr) _ _ DI) as (dv & DJ & DV).
  set (g := (sub ++ "/" ++ f)%string). set (e := (KStr "data_file"%string, @VStr Arr (g ++ ".npz")%string)).
  assert (J : json_rt (meta_val d (desc_val (m_desc d)) e) = Ok (meta_val d dv e)) by (apply meta_json; auto).
  set (v' := meta_val d dv e) in *.
  destruct (not_found_again dest sub (f ++ ".json") (f ++ ".npz") HD HS (base_suffix _ _ HB base_json) (base_suffix _ _ HB base_npz)) as (P1 & P2).
  destruct (not_found_again dest sub (f ++ ".npz") (f ++ ".json") HD HS (base_suffix _ _ HB base_npz) (base_suffix _ _ HB base_json)) as (_ & P3).
  assert (G1 : (g ++ ".npz" = sub ++ "/" ++ f ++ ".npz")%string) by (unfold g; rewrite !sound_count.append_assoc; reflexivity).
  assert (G2 : (g ++ ".json" = sub ++ "/" ++ f ++ ".json")%string) by (unfold g; rewrite !sound_count.append_assoc; reflexivity).
  eexists. split.
  - unfold export. fold g. unfold get_meta. cbn [String.eqb Ascii.eqb Bool.eqb]. change (VDict _) with (meta_val d (desc_val (m_desc d)) e).
    unfold dump. rewrite J. reflexivity.
  - unfold load_from_npz, save_data_npz. cbn [k_json k_npz]. rewrite G2, P3, sget_set, String.eqb_refl. cbn [bind].
    cbn [v' e meta_val item find fst snd String.eqb Ascii.eqb Bool.eqb bind as_string]. rewrite <- P3. change ("." ++ "npz")%string with ".npz"%string.
    rewrite !G1, P1, P2, sget_set.
    destruct (String.eqb_spec (dest ++ "/" ++ sub ++ "/" ++ f ++ ".npz") (dest ++ "/" ++ sub ++ "/" ++ sub ++ "/" ++ f ++ ".npz")) as [X|_].
    + exfalso. apply app_cancel in X. apply (app_cancel "/") in X. apply app_cancel in X. apply (app_cancel "/") in X. symmetry in X.
      change ((sub ++ "/" ++ f ++ ".npz")%string) with ((sub ++ ("/" ++ (f ++ ".npz")))%string) in X. rewrite <- sound_count.append_assoc in X.
      apply path_longer in X. destruct HS as (NE & _). destruct sub; [congruence|discriminate].
    + rewrite HN. reflexivity.
Qed.

(** ** Refusals *)
Lemma wrong_type (d : db) k dest filename data_type ff :
  data_type <> "npz"%string -> data_type <> "txt"%string -> data_type <> "mat"%string ->
  export shape reshape d k dest filename data_type ff = (k, Err ValueError).
Proof.
  intros A B C. unfold export, get_meta. apply String.eqb_neq in A, B, C. rewrite A, B, C. reflexivity.
Qed.
Lemma list_fails (l : list val) x e : In x l -> json_rt x = Err e -> exists e', json_rt (VList l) = Err e'.
Proof.
  intros I E. rewrite (proj1 (json_rt_list l)). assert (H : exists e', mapM json_rt l = Err e').
  - induction l as [|y l IH]; [destruct I|]. cbn [mapM]. destruct I as [->|I]; [rewrite E; eexists; reflexivity|].
    destruct (json_rt y) as [z|e0]; cbn [bind]; [|eauto]. destruct (IH I) as (e' & ->). cbn. eauto.
  - destruct H as (e' & ->). cbn. eauto.
Qed.
Lemma not_plain l : ~ plain_label l -> exists n, l = LOther n.
Proof. intros H. destruct l as [z|s|n]; [destruct H; eexists; constructor|destruct H; eexists; constructor|eauto]. Qed.
Lemma bad_labels (d : db) f s a ls l : In (a, ls) (m_records d) -> In l ls -> ~ plain_label l ->
  json_rt (meta_val d (desc_val (m_desc d)) (KStr f, VStr s)) = Err TypeError.
Proof.
  intros I J N. destruct (not_plain l N) as (n & ->).
  assert (R : exists e, json_rt (VList (map (@motion_val Arr) (enumerate (labels d)))) = Err e).
  { assert (I' : In ls (labels d)) by (unfold labels; apply in_map_iff; exists (a, ls); auto). apply In_nth_error in I'. destruct I' as (i & I').
    assert (M : exists e, json_rt (@motion_val Arr (i, ls)) = Err e).
    { destruct (list_fails (map label_val ls) (VOther n) TypeError) as (e & E); [apply in_map_iff; exists (LOther n); auto|reflexivity|].
      exists e. unfold motion_val. cbn [fst snd]. cbn [json_rt json_key bind]. cbn [json_rt] in E. rewrite E. reflexivity. }
    destruct M as (e & M). eapply list_fails; [|exact M]. apply in_map. apply nth_error_In with (n := i). unfold enumerate.
    rewrite utils_proof.nth_error_combine, I'. assert (LI : i < List.length (labels d)) by (apply nth_error_Some; congruence).
    rewrite (nth_error_nth' _ 0) by (rewrite seq_length; exact LI). rewrite seq_nth by exact LI. reflexivity. }
  destruct R as (e & R). destruct (json_rt (meta_val _ _ _)) as [v|e'] eqn:E; [exfalso|f_equal; exact (json_rt_errors _ _ E)].
  unfold meta_val in E. set (M := VList (map motion_val (enumerate (labels d)))) in *. clearbody M. set (K := VList (map VStr (m_markers d))) in *. clearbody K.
  set (D := desc_val (m_desc d)) in *. clearbody D. cbn [json_rt json_key bind] in E. rewrite R in E.
  destruct (json_rt K); cbn [bind] in E; [|discriminate]. destruct (json_rt D); cbn [bind] in E; discriminate.
Qed.
Lemma export_bad (d : db) k dest filename ff a ls l : In (a, ls) (m_records d) -> In l ls -> ~ plain_label l ->
  exists k', export shape reshape d k dest filename "npz" ff = (k', Err TypeError) /\ k_npz k' = k_npz k /\
    load_from_npz shape k' (path_join dest (file_of d filename ++ ".json")) false = Err BadFile.
Proof.
  intros I J N. eexists. split.
  - unfold export. fold (file_of d filename). set (f := file_of d filename). unfold get_meta. cbn [String.eqb Ascii.eqb Bool.eqb].
    change (VDict _) with (meta_val d (desc_val (m_desc d)) (KStr "data_file"%string, VStr (f ++ ".npz")%string)).
    unfold dump. rewrite (bad_labels d _ _ a ls l I J N). reflexivity.
  - split; [reflexivity|]. unfold load_from_npz. cbn [k_json]. rewrite sget_set, String.eqb_refl. reflexivity.
Qed.

(** ** Integer labels after a round trip *)
Lemma dict_keys (ds ds' : descriptions) z : desc_image ds ds' -> (exists x, ds = DDict x) -> describe ds' (LInt z) = Err KeyError.
Proof.
  intros H (x & ->). inversion H as [| |? d' F ND]; subst. cbn [describe]. replace (dict_get label_eqb d' (LInt z)) with (@None string); [reflexivity|].
  clear ND H. induction F as [|a y d d' (t & _ & ->) _ IH]; cbn [dict_get]; [reflexivity|]. cbn [label_eqb]. exact IH.
Qed.
Lemma dict_strings ds ds' l t : desc_image (DDict ds) ds' -> NoDup (map fst ds) -> label_text l t ->
  (forall s, describe (DDict ds) l = Ok s -> describe ds' (LStr t) = Ok s).
Proof.
  intros H ND0 T s. inversion H as [| |? d' F ND]; subst. cbn [describe].
  destruct (dict_get label_eqb ds l) as [s'|] eqn:E; [|discriminate]. intros [= ->].
  replace (dict_get label_eqb d' (LStr t)) with (Some s); [reflexivity|]. symmetry. clear H ND0.
  induction F as [|(k, x) y d d' (t' & T' & ->) F IH]; cbn [dict_get] in *; [discriminate|]. cbn [fst snd] in *.
  inversion ND as [|? ? NI ND']; subst. destruct (label_eqb k l) eqn:KL.
  - apply label_eqb_eq in KL. subst k. injection E as ->. assert (t' = t) as -> by (inversion T; subst; inversion T'; congruence).
    cbn [label_eqb]. rewrite String.eqb_refl. reflexivity.
  - cbn [label_eqb]. destruct (String.eqb_spec t' t) as [->|]; [exfalso|apply IH; assumption].
    apply NI. clear -F E T. induction F as [|(k', x') y d d' (t2 & T2 & ->) F IH]; cbn [dict_get] in E; [discriminate|]. cbn [map fst].
    destruct (label_eqb k' l) eqn:KL.
    + apply label_eqb_eq in KL. subst k'. left. f_equal. cbn in T2. inversion T; subst; inversion T2; congruence.
    + right. apply IH, E.
Qed.
Lemma no_extend ord (d d' o : db) z : lists_labels ord -> desc_image (m_desc d) (m_desc d') -> (exists x, m_desc d = DDict x) -> m_markers d' = m_markers o ->
  (forall l, occurs d' l \/ occurs o l -> exists y, l = LInt y) -> occurs d' (LInt z) \/ occurs o (LInt z) ->
  exists e, extend ord d' (Some o) = (d', Err e) /\ e = KeyError.
Proof.
  intros HO HI HX HM HL HZ. pose proof (dict_keys _ _ z HI HX) as K. unfold extend.
  destruct (list_eq_dec string_dec (m_markers d') (m_markers o)); [|contradiction].
  assert (OC : forall l, In l (ord (occurring d' ++ occurring o)) <-> occurs d' l \/ occurs o l).
  { intros l. rewrite (HO _ l), in_app_iff, !occurring_in. reflexivity. }
  destruct (ord (occurring d' ++ occurring o)) as [|l ls]; [apply OC in HZ; destruct HZ|].
  destruct (HL l) as (y & ->); [apply OC; cbn; auto|]. cbn [mapM]. rewrite (dict_keys _ _ y HI HX). cbn [bind]. eauto.
Qed.

(** ** Text files *)
Lemma mul_fold l : forall n, fold_left Nat.mul l n = n * fold_right Nat.mul 1 l.
Proof. induction l as [|x l IH]; intros n; cbn; [lia|]. rewrite IH. lia. Qed.
Lemma flat_ok ff a b : flat shape reshape ff a = Ok b <-> text_array shape reshape ff a b.
Proof.
  unfold flat, text_array. destruct (shape a) as [|n [|m [|p rest]]] eqn:SH; cbn [List.length Nat.eqb negb].
  - rewrite andb_false_r. split; [discriminate|]. intros [(x & y & E & _)|(_ & x & y & z & r & E & _)]; discriminate.
  - rewrite andb_false_r. split; [discriminate|]. intros [(x & y & E & _)|(_ & x & y & z & r & E & _)]; discriminate.
  - split; [intros [= <-]; left; eauto|]. intros [(x & y & E & ->)|(_ & x & y & z & r & E & _)]; [reflexivity|discriminate].
  - replace (2 <? S (S (S (List.length rest)))) with true by (symmetry; apply Nat.ltb_lt; lia). rewrite andb_true_r. cbn [hd skipn].
    assert (X : fold_left Nat.mul (m :: p :: rest) 1 = fold_right Nat.mul 1 (m :: p :: rest)) by (rewrite mul_fold, Nat.mul_1_l; reflexivity).
    rewrite X. destruct ff; split; try discriminate.
    + intros [= <-]. right. split; [reflexivity|]. exists n, m, p, rest. auto.
    + intros [(x & y & E & _)|(_ & x & y & z & r & E & ->)]; [discriminate|]. injection E as -> -> -> ->. reflexivity.
    + intros [(x & y & E & _)|(E & _)]; discriminate.
Qed.
Lemma flat_err ff a e : flat shape reshape ff a = Err e -> e = ValueError.
Proof. unfold flat. destruct (negb _); [|discriminate]. destruct (_ && _); [discriminate|congruence]. Qed.
Definition text_path (dir : string) (i : nat) : string := path_join dir (str_of_int (Z.of_nat i) ++ ".txt").
Lemma save_text dir ff (as_ : list Arr) : forall n k, exists k' r, save_data_txt shape reshape k dir ff (combine (seq n (List.length as_)) as_) = (k', r) /\
  k_json k' = k_json k /\ k_npz k' = k_npz k /\ k_mat k' = k_mat k /\ k_dirs k' = k_dirs k /\
  (forall p, (forall i, n <= i < n + List.length as_ -> p <> text_path dir i) -> dict_get String.eqb (k_txt k') p = dict_get String.eqb (k_txt k) p) /\
  ((r = Ok tt /\ forall i a, nth_error as_ i = Some a -> exists b, text_array shape reshape ff a b /\ dict_get String.eqb (k_txt k') (text_path dir (n + i)) = Some b) \/
   (r = Err ValueError /\ exists i a, nth_error as_ i = Some a /\ (forall b, ~ text_array shape reshape ff a b) /\
     (forall j x, j < i -> nth_error as_ j = Some x -> exists b, text_array shape reshape ff x b /\ dict_get String.eqb (k_txt k') (text_path dir (n + j)) = Some b) /\
     (forall j, i <= j -> dict_get String.eqb (k_txt k') (text_path dir (n + j)) = dict_get String.eqb (k_txt k) (text_path dir (n + j))))).
Proof.
  induction as_ as [|a l IH]; intros n k; cbn [List.length seq combine save_data_txt].
  - exists k, (Ok tt). do 5 (split; [reflexivity|]). split; [reflexivity|]. left. split; [reflexivity|]. intros [|i]; discriminate.
  - destruct (flat shape reshape ff a) as [b|e] eqn:F.
    + match goal with |- context [save_data_txt _ _ ?q _ _ _] => destruct (IH (S n) q) as (k' & r & E & A & B & C & D & O & H) end.
      cbn [k_json k_npz k_mat k_dirs k_txt] in A, B, C, D, O, H. exists k', r. split; [exact E|]. do 4 (split; [assumption|]).
      assert (FST : dict_get String.eqb (k_txt k') (text_path dir n) = Some b).
      { rewrite O; [rewrite sget_set; fold (text_path dir n); rewrite String.eqb_refl; reflexivity|]. intros i I X. apply text_paths in X. lia. }
      split.
      * intros p HP. rewrite O by (intros i I; apply HP; lia). rewrite sget_set. fold (text_path dir n).
        destruct (String.eqb_spec (text_path dir n) p) as [X|]; [exfalso; apply (HP n); [lia|congruence]|reflexivity].
      * destruct H as [(R & H)|(R & i & x & I & NB & H1 & H2)]; [left|right]; (split; [exact R|]).
        -- intros [|i] x; cbn [nth_error]; [intros [= <-]; exists b; rewrite Nat.add_0_r; split; [apply flat_ok, F|exact FST]|].
           intros X. destruct (H i x X) as (b' & T & G). exists b'. split; [exact T|]. replace (n + S i) with (S n + i) by lia. exact G.
        -- exists (S i), x. split; [exact I|]. split; [exact NB|]. split.
           ++ intros [|j] y LJ; cbn [nth_error]; [intros [= <-]; exists b; rewrite Nat.add_0_r; split; [apply flat_ok, F|exact FST]|].
              intros X. destruct (H1 j y) as (b' & T & G); [lia|exact X|]. exists b'. split; [exact T|]. replace (n + S j) with (S n + j) by lia. exact G.
           ++ intros [|j] LJ; [lia|]. replace (n + S j) with (S n + j) by lia. rewrite H2 by lia. rewrite sget_set. fold (text_path dir n).
              destruct (String.eqb_spec (text_path dir n) (text_path dir (S n + j))) as [X|]; [apply text_paths in X; lia|reflexivity].
    + exists k, (Err ValueError). split; [f_equal; f_equal; exact (flat_err _ _ _ F)|]. do 4 (split; [reflexivity|]). split; [reflexivity|].
      right. split; [reflexivity|]. exists 0, a. split; [reflexivity|]. split; [|split; [intros; lia|reflexivity]].
      intros b T. apply flat_ok in T. congruence.
Qed.
Lemma mkdir_in (k : disk) p q : In q (k_dirs (mkdir k p)) <-> In q (k_dirs k) \/ q = p.
Proof.
  unfold mkdir. destruct (existsb (String.eqb p) (k_dirs k)) eqn:E.
  - apply existsb_exists in E. destruct E as (x & I & X). apply String.eqb_eq in X. subst x. split; [auto|intros [H| ->]; auto].
  - cbn [k_dirs]. rewrite in_app_iff. cbn. intuition congruence.
Qed.
Lemma mkdir_rest (k : disk) p : k_json (mkdir k p) = k_json k /\ k_npz (mkdir k p) = k_npz k /\ k_txt (mkdir k p) = k_txt k /\ k_mat (mkdir k p) = k_mat k.
Proof. unfold mkdir. destruct (existsb _ _); auto. Qed.
Lemma export_text (d : db) k dest filename ff : plain_db d ->
  let dir := path_join dest (file_of d filename) in let ddir := path_join dir (file_of d filename ++ "_data") in
  exists k' r, export shape reshape d k dest filename "txt" ff = (k', r) /\
    (exists v, dict_get String.eqb (k_json k') (path_join dir (file_of d filename ++ ".json")) = Some (Some v) /\
       item v "name" = Ok (VStr (m_name d)) /\ item v "marker_names" = Ok (VList (map VStr (m_markers d))) /\
       item v "data_dir" = Ok (VStr (file_of d filename ++ "_data")) /\
       exists rs, item v "records" = Ok (VList rs) /\ List.length rs = List.length (m_records d) /\
         forall i a ls, nth_error (m_records d) i = Some (a, ls) -> exists r, nth_error rs i = Some r /\
           item r "data_id" = Ok (VInt (Z.of_nat i)) /\ item r "labels" = Ok (VList (map label_val ls))) /\
    (forall p, p <> path_join dir (file_of d filename ++ ".json") -> dict_get String.eqb (k_json k') p = dict_get String.eqb (k_json k) p) /\
    k_npz k' = k_npz k /\ k_mat k' = k_mat k /\ (forall p, In p (k_dirs k') <-> In p (k_dirs k) \/ p = dir \/ p = ddir) /\
    (forall p, (forall i, i < msize d -> p <> text_path ddir i) -> dict_get String.eqb (k_txt k') p = dict_get String.eqb (k_txt k) p) /\
    ((r = Ok tt /\ forall i a, nth_error (data d) i = Some a -> exists b, text_array shape reshape ff a b /\ dict_get String.eqb (k_txt k') (text_path ddir i) = Some b) \/
     (r = Err ValueError /\ exists i a, nth_error (data d) i = Some a /\ (forall b, ~ text_array shape reshape ff a b) /\
       (forall j x, j < i -> nth_error (data d) j = Some x -> exists b, text_array shape reshape ff x b /\ dict_get String.eqb (k_txt k') (text_path ddir j) = Some b) /\
       (forall j, i <= j -> dict_get String.eqb (k_txt k') (text_path ddir j) = dict_get String.eqb (k_txt k) (text_path ddir j)))).
Proof.
  intros (HL & ds & DI) dir ddir. destruct (desc_json (Arr := Arr) _ _ DI) as (dv & DJ & DV).
  set (f := file_of d filename) in *. set (e := (KStr "data_dir"%string, @VStr Arr (f ++ "_data")%string)).
  assert (J : json_rt (meta_val d (desc_val (m_desc d)) e) = Ok (meta_val d dv e)) by (apply meta_json; auto).
  set (k0 := mkdir (mkdir k dir) ddir).
  set (k1 := mkDisk (dict_set String.eqb (k_json k0) (path_join dir (f ++ ".json")) (Some (meta_val d dv e))) (k_npz k0) (k_txt k0) (k_mat k0) (k_dirs k0)).
  destruct (save_text ddir ff (data d) 0 k1) as (k' & r & E & A & B & C & D & O & H). cbn [k1 k_json k_npz k_txt k_mat k_dirs plus] in *.
  destruct (mkdir_rest (mkdir k dir) ddir) as (_ & N1 & T1 & M1). destruct (mkdir_rest k dir) as (_ & N2 & T2 & M2). fold k0 in N1, T1, M1.
  exists k', r. split.
  { unfold export. fold (file_of d filename). fold f. unfold get_meta. cbn [String.eqb Ascii.eqb Bool.eqb]. unfold create_text_subdirs. fold dir. fold ddir. fold k0.
    change (VDict _) with (meta_val d (desc_val (m_desc d)) e). unfold dump. rewrite J. exact E. }
  split; [exists (meta_val d dv e); split; [rewrite A, sget_set, String.eqb_refl; reflexivity|]|].
  { do 3 (split; [reflexivity|]). exists (map motion_val (enumerate (labels d))). split; [reflexivity|].
    split; [rewrite map_length, pairing_proof.enumerate_length; unfold labels; apply map_length|].
    intros i a ls I. exists (motion_val (i, ls)). rewrite nth_error_map, pairing_proof.nth_error_enumerate. unfold labels.
    rewrite nth_error_map, I. repeat split. }
  split; [intros p NP; rewrite A, sget_set; destruct (String.eqb_spec (path_join dir (f ++ ".json")) p); [congruence|]|].
  { unfold k0. destruct (mkdir_rest (mkdir k dir) ddir) as (-> & _). destruct (mkdir_rest k dir) as (-> & _). reflexivity. }
  split; [congruence|]. split; [congruence|]. split; [intros p; rewrite D; unfold k0; rewrite !mkdir_in; tauto|].
  split; [intros p HP; rewrite O; [rewrite T1, T2; reflexivity|]; intros i (_ & I); apply HP; unfold data in I; rewrite map_length in I; exact I|].
  destruct H as [H|(R & i & a & I & NB & H1 & H2)]; [left; exact H|right]. split; [exact R|]. exists i, a. do 3 (split; [assumption|]).
  intros j LJ. rewrite H2 by exact LJ. rewrite T1, T2. reflexivity.
Qed.
Lemma text_not_loaded (d : db) k dest filename ff : plain_db d ->
  load_from_npz shape (fst (export shape reshape d k dest filename "txt" ff))
    (path_join (path_join dest (file_of d filename)) (file_of d filename ++ ".json")) false = Err KeyError.
Proof.
  intros (HL & ds & DI). destruct (desc_json (Arr := Arr) _ _ DI) as (dv & DJ & DV).
  set (f := file_of d filename) in *. set (e := (KStr "data_dir"%string, @VStr Arr (f ++ "_data")%string)).
  assert (J : json_rt (meta_val d (desc_val (m_desc d)) e) = Ok (meta_val d dv e)) by (apply meta_json; auto).
  unfold export. fold (file_of d filename). fold f. unfold get_meta. cbn [String.eqb Ascii.eqb Bool.eqb]. unfold create_text_subdirs.
  change (VDict _) with (meta_val d (desc_val (m_desc d)) e). unfold dump. rewrite J.
  match goal with |- context [save_data_txt _ _ ?q ?dd _ _] => destruct (save_text dd ff (data d) 0 q) as (k' & r & E & A & _) end.
  unfold enumerate. rewrite E. cbn [fst]. unfold load_from_npz. rewrite A. cbn [k_json]. rewrite sget_set, String.eqb_refl. reflexivity.
Qed.
Lemma export_mat (d : db) k dest filename ff :
  exists k', export shape reshape d k dest filename "mat" ff = (k', Ok tt) /\
    dict_get String.eqb (k_mat k') (path_join dest (file_of d filename ++ ".mat")) =
      Some (mkMat (m_name d) (m_markers d) (match m_desc d with DNone => None | ds => Some ds end) (map fst (m_records d)) (map snd (m_records d))) /\
    (forall p, p <> path_join dest (file_of d filename ++ ".mat") -> dict_get String.eqb (k_mat k') p = dict_get String.eqb (k_mat k) p) /\
    k_json k' = k_json k /\ k_npz k' = k_npz k /\ k_txt k' = k_txt k /\ k_dirs k' = k_dirs k.
Proof.
  eexists. split; [reflexivity|]. cbn [k_mat k_json k_npz k_txt k_dirs]. fold (file_of d filename). split; [|split; [|auto]].
  - rewrite sget_set, String.eqb_refl. unfold has_label_descriptions, data, labels. destruct (m_desc d); reflexivity.
  - intros p N. rewrite sget_set. destruct (String.eqb_spec (path_join dest (file_of d filename ++ ".mat")) p); [congruence|reflexivity].
Qed.
End Motion.
