(** * Proofs about loading what was saved, and about interrupted saves. *)

From Coq Require Import List ZArith Arith Bool QArith String Ascii Lia.
Import ListNotations.
From Verif Require Import Py Py_proof ListUtil logger_model logger_spec logger_proof logger_file.
Local Open Scope nat_scope.

Section Load.
Context {Arr : Type}.
Notation val := (val Arr).
Notation dict := (dict Arr).
Notation world := (world Arr).
Notation get := (dict_get String.eqb).
Implicit Types w wo wn : world.
Implicit Type fl : fs Arr.

Definition loaded_logger (w2 : world) (s : saved Arr) (g : dict) (es : list dict) (f : string) (sf : bool) : logger Arr :=
  mkLogger g (seq (List.length (w_runs w2)) (List.length es)) (set_of_list (sv_exp_keys s)) []
    (if sf then Some f else None) (Some (set_of_list (sv_result_keys s))).

Definition loaded_world (w2 : world) s g es f sf : world :=
  mkWorld (w_runs w2 ++ es) (w_logs w2 ++ [loaded_logger w2 s g es f sf]).

Lemma load_eq (w2 : world) (fl : fs Arr) f sf ln s g es :
  fs_read fl (f ++ ".json") = Some (FJson s) ->
  (sv_has_np s && ln = true -> exists m, fs_read fl (f ++ ".npz") = Some (FNpz m) /\
     foldM load_member m (sv_glob s, sv_exps s) = Ok (g, es)) ->
  (sv_has_np s && ln = false -> g = sv_glob s /\ es = sv_exps s) ->
  load w2 fl f sf ln = (loaded_world w2 s g es f sf, Ok (List.length (w_logs w2))).
Proof.
  intros Hj H1 H2. unfold load. rewrite Hj. cbn [bind].
  destruct (sv_has_np s && ln).
  - destruct (H1 eq_refl) as (m & -> & E). cbn [bind]. rewrite E. cbn [bind]. reflexivity.
  - destruct (H2 eq_refl) as [-> ->]. cbn [bind]. reflexivity.
Qed.

Lemma load_err (w2 : world) (fl : fs Arr) f sf m s e :
  fs_read fl (f ++ ".json") = Some (FJson s) -> sv_has_np s = true ->
  fs_read fl (f ++ ".npz") = Some (FNpz m) ->
  foldM load_member m (sv_glob s, sv_exps s) = Err e ->
  load w2 fl f sf true = (w2, Err e).
Proof.
  intros Hj Hn Hm E. unfold load. rewrite Hj. cbn [bind]. rewrite Hn. cbn [andb].
  rewrite Hm. cbn [bind]. rewrite E. reflexivity.
Qed.

Lemma loaded_last (w2 : world) s g es f sf :
  nth_error (w_logs (loaded_world w2 s g es f sf)) (List.length (w_logs w2)) =
  Some (loaded_logger w2 s g es f sf).
Proof. cbn [loaded_world w_logs]. rewrite nth_error_snoc, Nat.eqb_refl. reflexivity. Qed.

Lemma loaded_global w2 s g es f sf k :
  global_at (loaded_world w2 s g es f sf) (List.length (w_logs w2)) k = get g k.
Proof. unfold global_at. rewrite loaded_last. reflexivity. Qed.

Lemma nth_error_seq a n p : nth_error (seq a n) p = if p <? n then Some (a + p) else None.
Proof.
  revert a p. induction n as [|n IH]; intros a [|p]; cbn [seq nth_error]; try reflexivity.
  - rewrite Nat.add_0_r. reflexivity.
  - rewrite IH. change (S p <? S n) with (p <? n). rewrite Nat.add_succ_r. reflexivity.
Qed.

Lemma loaded_value w2 s g (es : list dict) f sf p k :
  value_at (loaded_world w2 s g es f sf) (List.length (w_logs w2)) p k =
  match nth_error es p with None => None | Some e => get e k end.
Proof.
  unfold value_at. rewrite loaded_last. cbn [loaded_logger lg_exps]. rewrite nth_error_seq.
  destruct (Nat.ltb_spec p (List.length es)).
  - cbn [loaded_world w_runs]. rewrite nth_error_app2 by apply Nat.le_add_r.
    rewrite Nat.add_comm, Nat.add_sub. reflexivity.
  - rewrite (proj2 (nth_error_None es p)) by assumption. reflexivity.
Qed.

Lemma loaded_wf w2 s g (es : list dict) f sf : wf_world w2 -> NoDup (map fst g) ->
  (forall e, In e es -> NoDup (map fst e)) -> wf_world (loaded_world w2 s g es f sf).
Proof.
  intros [W1 W2] Hg He. split; cbn [loaded_world w_logs w_runs].
  - intros i l. rewrite nth_error_snoc. destruct (i =? _).
    + intros [= <-]. cbn [loaded_logger lg_glob lg_exps]. split; [assumption|].
      intros r Hr. apply in_seq in Hr. rewrite app_length. apply Hr.
    + intros Hl. destruct (W1 _ _ Hl) as [A B]. split; [assumption|].
      intros r Hr. rewrite app_length. apply Nat.lt_lt_add_r. auto.
  - intros r d Hd. destruct (Nat.lt_ge_cases r (List.length (w_runs w2))).
    + rewrite nth_error_app1 in Hd by assumption. eauto.
    + rewrite nth_error_app2 in Hd by assumption. apply nth_error_In in Hd. auto.
Qed.

Lemma loaded_extends w2 s g es f sf : extends w2 (loaded_world w2 s g es f sf).
Proof.
  split; cbn [loaded_world w_logs w_runs].
  - intros r d H. exists d. split; [|auto]. rewrite nth_error_app1; [assumption|].
    apply nth_error_Some. congruence.
  - intros i l H. exists l, []. rewrite app_nil_r. split; [|reflexivity].
    rewrite nth_error_app1; [assumption|]. apply nth_error_Some. congruence.
Qed.

(** Reading files after writes. *)
Lemma read_json_after fl (f : string) (npw : list (string * content Arr)) c1 c2 :
  fs_read (fs_writes fl (npw ++ [((f ++ ".json")%string, c1); ((f ++ ".json")%string, c2)])) (f ++ ".json") = Some c2.
Proof.
  unfold fs_writes. rewrite fold_left_app. cbn [fold_left fs_write fs_read].
  unfold fs_read, fs_write. cbn [dict_get]. rewrite String.eqb_refl. reflexivity.
Qed.
Lemma read_json_partial fl (f : string) (npw : list (string * content Arr)) c1 :
  fs_read (fs_writes fl (npw ++ [((f ++ ".json")%string, c1)])) (f ++ ".json") = Some c1.
Proof.
  unfold fs_writes. rewrite fold_left_app. unfold fs_read, fs_write. cbn [fold_left dict_get].
  rewrite String.eqb_refl. reflexivity.
Qed.
Lemma json_name_neq f : String.eqb (f ++ ".json") (f ++ ".npz") = false.
Proof. apply String.eqb_neq. intros H. apply str_app_inj_l in H. discriminate. Qed.
Lemma npz_name_neq f : String.eqb (f ++ ".npz") (f ++ ".json") = false.
Proof. apply String.eqb_neq. intros H. apply str_app_inj_l in H. discriminate. Qed.
Lemma read_npz_after fl (f : string) m c1 (c2 c3 : content Arr) :
  fs_read (fs_writes fl ([((f ++ ".npz")%string, c1); ((f ++ ".npz")%string, FNpz m)] ++
    [((f ++ ".json")%string, c2); ((f ++ ".json")%string, c3)])) (f ++ ".npz") = Some (FNpz m).
Proof.
  unfold fs_writes, fs_read, fs_write. cbn [app fold_left dict_get].
  rewrite json_name_neq, String.eqb_refl. reflexivity.
Qed.

Lemma combine_restored (v0 : option val) (a e : option val) (arr : option Arr) :
  (arr = match v0 with Some (VArr a) => Some a | _ => None end) ->
  (a = match v0 with Some (VArr _) => None | _ => v0 end) ->
  (match a with None => e = None | Some v => exists v', e = Some v' /\ json_image v v' end) ->
  opt_rel restored v0 (match arr with Some a => Some (VArr a) | None => e end).
Proof.
  intros -> -> H. destruct v0 as [v|].
  - destruct v; cbn [opt_rel]; try (destruct H as (v' & -> & J); apply re_json; assumption).
    apply re_arr.
  - rewrite H. exact I.
Qed.

Lemma in_enumerates ord s k : enumerates ord -> In k (set_of_list (ord s)) <-> In k s.
Proof. intros H. rewrite in_set_of_list. apply H. Qed.

Theorem roundtrip ord w i l f fl w2 sf : enumerates ord -> wf_world w -> wf_world w2 ->
  nth_error (w_logs w) i = Some l -> lg_filename l = Some f -> ~ has_suffix f ".npz" ->
  all_storable w i ->
  exists fl' w2' l', save ord w i fl = (fl', Ok tt) /\
    load w2 fl' f sf true = (w2', Ok (List.length (w_logs w2))) /\ wf_world w2' /\
    same_contents w i w2' (List.length (w_logs w2)) /\
    nth_error (w_logs w2') (List.length (w_logs w2)) = Some l' /\
    lg_result_keys l' = [] /\ lg_filename l' = (if sf then Some f else None) /\
    (exists rs, lg_exp_results l' = Some rs /\ forall k, In k rs <-> In k (lg_result_keys l)) /\
    (forall j p k v, value_at w2 j p k = Some v -> value_at w2' j p k = Some v).
Proof.
  intros HO W Wt Hl Hf Hsuf S.
  destruct (save_writes_ok ord w i l f W Hl Hf S) as
    (ds & s & N & L & NDs & Ew & HA & Ek & Erk & NDg & NDe & HG & Les & HE & HM).
  set (fl' := fs_writes fl (fst (save_writes ord w i))).
  assert (Esave : save ord w i fl = (fl', Ok tt)) by (unfold save, fl'; rewrite Ew; reflexivity).
  destruct W as [W1 W2]. destruct (W1 _ _ Hl) as [NDl Hr].
  set (g := put_arrays (arrays (lg_glob l)) (sv_glob s)).
  set (es := overlay ds (sv_exps s)).
  assert (EL : load w2 fl' f sf true = (loaded_world w2 s g es f sf, Ok (List.length (w_logs w2)))).
  { apply load_eq.
    - unfold fl'. rewrite Ew. cbn [fst]. apply read_json_after.
    - rewrite andb_true_r. intros Hnp. exists (members (lg_glob l) ds). split.
      + unfold fl'. rewrite Ew, Hnp, npz_name_plain by assumption. apply read_npz_after.
      + apply load_members. lia.
    - rewrite andb_true_r. intros Hnp. apply HM in Hnp. apply members_nil in Hnp. destruct Hnp as [A B].
      unfold g, es. rewrite A. split; [reflexivity|]. clear - B.
      generalize (sv_exps s). induction B as [|d ds Hd Hds IH]; intros [|e es]; cbn [overlay]; try reflexivity.
      rewrite Hd, IH. reflexivity. }
  exists fl', (loaded_world w2 s g es f sf), (loaded_logger w2 s g es f sf).
  split; [exact Esave|]. split; [exact EL|]. split.
  { apply loaded_wf; auto.
    - apply put_arrays_NoDup. assumption.
    - intros e He. apply In_nth_error in He. destruct He as (p & Hp). unfold es in Hp. rewrite nth_overlay in Hp.
      destruct (nth_error (sv_exps s) p) as [e0|] eqn:E0; [|discriminate].
      pose proof (NDe _ (nth_error_In _ _ E0)) as ND0.
      destruct (nth_error ds p); injection Hp as <-; [|assumption]. apply put_arrays_NoDup. assumption. }
  split.
  { exists l, (loaded_logger w2 s g es f sf). split; [exact Hl|]. split; [apply loaded_last|]. split.
    { cbn [loaded_logger lg_exps]. rewrite seq_length. unfold es. rewrite overlay_length, Les, L. reflexivity. }
    split; [|split].
    - intros k. rewrite loaded_global. unfold global_at. rewrite Hl. unfold g.
      rewrite get_put_arrays by (apply arrays_NoDup; assumption).
      eapply combine_restored; [apply get_arrays; assumption|apply get_plain; assumption|]. apply HG.
    - intros p k. rewrite loaded_value, (value_at_runs w i l ds p k Hl N). unfold es. rewrite nth_overlay.
      destruct (nth_error ds p) as [d|] eqn:Ed.
      + destruct (HE _ _ Ed) as (e & -> & He).
        assert (NDd : NoDup (map fst d)) by exact (proj1 (Forall_forall _ _) NDs d (nth_error_In _ _ Ed)).
        rewrite get_put_arrays by (apply arrays_NoDup; assumption).
        eapply combine_restored; [apply get_arrays; assumption|apply get_plain; assumption|]. apply He.
      + rewrite (proj2 (nth_error_None (sv_exps s) p)); [exact I|]. apply nth_error_None in Ed. lia.
    - intros k. cbn [loaded_logger lg_exp_keys]. rewrite Ek. apply in_enumerates. assumption. }
  split; [apply loaded_last|]. split; [reflexivity|]. split; [reflexivity|]. split.
  { eexists. split; [reflexivity|]. intros k. rewrite Erk. apply in_enumerates. assumption. }
  intros j p k v. apply extends_value, loaded_extends.
Qed.

(** Without the arrays (load_np=False). *)
Theorem roundtrip_no_np ord w i l f fl w2 sf : enumerates ord -> wf_world w ->
  nth_error (w_logs w) i = Some l -> lg_filename l = Some f ->
  all_storable w i ->
  exists fl' w2' l', save ord w i fl = (fl', Ok tt) /\
    load w2 fl' f sf false = (w2', Ok (List.length (w_logs w2))) /\
    nth_error (w_logs w2') (List.length (w_logs w2)) = Some l' /\
    List.length (lg_exps l') = List.length (lg_exps l) /\
    (forall k, In k (lg_exp_keys l') <-> In k (lg_exp_keys l)) /\
    (forall k, mixed None (global_at w i k) (global_at w2' (List.length (w_logs w2)) k)) /\
    (forall p k, mixed None (value_at w i p k) (value_at w2' (List.length (w_logs w2)) p k)).
Proof.
  intros HO W Hl Hf S.
  destruct (save_writes_ok ord w i l f W Hl Hf S) as
    (ds & s & N & L & NDs & Ew & HA & Ek & Erk & NDg & NDe & HG & Les & HE & HM).
  set (fl' := fs_writes fl (fst (save_writes ord w i))).
  assert (Esave : save ord w i fl = (fl', Ok tt)) by (unfold save, fl'; rewrite Ew; reflexivity).
  destruct W as [W1 W2]. destruct (W1 _ _ Hl) as [NDl Hr].
  assert (EL : load w2 fl' f sf false = (loaded_world w2 s (sv_glob s) (sv_exps s) f sf, Ok (List.length (w_logs w2)))).
  { apply load_eq; rewrite ?andb_false_r; try discriminate; auto.
    unfold fl'. rewrite Ew. cbn [fst]. apply read_json_after. }
  exists fl', (loaded_world w2 s (sv_glob s) (sv_exps s) f sf), (loaded_logger w2 s (sv_glob s) (sv_exps s) f sf).
  split; [exact Esave|]. split; [exact EL|]. split; [apply loaded_last|]. split.
  { cbn [loaded_logger lg_exps]. rewrite seq_length, Les, L. reflexivity. }
  split; [|split].
  - intros k. cbn [loaded_logger lg_exp_keys]. rewrite Ek. apply in_enumerates. assumption.
  - intros k. rewrite loaded_global. unfold global_at. rewrite Hl. specialize (HG k).
    rewrite (get_plain _ _ NDl) in HG. unfold mixed. destruct (get (lg_glob l) k) as [v|]; [|exact HG].
    destruct v; exact HG.
  - intros p k. rewrite loaded_value, (value_at_runs w i l ds p k Hl N).
    destruct (nth_error ds p) as [d|] eqn:Ed.
    + destruct (HE _ _ Ed) as (e & -> & He). specialize (He k).
      assert (NDd : NoDup (map fst d)) by exact (proj1 (Forall_forall _ _) NDs d (nth_error_In _ _ Ed)).
      rewrite (get_plain _ _ NDd) in He. unfold mixed. destruct (get d k) as [v|]; [|exact He].
      destruct v; exact He.
    + rewrite (proj2 (nth_error_None (sv_exps s) p)); [reflexivity|]. apply nth_error_None in Ed. lia.
Qed.

Theorem npz_suffix_fails ord w i l f fl w2 sf : wf_world w ->
  nth_error (w_logs w) i = Some l -> lg_filename l = Some f -> has_suffix f ".npz" ->
  all_storable w i -> has_array w i -> fs_read fl (f ++ ".npz") = None ->
  exists fl', save ord w i fl = (fl', Ok tt) /\ load w2 fl' f sf true = (w2, Err IOError).
Proof.
  intros W Hl Hf Hsuf S HAr Hno.
  destruct (save_writes_ok ord w i l f W Hl Hf S) as
    (ds & s & N & L & NDs & Ew & HA & Ek & Erk & NDg & NDe & HG & Les & HE & HM).
  exists (fs_writes fl (fst (save_writes ord w i))). split; [unfold save; rewrite Ew; reflexivity|].
  apply HA in HAr. unfold load. rewrite Ew. cbn [fst]. rewrite read_json_after. cbn [bind].
  rewrite HAr. cbn [andb]. rewrite npz_name_suffix by assumption.
  assert (E : fs_read (fs_writes fl ([(f, FPartial); (f, FNpz (members (lg_glob l) ds))] ++
       [((f ++ ".json")%string, FPartial); ((f ++ ".json")%string, FJson s)])) (f ++ ".npz") = None).
  { unfold fs_writes, fs_read, fs_write. cbn [app fold_left dict_get]. rewrite json_name_neq.
    assert (X : String.eqb f (f ++ ".npz") = false).
    { apply String.eqb_neq. intros H. apply (f_equal String.length) in H.
      rewrite append_length in H. simpl in H. lia. }
    rewrite X. exact Hno. }
  rewrite E. reflexivity.
Qed.

(** ** Interrupted saves. *)
Definition crash ord (w : world) i (n : nat) (fl : fs Arr) : fs Arr :=
  fs_writes fl (firstn n (fst (save_writes ord w i))).

(** Any stop between the emptying and the completion of the json file. *)
Theorem json_cut ord w i l f fl w2 sf ln : wf_world w ->
  nth_error (w_logs w) i = Some l -> lg_filename l = Some f -> all_storable w i ->
  load w2 (crash ord w i (List.length (fst (save_writes ord w i)) - 1) fl) f sf ln = (w2, Err ValueError).
Proof.
  intros W Hl Hf S.
  destruct (save_writes_ok ord w i l f W Hl Hf S) as
    (ds & s & N & L & NDs & Ew & _).
  unfold crash. rewrite Ew. cbn [fst]. rewrite app_length. cbn [List.length].
  replace (List.length (if sv_has_np s then [(npz_name f, FPartial); (npz_name f, FNpz (members (lg_glob l) ds))] else []) + 2 - 1)
    with (List.length (if sv_has_np s then [(npz_name f, FPartial); (npz_name f, FNpz (members (lg_glob l) ds))] else []) + 1)
    by (destruct (sv_has_np s); reflexivity).
  rewrite firstn_app_2. cbn [firstn]. unfold load. rewrite read_json_partial. reflexivity.
Qed.

Theorem failed_save ord w i l f fl w2 sf ln fl' :
  nth_error (w_logs w) i = Some l -> lg_filename l = Some f ->
  save ord w i fl = (fl', Err TypeError) ->
  load w2 fl' f sf ln = (w2, Err ValueError).
Proof.
  intros Hl Hf. unfold save, save_writes.
  rewrite (proj2 (get_logger_ok w i l) Hl). cbn [bind]. rewrite Hf. cbn [bind].
  destruct (mapM (get_run w) (lg_exps l)) as [ds|e] eqn:Em; cbn [bind].
  - destruct (split_all ord (lg_glob l) ds (lg_exp_keys l) (lg_result_keys l)) as [s np].
    destruct (json_rt_saved s) as [s'|e]; [intros [= _]; discriminate|].
    intros [= <- ->]. unfold load. rewrite read_json_partial. reflexivity.
  - intros [= _ ->]. exfalso. revert Em. generalize (lg_exps l) as rs.
    induction rs as [|r rs IH]; [discriminate|]. cbn [mapM]. unfold get_run at 1.
    destruct (nth_error (w_runs w) r); cbn [bind]; [|discriminate].
    destruct (mapM (get_run w) rs) as [?|e]; cbn [bind]; [discriminate|].
    intros [= ->]. apply IH. reflexivity.
Qed.

(** A failing save with an earlier file: the loss is general as soon as the
    outcome is TypeError; it happens for instance when a global is not
    representable. *)
Lemma json_rt_err_dict (d : dict) k v : In (k, v) d -> json_rt v = Err TypeError ->
  json_rt_dict d = Err TypeError \/ (exists e, json_rt_dict d = Err e).
Proof.
  intros H E. right. unfold json_rt_dict. induction d as [|[q x] d IH]; [destruct H|].
  cbn [mapM fst snd]. destruct H as [[= -> ->]|H].
  - rewrite E. cbn [bind]. eauto.
  - destruct (json_rt x) as [y|e]; cbn [bind]; [|eauto]. destruct (IH H) as (e & ->). cbn [bind]. eauto.
Qed.

(** Archive written, json not yet touched. *)
Section Torn.
Variables (ord : list string -> list string) (wo wn : world) (o n : nat) (lo ln : logger Arr) (f : string).
Hypothesis HO : enumerates ord.
Hypothesis Wo : wf_world wo.
Hypothesis Wn : wf_world wn.
Hypothesis Hlo : nth_error (w_logs wo) o = Some lo.
Hypothesis Hln : nth_error (w_logs wn) n = Some ln.
Hypothesis Hfo : lg_filename lo = Some f.
Hypothesis Hfn : lg_filename ln = Some f.
Hypothesis Hsuf : ~ has_suffix f ".npz".
Hypothesis So : all_storable wo o.
Hypothesis Sn : all_storable wn n.
Hypothesis Ao : has_array wo o.
Hypothesis An : has_array wn n.

Theorem torn_mixture fl0 fl1 w2 sf : List.length (lg_exps ln) <= List.length (lg_exps lo) ->
  save ord wo o fl0 = (fl1, Ok tt) ->
  exists w2' l', load w2 (crash ord wn n 2 fl1) f sf true = (w2', Ok (List.length (w_logs w2))) /\
    nth_error (w_logs w2') (List.length (w_logs w2)) = Some l' /\
    List.length (lg_exps l') = List.length (lg_exps lo) /\
    (forall k, mixed (global_at wn n k) (global_at wo o k) (global_at w2' (List.length (w_logs w2)) k)) /\
    (forall p k, mixed (value_at wn n p k) (value_at wo o p k) (value_at w2' (List.length (w_logs w2)) p k)).
Proof using All.
  intros Len Es.
  destruct (save_writes_ok ord wo o lo f Wo Hlo Hfo So) as
    (ds & s & N & L & NDs & Ew & HA & Ek & Erk & NDg & NDe & HG & Les & HE & HM).
  destruct (save_writes_ok ord wn n ln f Wn Hln Hfn Sn) as
    (ds' & s' & N' & L' & NDs' & Ew' & HA' & Ek' & Erk' & NDg' & NDe' & HG' & Les' & HE' & HM').
  pose proof (proj2 HA Ao) as Hnp. pose proof (proj2 HA' An) as Hnp'.
  unfold save in Es. rewrite Ew in Es. injection Es as <-.
  set (g := put_arrays (arrays (lg_glob ln)) (sv_glob s)).
  set (es := overlay ds' (sv_exps s)).
  rewrite Hnp in *. rewrite Hnp' in *. rewrite !npz_name_plain in * by assumption.
  destruct Wo as [W1 W2]. destruct (W1 _ _ Hlo) as [NDl Hr].
  destruct Wn as [W1' W2']. destruct (W1' _ _ Hln) as [NDl' Hr'].
  exists (loaded_world w2 s g es f sf), (loaded_logger w2 s g es f sf). split; [|split; [apply loaded_last|split; [|split]]].
  - apply load_eq.
    + unfold crash. rewrite Ew'. cbn [fst app firstn].
      unfold fs_writes, fs_read, fs_write. cbn [app fold_left dict_get].
      rewrite npz_name_neq, String.eqb_refl. reflexivity.
    + intros _. exists (members (lg_glob ln) ds'). split.
      * unfold crash. rewrite Ew'. cbn [fst app firstn].
        unfold fs_writes, fs_read, fs_write. cbn [app fold_left dict_get].
        rewrite String.eqb_refl. reflexivity.
      * apply load_members. lia.
    + rewrite Hnp. discriminate.
  - cbn [loaded_logger lg_exps]. rewrite seq_length. unfold es. rewrite overlay_length. lia.
  - intros k. rewrite loaded_global. unfold global_at. rewrite Hlo, Hln. unfold g.
    rewrite get_put_arrays by (apply arrays_NoDup; assumption). rewrite get_arrays by assumption.
    specialize (HG k). rewrite (get_plain _ _ NDl) in HG. unfold mixed.
    assert (X : match get (lg_glob lo) k with None => get (sv_glob s) k = None | Some (VArr _) => get (sv_glob s) k = None
            | Some v => exists v', get (sv_glob s) k = Some v' /\ json_image v v' end).
    { destruct (get (lg_glob lo) k) as [v|]; [|exact HG]. destruct v; exact HG. }
    destruct (get (lg_glob ln) k) as [v|]; [|exact X]. destruct v; try exact X. reflexivity.
  - intros p k. rewrite loaded_value. rewrite (value_at_runs wn n ln ds' p k Hln N'), (value_at_runs wo o lo ds p k Hlo N).
    unfold es. rewrite nth_overlay.
    destruct (nth_error ds p) as [d|] eqn:Ed.
    + destruct (HE _ _ Ed) as (e & -> & He). specialize (He k).
      assert (NDd : NoDup (map fst d)) by exact (proj1 (Forall_forall _ _) NDs d (nth_error_In _ _ Ed)).
      rewrite (get_plain _ _ NDd) in He. unfold mixed.
      assert (X : match get d k with None => get e k = None | Some (VArr _) => get e k = None
              | Some v => exists v', get e k = Some v' /\ json_image v v' end).
      { destruct (get d k) as [v|]; [|exact He]. destruct v; exact He. }
      destruct (nth_error ds' p) as [d'|] eqn:Ed'; [|exact X].
      assert (NDd' : NoDup (map fst d')) by exact (proj1 (Forall_forall _ _) NDs' d' (nth_error_In _ _ Ed')).
      rewrite get_put_arrays by (apply arrays_NoDup; assumption). rewrite get_arrays by assumption.
      destruct (get d' k) as [v|]; [|exact X]. destruct v; try exact X. reflexivity.
    + assert (Ed' : nth_error ds' p = None) by (apply nth_error_None; apply nth_error_None in Ed; lia).
      rewrite Ed'. rewrite (proj2 (nth_error_None (sv_exps s) p)) by (apply nth_error_None in Ed; lia).
      reflexivity.
Qed.

Lemma load_run_err i l g es : l <> [] -> List.length es <= i ->
  foldM (@load_member Arr) (named ("exp_" ++ string_of_nat i) l) (g, es) = Err IndexError.
Proof.
  intros Hl Hi. destruct l as [|[k a] l]; [congruence|].
  cbn [named map foldM fst snd]. unfold load_member at 1. cbn [fst snd].
  change ((("exp_" ++ string_of_nat i) ++ "_" ++ k)%string)
    with (("exp" ++ "_" ++ (string_of_nat i ++ "_" ++ k))%string).
  rewrite split_once_app by (cbn; auto). cbn [bind].
  change (String.eqb "exp" "glob") with false. change (String.eqb "exp" "exp") with true. cbv iota.
  rewrite split_once_app by apply nat_no_us. cbn [bind]. rewrite int_of_string_of_nat. cbn [bind].
  rewrite (proj2 (nth_error_None es i)) by assumption. reflexivity.
Qed.

Lemma load_runs_err (ds : list dict) : forall i g es q d,
  nth_error ds q = Some d -> arrays d <> [] -> List.length es <= i + q ->
  foldM load_member (run_members i ds) (g, es) = Err IndexError.
Proof.
  induction ds as [|d0 ds IH]; intros i g es q d Hq Ha Hlen; [destruct q; discriminate|].
  cbn [run_members]. rewrite foldM_app.
  destruct q as [|q].
  - cbn in Hq. injection Hq as ->. rewrite Nat.add_0_r in Hlen. rewrite load_run_err by assumption. reflexivity.
  - cbn in Hq. destruct (arrays d0) as [|ka r] eqn:E0.
    + cbn [named map foldM bind]. eapply IH; eauto. lia.
    + destruct (nth_error es i) as [e|] eqn:Ee.
      * rewrite (load_run _ _ _ _ e Ee). cbn [bind]. eapply IH; eauto. rewrite list_set_length. lia.
      * rewrite load_run_err; [reflexivity|congruence|]. apply nth_error_None. assumption.
Qed.

Theorem torn_unreadable fl0 fl1 w2 sf p k a : List.length (lg_exps lo) <= p ->
  value_at wn n p k = Some (VArr a) ->
  save ord wo o fl0 = (fl1, Ok tt) ->
  load w2 (crash ord wn n 2 fl1) f sf true = (w2, Err IndexError).
Proof using All.
  intros Len Hv Es.
  destruct (save_writes_ok ord wo o lo f Wo Hlo Hfo So) as
    (ds & s & N & L & NDs & Ew & HA & Ek & Erk & NDg & NDe & HG & Les & HE & HM).
  destruct (save_writes_ok ord wn n ln f Wn Hln Hfn Sn) as
    (ds' & s' & N' & L' & NDs' & Ew' & HA' & Ek' & Erk' & NDg' & NDe' & HG' & Les' & HE' & HM').
  pose proof (proj2 HA Ao) as Hnp. pose proof (proj2 HA' An) as Hnp'.
  unfold save in Es. rewrite Ew in Es. injection Es as <-.
  rewrite Hnp in *. rewrite Hnp' in *. rewrite !npz_name_plain in * by assumption.
  eapply (load_err _ _ _ _ (members (lg_glob ln) ds') s).
  - unfold crash. rewrite Ew'. cbn [fst app firstn].
    unfold fs_writes, fs_read, fs_write. cbn [app fold_left dict_get].
    rewrite npz_name_neq, String.eqb_refl. reflexivity.
  - assumption.
  - unfold crash. rewrite Ew'. cbn [fst app firstn].
    unfold fs_writes, fs_read, fs_write. cbn [app fold_left dict_get].
    rewrite String.eqb_refl. reflexivity.
  - unfold members. rewrite foldM_app, load_glob. cbn [bind].
    rewrite (value_at_runs wn n ln ds' p k Hln N') in Hv.
    destruct (nth_error ds' p) as [d|] eqn:Ed; [|discriminate].
    eapply load_runs_err; eauto; [|lia].
    assert (NDd : NoDup (map fst d)) by exact (proj1 (Forall_forall _ _) NDs' d (nth_error_In _ _ Ed)).
    intros E. pose proof (get_arrays d k NDd) as G. rewrite Hv, E in G. discriminate.
Qed.

(** Stopped while the archive is being written. *)
Theorem archive_cut fl0 fl1 w2 sf :
  save ord wo o fl0 = (fl1, Ok tt) ->
  load w2 (crash ord wn n 1 fl1) f sf true = (w2, Err BadFile).
Proof using All.
  intros Es.
  destruct (save_writes_ok ord wo o lo f Wo Hlo Hfo So) as
    (ds & s & N & L & NDs & Ew & HA & _).
  destruct (save_writes_ok ord wn n ln f Wn Hln Hfn Sn) as
    (ds' & s' & N' & L' & NDs' & Ew' & HA' & _).
  pose proof (proj2 HA Ao) as Hnp. pose proof (proj2 HA' An) as Hnp'.
  unfold save in Es. rewrite Ew in Es. injection Es as <-.
  rewrite Hnp in *. rewrite Hnp' in *. rewrite !npz_name_plain in * by assumption.
  unfold load.
  assert (E1 : fs_read (crash ord wn n 1 (fs_writes fl0 ([((f ++ ".npz")%string, FPartial); ((f ++ ".npz")%string, FNpz (members (lg_glob lo) ds))] ++
     [((f ++ ".json")%string, FPartial); ((f ++ ".json")%string, FJson s)]))) (f ++ ".json") = Some (FJson s)).
  { unfold crash. rewrite Ew'. cbn [fst app firstn].
    unfold fs_writes, fs_read, fs_write. cbn [app fold_left dict_get].
    rewrite npz_name_neq, String.eqb_refl. reflexivity. }
  rewrite E1. cbn [bind]. rewrite Hnp. cbn [andb].
  assert (E2 : fs_read (crash ord wn n 1 (fs_writes fl0 ([((f ++ ".npz")%string, FPartial); ((f ++ ".npz")%string, FNpz (members (lg_glob lo) ds))] ++
     [((f ++ ".json")%string, FPartial); ((f ++ ".json")%string, FJson s)]))) (f ++ ".npz") = Some FPartial).
  { unfold crash. rewrite Ew'. cbn [fst app firstn].
    unfold fs_writes, fs_read, fs_write. cbn [app fold_left dict_get].
    rewrite String.eqb_refl. reflexivity. }
  rewrite E2. reflexivity.
Qed.

End Torn.

Theorem crash_ends ord (w : world) i fl :
  crash ord w i 0 fl = fl /\
  crash ord w i (List.length (fst (save_writes ord w i))) fl = fst (save ord w i fl).
Proof.
  split; [reflexivity|]. unfold crash, save. rewrite firstn_all.
  destruct (save_writes ord w i); reflexivity.
Qed.

(** ** Merging. *)
Lemma exps_after_append w i (js : list nat) : forall a w',
  nth_error (w_logs w) i = Some a -> ~ In i js ->
  append_all w i js = (w', Ok i) ->
  w_runs w' = w_runs w /\
  (forall j, j <> i -> nth_error (w_logs w') j = nth_error (w_logs w) j) /\
  (forall j b, In j js -> nth_error (w_logs w) j = Some b ->
     forall k, In k (lg_exp_keys a) <-> In k (lg_exp_keys b)) /\
  exists bs, Forall2 (fun j b => nth_error (w_logs w) j = Some b) js bs /\
    nth_error (w_logs w') i = Some (mkLogger (lg_glob a) (lg_exps a ++ flat_map (@lg_exps Arr) bs)
      (lg_exp_keys a) (lg_result_keys a) (lg_filename a) (lg_exp_results a)).
Proof.
  revert w. induction js as [|j js IH]; intros w a w' Ha Hi H.
  - cbn in H. injection H as <-. split; [auto|]. split; [auto|]. split; [intros j b []|].
    exists []. split; [constructor|]. cbn [flat_map]. rewrite app_nil_r, Ha. destruct a; reflexivity.
  - cbn [append_all] in H.
    destruct (append_cases w i j) as [(a' & b & Ha' & Hb & Hk & E)|[(a' & b & Ha' & Hb & Hk & E)|[_ E]]];
      rewrite E in H; try discriminate.
    replace a' with a in * by congruence. clear a' Ha'.
    set (w1 := mkWorld _ _) in H. set (a1 := mkLogger (lg_glob a) (lg_exps a ++ lg_exps b) (lg_exp_keys a)
         (lg_result_keys a) (lg_filename a) (lg_exp_results a)) in *.
    assert (Ha1 : nth_error (w_logs w1) i = Some a1) by (eapply nth_error_set_same; eauto).
    assert (Oth : forall q, q <> i -> nth_error (w_logs w1) q = nth_error (w_logs w) q)
      by (intros q Hq; apply nth_error_set_other; assumption).
    destruct (IH w1 a1 w' Ha1 ltac:(intros X; apply Hi; right; exact X) H) as (R & O & K & bs & F & G).
    split; [exact R|]. split; [intros q Hq; rewrite O, Oth by assumption; reflexivity|]. split.
    + intros q c [->|Hq] Hc k.
      * replace c with b by congruence. apply Hk.
      * apply (K q c Hq). rewrite Oth; [assumption|]. intros ->. apply Hi. right. exact Hq.
    + exists (b :: bs). split.
      * constructor; [assumption|]. clear - F Oth Hi. induction F as [|q c js bs Hq F IH]; constructor.
        -- rewrite <- Oth; [assumption|]. intros ->. apply Hi. right. left. reflexivity.
        -- apply IH. intros [->|X]; apply Hi; [left; reflexivity|right; right; exact X].
      * rewrite G. cbn [a1 lg_glob lg_exps lg_exp_keys lg_result_keys lg_filename lg_exp_results flat_map].
        rewrite <- app_assoc. reflexivity.
Qed.

Lemma append_all_result w i (js : list nat) : forall a,
  nth_error (w_logs w) i = Some a -> (forall j, In j js -> nth_error (w_logs w) j <> None) -> ~ In i js ->
  (exists w', append_all w i js = (w', Ok i)) \/
  (exists w', append_all w i js = (w', Err AssertionError) /\
    exists j b, In j js /\ nth_error (w_logs w) j = Some b /\
      ~ (forall k, In k (lg_exp_keys a) <-> In k (lg_exp_keys b))).
Proof.
  revert w. induction js as [|j js IH]; intros w a Ha Hjs Hi.
  - left. exists w. reflexivity.
  - cbn [append_all].
    destruct (append_cases w i j) as [(a' & b & Ha' & Hb & Hk & ->)|[(a' & b & Ha' & Hb & Hk & ->)|[[E|E] ->]]].
    + replace a' with a in * by congruence.
      set (w1 := mkWorld _ _). set (a1 := mkLogger (lg_glob a) (lg_exps a ++ lg_exps b) (lg_exp_keys a)
         (lg_result_keys a) (lg_filename a) (lg_exp_results a)).
      assert (Ha1 : nth_error (w_logs w1) i = Some a1) by (eapply nth_error_set_same; eauto).
      assert (Oth : forall q, q <> i -> nth_error (w_logs w1) q = nth_error (w_logs w) q)
        by (intros q Hq; apply nth_error_set_other; assumption).
      assert (Ni : ~ In i js) by (intros X; apply Hi; right; exact X).
      destruct (IH w1 a1 Ha1) as [(w' & E)|(w' & E & q & c & Hq & Hc & Hn)]; auto.
      * intros q Hq. rewrite Oth by (intros ->; contradiction). apply Hjs. right. exact Hq.
      * left. exists w'. exact E.
      * right. exists w'. split; [exact E|]. exists q, c. split; [right; exact Hq|].
        rewrite Oth in Hc by (intros ->; contradiction). split; [exact Hc|]. exact Hn.
    + replace a' with a in * by congruence. right. exists w. split; [reflexivity|].
      exists j, b. split; [left; reflexivity|]. split; assumption.
    + congruence.
    + exfalso. apply (Hjs j); [left; reflexivity|assumption].
Qed.

Lemma get_values_ok w i l k : wf_world w -> nth_error (w_logs w) i = Some l ->
  exists vs, get_values w i k = Ok vs /\ List.length vs = List.length (lg_exps l) /\
    forall p, p < List.length (lg_exps l) ->
      nth_error vs p = Some (match value_at w i p k with Some v => v | None => VNone end).
Proof.
  intros [W1 W2] Hl. unfold get_values. rewrite (proj2 (get_logger_ok w i l) Hl). cbn [bind].
  unfold value_at. rewrite Hl. destruct (W1 _ _ Hl) as [_ Hr]. revert Hr. generalize (lg_exps l) as rs.
  induction rs as [|r rs IH]; intros Hr.
  - exists []. repeat split. cbn. lia.
  - destruct IH as (vs & E & L & N). { intros q Hq. apply Hr. right. exact Hq. }
    assert (H := Hr r (or_introl eq_refl)).
    destruct (nth_error (w_runs w) r) as [d|] eqn:Ed.
    2: { apply nth_error_None in Ed. exfalso. exact (Nat.lt_irrefl _ (Nat.lt_le_trans _ _ _ H Ed)). }
    exists ((match get d k with Some v => v | None => VNone end) :: vs).
    cbn [mapM]. rewrite (proj2 (get_run_ok w r d) Ed). cbn [bind]. rewrite E. cbn [bind].
    split; [reflexivity|]. split; [cbn; auto|].
    intros [|p] Hp; cbn [nth_error]; [rewrite Ed; reflexivity|]. apply N. cbn in Hp. lia.
Qed.

Theorem merge_spec w i js a : nth_error (w_logs w) i = Some a ->
  (forall j, In j js -> nth_error (w_logs w) j <> None) -> ~ In i js ->
  ((forall j b, In j js -> nth_error (w_logs w) j = Some b ->
      forall k, In k (lg_exp_keys b) <-> In k (lg_exp_keys a)) ->
   exists w' a', merge_experiments w (i :: js) = (w', Ok i) /\
     nth_error (w_logs w') i = Some a' /\
     lg_glob a' = lg_glob a /\ lg_exp_keys a' = lg_exp_keys a /\
     lg_result_keys a' = lg_result_keys a /\ lg_filename a' = lg_filename a /\
     (forall j, j <> i -> nth_error (w_logs w') j = nth_error (w_logs w) j) /\
     (wf_world w -> forall k, exists vss, Forall2 (fun j vs => get_values w j k = Ok vs) (i :: js) vss /\
        get_values w' i k = Ok (List.concat vss))) /\
  ((exists j b, In j js /\ nth_error (w_logs w) j = Some b /\
      ~ (forall k, In k (lg_exp_keys b) <-> In k (lg_exp_keys a))) ->
   exists w', merge_experiments w (i :: js) = (w', Err AssertionError)).
Proof.
  intros Ha Hjs Hi. cbn [merge_experiments]. split.
  - intros Hk. destruct (append_all_result w i js a Ha Hjs Hi) as [(w' & E)|(w' & E & j & b & Hj & Hb & X)].
    2: { exfalso. apply X. intros k. symmetry. eapply Hk; eauto. }
    destruct (exps_after_append w i js a w' Ha Hi E) as (R & O & K & bs & F & G).
    exists w', (mkLogger (lg_glob a) (lg_exps a ++ flat_map (@lg_exps Arr) bs)
      (lg_exp_keys a) (lg_result_keys a) (lg_filename a) (lg_exp_results a)).
    cbn [lg_glob lg_exps lg_exp_keys lg_result_keys lg_filename lg_exp_results].
    split; [exact E|]. split; [exact G|]. repeat (split; [reflexivity|]). split; [exact O|].
    intros W k.
    set (val_of := fun r : nat => (d <- get_run w r ;;
                 Ok (match get d k with Some v => v | None => VNone end))).
    assert (GV : forall j b, nth_error (w_logs w) j = Some b -> get_values w j k = mapM val_of (lg_exps b)).
    { intros j b Hb. unfold get_values. rewrite (proj2 (get_logger_ok w j b) Hb). reflexivity. }
    assert (MA : forall l1 l2, mapM val_of (l1 ++ l2) = (x <- mapM val_of l1 ;; y <- mapM val_of l2 ;; Ok (x ++ y))).
    { induction l1 as [|r l1 IH1]; intros l2; cbn [app mapM bind].
      - destruct (mapM val_of l2); reflexivity.
      - destruct (val_of r); cbn [bind]; [|reflexivity]. rewrite IH1.
        destruct (mapM val_of l1); cbn [bind]; [|reflexivity]. destruct (mapM val_of l2); reflexivity. }
    assert (FB : exists vss, Forall2 (fun j vs => get_values w j k = Ok vs) js vss /\
              mapM val_of (flat_map (@lg_exps Arr) bs) = Ok (List.concat vss)).
    { clear - F GV MA W. induction F as [|j b js bs Hb F IH].
      - exists []. split; [constructor|reflexivity].
      - destruct IH as (vss & A & B). destruct (get_values_ok w j b k W Hb) as (vs & C & _).
        exists (vs :: vss). split; [constructor; assumption|]. cbn [flat_map List.concat].
        rewrite MA, <- (GV j b Hb), C. cbn [bind]. rewrite B. reflexivity. }
    destruct FB as (vss & A & B). destruct (get_values_ok w i a k W Ha) as (vs & C & _).
    exists (vs :: vss). split; [constructor; assumption|].
    unfold get_values. rewrite (proj2 (get_logger_ok w' i _) G). cbn [bind lg_exps].
    assert (VR : forall rs, mapM (fun r : nat => d <- get_run w' r ;;
        Ok match get d k with Some v => v | None => VNone end) rs = mapM val_of rs).
    { induction rs as [|r rs IHr]; [reflexivity|]. cbn [mapM]. rewrite IHr. unfold val_of at 2.
      unfold get_run. rewrite R. reflexivity. }
    rewrite VR, MA, <- (GV i a Ha), C. cbn [bind]. rewrite B. reflexivity.
  - intros (j & b & Hj & Hb & X).
    destruct (append_all_result w i js a Ha Hjs Hi) as [(w' & E)|(w' & E & _)]; [|eauto].
    exfalso. destruct (exps_after_append w i js a w' Ha Hi E) as (R & O & K & _).
    apply X. intros k. symmetry. eapply K; eauto.
Qed.

Theorem store_spec w i l k v : wf_world w -> nth_error (w_logs w) i = Some l ->
  let n := List.length (lg_exps l) in
  (n = 0 -> store w i k v = (w, Err IndexError) /\ store_result w i k v = (w, Err IndexError)) /\
  (0 < n -> (exists x, value_at w i (n - 1) k = Some x) ->
     store w i k v = (w, Err ValueError) /\ store_result w i k v = (w, Err ValueError)) /\
  (0 < n -> value_at w i (n - 1) k = None -> exists w',
     store w i k v = (w', Ok tt) /\ value_at w' i (n - 1) k = Some v /\
     exists w'' l'', store_result w i k v = (w'', Ok tt) /\ value_at w'' i (n - 1) k = Some v /\
       nth_error (w_logs w'') i = Some l'' /\ In k (lg_result_keys l'')).
Proof.
  intros [W1 W2] Hl n.
  assert (ES : store w i k v = match (r <- py_nth (lg_exps l) (-1) ;; d <- get_run w r ;; Ok (l, r, d)) with
     | Err e => (w, Err e)
     | Ok (l, r, d) =>
      match dict_get String.eqb d k with
      | Some _ => (w, Err ValueError)
      | None =>
          let w1 := put_logger w i
            (mkLogger (lg_glob l) (lg_exps l) (set_add (lg_exp_keys l) k)
               (lg_result_keys l) (lg_filename l) (lg_exp_results l)) in
          (put_run w1 r (dict_set String.eqb d k v), Ok tt)
      end end).
  { unfold store. rewrite (proj2 (get_logger_ok w i l) Hl). reflexivity. }
  rewrite py_nth_last in ES. fold n in ES. destruct (W1 _ _ Hl) as [_ Hr].
  assert (V : forall r d, nth_error (lg_exps l) (n - 1) = Some r -> nth_error (w_runs w) r = Some d ->
      forall q, value_at w i (n - 1) q = get d q).
  { intros r d A B q. unfold value_at. rewrite Hl, A, B. reflexivity. }
  split; [|split].
  - intros Hn. assert (E : lg_exps l = []) by (apply length_zero_iff_nil; exact Hn).
    rewrite E in ES. destruct (n - 1); cbn in ES; (split; [exact ES|]; unfold store_result; rewrite ES; reflexivity).
  - intros Hn (x & Hx).
    destruct (nth_error (lg_exps l) (n - 1)) as [r|] eqn:Er.
    2: { apply nth_error_None in Er. fold n in Er. lia. }
    cbn [bind] in ES. unfold get_run in ES.
    destruct (nth_error (w_runs w) r) as [d|] eqn:Ed.
    2: { apply nth_error_None in Ed. exfalso. exact (Nat.lt_irrefl _ (Nat.lt_le_trans _ _ _ (Hr r (nth_error_In _ _ Er)) Ed)). }
    cbn [bind] in ES. rewrite <- (V r d eq_refl Ed k), Hx in ES. split; [exact ES|].
    unfold store_result; rewrite ES; reflexivity.
  - intros Hn Hx.
    destruct (store_cases w i k v) as [(l1 & r & d & Hl1 & Er & Ed & Hk & E)|(e & E)].
    + replace l1 with l in * by congruence. eexists. split; [exact E|]. split.
      * unfold value_at. cbn [w_logs w_runs]. rewrite (nth_error_set_same _ _ _ _ Hl). cbn [lg_exps].
        fold n in Er. rewrite Er, (nth_error_set_same _ _ _ _ Ed), get_set, String.eqb_refl. reflexivity.
      * destruct (store_result_cases w i k v) as [(l2 & r2 & d2 & Hl2 & Er2 & Ed2 & Hk2 & E2)|(e & E2)].
        2: { unfold store_result in E2. rewrite E in E2. cbn [get_logger w_logs] in E2. unfold get_logger in E2. cbn [w_logs] in E2.
             rewrite (nth_error_set_same _ _ _ _ Hl) in E2. discriminate. }
        replace l2 with l in * by congruence. eexists. eexists. split; [exact E2|]. split; [|split].
        -- unfold value_at. cbn [w_logs w_runs]. rewrite (nth_error_set_same _ _ _ _ Hl). cbn [lg_exps].
           fold n in Er2. rewrite Er2, (nth_error_set_same _ _ _ _ Ed2), get_set, String.eqb_refl. reflexivity.
        -- cbn [w_logs]. eapply nth_error_set_same; eauto.
        -- cbn [lg_result_keys]. apply in_set_add. auto.
    + exfalso. destruct (nth_error (lg_exps l) (n - 1)) as [r|] eqn:Er.
      2: { apply nth_error_None in Er. fold n in Er. lia. }
      cbn [bind] in ES. unfold get_run in ES.
      destruct (nth_error (w_runs w) r) as [d|] eqn:Ed.
      2: { apply nth_error_None in Ed. exact (Nat.lt_irrefl _ (Nat.lt_le_trans _ _ _ (Hr r (nth_error_In _ _ Er)) Ed)). }
      cbn [bind] in ES. rewrite <- (V r d eq_refl Ed k), Hx in ES. congruence.
Qed.

Theorem get_last_value_spec w i l k : wf_world w -> nth_error (w_logs w) i = Some l ->
  let n := List.length (lg_exps l) in
  get_last_value w i k =
    if n =? 0 then Err IndexError
    else match value_at w i (n - 1) k with Some v => Ok v | None => Err KeyError end.
Proof.
  intros [W1 W2] Hl n. unfold get_last_value. rewrite (proj2 (get_logger_ok w i l) Hl). cbn [bind].
  rewrite py_nth_last. fold n. destruct (W1 _ _ Hl) as [_ Hr]. unfold value_at. rewrite Hl.
  destruct (Nat.eqb_spec n 0) as [E|Hn].
  - assert (E' : lg_exps l = []) by (apply length_zero_iff_nil; exact E). rewrite E'. destruct (n - 1); reflexivity.
  - destruct (nth_error (lg_exps l) (n - 1)) as [r|] eqn:Er.
    2: { apply nth_error_None in Er. fold n in Er. lia. }
    cbn [bind]. unfold get_run. destruct (nth_error (w_runs w) r) as [d|] eqn:Ed; [reflexivity|].
    apply nth_error_None in Ed. exfalso. exact (Nat.lt_irrefl _ (Nat.lt_le_trans _ _ _ (Hr r (nth_error_In _ _ Er)) Ed)).
Qed.

Theorem store_global_spec w i l k v : nth_error (w_logs w) i = Some l ->
  exists w', store_global w i k v = (w', Ok tt) /\
    (forall k', global_at w' i k' = if String.eqb k k' then Some v else global_at w i k') /\
    (forall j p q, value_at w' j p q = value_at w j p q) /\
    (forall j q, j <> i -> global_at w' j q = global_at w j q).
Proof.
  intros Hl. unfold store_global. rewrite (proj2 (get_logger_ok w i l) Hl). eexists. split; [reflexivity|].
  split; [|split].
  - intros k'. unfold global_at, put_logger. cbn [w_logs]. rewrite (nth_error_set_same _ _ _ _ Hl), Hl.
    cbn [lg_glob]. apply get_set.
  - intros j p q. unfold value_at, put_logger. cbn [w_logs w_runs]. destruct (Nat.eq_dec j i) as [->|n].
    + rewrite (nth_error_set_same _ _ _ _ Hl), Hl. reflexivity.
    + rewrite nth_error_set_other by assumption. reflexivity.
  - intros j q n. unfold global_at, put_logger. cbn [w_logs]. rewrite nth_error_set_other by assumption. reflexivity.
Qed.

End Load.
