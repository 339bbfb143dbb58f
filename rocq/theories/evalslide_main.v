(** * The whole of samples/image_sound_eval_sliding.py. *)

From Coq Require Import List ZArith Reals Lra Bool Arith String QArith Lia.
Import ListNotations.
From Verif Require Import Py Py_proof utils_model logger_model logger_spec nd_model nd_spec sparse_model metrics_model metrics_spec nmf_model nmf_spec
  learner_model learner_spec experiment_model experiment_spec figures_model window_model window_spec hac_model evalslide_model evalslide_spec evalslide_windows evalslide_rows evalslide_proof.
From Verif Require logger_proof logger_load experiment_proof experiment_end experiment_save figures_tables info_keys hacfeat_model.
Open Scope py_scope.
Local Open Scope nat_scope.
Notation length := List.length.
Notation Q := QArith_base.Q.

(** ** Values added to the only run of a log. *)
Lemma store_one (w : world) l r d k v : w_logs w = [l] -> lg_exps l = [r] -> nth_error (w_runs w) r = Some d -> dict_get String.eqb d k = None -> wf_world w -> all_storable w 0 -> storable v ->
  exists w' l', logger_model.store w 0 k v = (w', Ok tt) /\ w_logs w' = [l'] /\ lg_exps l' = [r] /\ lg_filename l' = lg_filename l /\ nth_error (w_runs w') r = Some (dict_set String.eqb d k v) /\
    wf_world w' /\ all_storable w' 0 /\ (forall k', global_at w' 0 k' = global_at w 0 k') /\
    (forall k', value_at w' 0 0 k' = if String.eqb k k' then Some v else value_at w 0 0 k').
Proof.
  intros L E D N W St Sv.
  assert (Es : logger_model.store w 0 k v = (mkWorld (list_set (w_runs w) r (dict_set String.eqb d k v))
      [mkLogger (lg_glob l) [r] (set_add (lg_exp_keys l) k) (lg_result_keys l) (lg_filename l) (lg_exp_results l)], Ok tt)).
  { unfold logger_model.store, get_logger. rewrite L. cbn [nth_error bind]. rewrite logger_proof.py_nth_last, E. cbn [length Nat.sub nth_error bind]. unfold get_run. rewrite D. cbn [bind]. rewrite N, E.
    unfold put_run, put_logger. cbn [w_logs w_runs]. rewrite L, ?E. reflexivity. }
  pose proof (logger_proof.exec_wf w (OStore 0 k v) W) as W'. cbn [exec] in W'. rewrite Es in W'. cbn [fst] in W'.
  eexists. eexists. split; [exact Es|]. cbn [w_logs w_runs lg_exps lg_filename].
  assert (Dr : nth_error (list_set (w_runs w) r (dict_set String.eqb d k v)) r = Some (dict_set String.eqb d k v)) by (eapply logger_proof.nth_error_set_same; exact D).
  assert (Vl : forall k', value_at (mkWorld (list_set (w_runs w) r (dict_set String.eqb d k v))
      [mkLogger (lg_glob l) [r] (set_add (lg_exp_keys l) k) (lg_result_keys l) (lg_filename l) (lg_exp_results l)]) 0 0 k' = if String.eqb k k' then Some v else value_at w 0 0 k').
  { intro k'. unfold value_at. cbn [w_logs nth_error lg_exps w_runs]. rewrite Dr, L. cbn [nth_error]. rewrite E. cbn [nth_error]. rewrite D. apply logger_proof.get_set. }
  split; [reflexivity|]. split; [reflexivity|]. split; [reflexivity|]. split; [exact Dr|]. split; [exact W'|]. split; [|split; [|exact Vl]].
  - destruct St as [S1 S2]. split.
    + intros k' v'. unfold global_at. cbn [w_logs nth_error lg_glob]. intro H. apply (S1 k' v'). unfold global_at. rewrite L. exact H.
    + intros [|q] k' v' H.
      * rewrite Vl in H. destruct (String.eqb k k'); [injection H as <-; exact Sv|exact (S2 0 k' v' H)].
      * unfold value_at in H. cbn [w_logs nth_error lg_exps] in H. destruct q; discriminate.
  - intro k'. unfold global_at. cbn [w_logs nth_error lg_glob]. rewrite L. reflexivity.
Qed.

Lemma array_storable (a : nd) : storable (VArr a).
Proof. exists (VArr a). constructor. Qed.

Lemma not_run_key x k : x_kind x = Two -> In k ["sliding_distances"; "label_ex"]%string -> ~ In k (run_keys x).
Proof.
  intros K I J. unfold run_keys in J. rewrite K in J. cbn [app In] in J. destruct J as [J|[J|[J|J]]]; [subst; cbn in I; intuition discriminate..|].
  unfold two_keys in J. apply in_flat_map in J as ([[[m1 m2] cmp] s] & _ & J). cbn [fst snd In] in J. unfold found_key, score_key in J.
  destruct I as [<-|[<-|[]]]; destruct J as [J|[J|[]]]; discriminate.
Qed.

Section Script.
Context {A F : Type} (zero : F) (wavs : wavfiles string A) (audio : nat -> result string)
  (mfcc : Q * list A -> result (mat F)) (delta : mat F -> nat -> result (mat F)) (vq : mat F -> mat F -> result (list Z)).


(** The regular run. *)
Lemma regular ord rd x p file f : enumerates ord -> match file with Some path => ~ has_suffix path ".npz" | None => True end -> sound x -> legal x rd -> enough x rd -> x_kind x = Two -> x_mode x = Single -> (forall m, In m (x_mods x) -> clean m) ->
  2 <= length (x_mods x) -> prepare rd x = Ok p ->
  exists tr te w f', p_generator p = Ok [(tr, te)] /\ run ord rd x file f = (w, f', Ok tt) /\ (file = None -> f' = f) /\
    run_results x p tr te (value_at w 0 0) /\ (exists rows, print_two w x = (rows, Ok tt)) /\
    (exists l r d, w_logs w = [l] /\ lg_exps l = [r] /\ lg_filename l = file /\ nth_error (w_runs w) r = Some d /\ wf_world w /\ all_storable w 0 /\
       forall k, In k ["sliding_distances"; "label_ex"]%string -> dict_get String.eqb d k = None) /\
    get_value w 0 "sample_pairing" = Ok (VList (map (fun t => VTuple (map (fun i => VInt (Z.of_nat i)) t)) (p_pairing p))) /\
    get_value w 0 "modalities" = Ok (VList (map VStr (x_mods x))).
Proof.
  intros HO Gn Sd G En K Md Cl N2 Ep.
  assert (Kb : x_kind x <> Base) by congruence. assert (K3 : x_kind x = Three -> 3 <= length (x_mods x)) by congruence.
  destruct (experiment_end.run_succeeds rd x file Sd G En Kb Cl K3) as (p' & splits & w & Ep' & Eg & Ns & (Gl & _) & Er & Nr & Rs). assert (p' = p) by congruence. subst p'.
  rewrite Md in Gl. cbn [number_of_runs] in Gl. destruct splits as [|[tr te] [|s2 splits]]; [congruence| |cbn in Gl; lia].
  destruct (figures_tables.two_table rd x file Sd G En K Cl N2) as (p2 & sp2 & w2 & Ep2 & Eg2 & Er2 & rows & Erows & _). assert (w2 = w) by congruence. subst w2.
  destruct (experiment_save.ended_keys rd x file w p [(tr, te)] Er Ns Rs) as (l & L & Fn & W & St & Ks).
  assert (L0 : nth_error (w_logs w) 0 = Some l) by now rewrite L.
  destruct (info_keys.written_some rd x file w _ p _ Er Ep Eg "sample_pairing"%string _ (or_intror (or_intror (or_introl eq_refl)))) as [Gp _].
  destruct (info_keys.written_some rd x file w _ p _ Er Ep Eg "modalities"%string _ (or_introl eq_refl)) as [Gm _].
  assert (Rf : exists r d, lg_exps l = [r] /\ nth_error (w_runs w) r = Some d).
  { unfold runs_of in Nr. rewrite L in Nr. cbn [nth_error option_map length] in Nr. destruct (lg_exps l) as [|r [|r2 rs]] eqn:Ee; [discriminate| |discriminate].
    destruct W as [W1 _]. destruct (W1 0 l L0) as [_ W1']. specialize (W1' r). rewrite Ee in W1'. specialize (W1' (or_introl eq_refl)). exists r.
    destruct (nth_error (w_runs w) r) as [d|] eqn:Ed; [eauto|apply nth_error_None in Ed; lia]. }
  destruct Rf as (r & d & Ee & Ed).
  assert (Dn : forall k, In k ["sliding_distances"; "label_ex"]%string -> dict_get String.eqb d k = None).
  { intros k I. destruct (dict_get String.eqb d k) as [v|] eqn:Ev; [exfalso|reflexivity]. apply (not_run_key x k K I). apply Ks.
    destruct (experiment_save.run_saveable rd x file w _ Er) as (l' & L' & _ & _ & _ & Kk & _). assert (l' = l) by congruence. subst l'. apply Kk. exists 0, v.
    unfold value_at. rewrite L. cbn [nth_error]. rewrite Ee. cbn [nth_error]. rewrite Ed. exact Ev. }
  assert (Sv : exists f', save ord w 0 f = (f', match file with None => Err NoFileError | Some _ => Ok tt end) /\ (file = None -> f' = f)).
  { destruct file as [path|].
    - destruct (logger_load.roundtrip ord w 0 l path f empty_world true HO W logger_proof.empty_wf L0 Fn Gn St) as (f' & w1 & l1 & Es & _). exists f'. split; [exact Es|discriminate].
    - exists f. split; [|reflexivity]. unfold save, save_writes, get_logger. rewrite L. cbn [nth_error bind]. rewrite Fn. reflexivity. }
  destruct Sv as (f' & Es & Fe). exists tr, te, w, f'. split; [exact Eg|]. split; [unfold run; rewrite Er, Es; destruct file; reflexivity|]. split; [exact Fe|].
  split; [exact (Rs 0 tr te eq_refl)|]. split; [eauto|]. split; [|split; [exact Gp|exact Gm]]. exists l, r, d. auto 10.
Qed.

(** The values read from the log of the regular run. *)
Lemma last_value (w : world) l r d k v : w_logs w = [l] -> lg_exps l = [r] -> nth_error (w_runs w) r = Some d -> value_at w 0 0 k = Some v -> get_last_value w 0 k = Ok v.
Proof.
  intros L E D V. unfold value_at in V. rewrite L in V. cbn [nth_error] in V. rewrite E in V. cbn [nth_error] in V. rewrite D in V.
  unfold get_last_value, get_logger. rewrite L. cbn [nth_error bind]. rewrite logger_proof.py_nth_last, E. cbn [length Nat.sub nth_error bind]. unfold get_run. rewrite D. cbn [bind]. rewrite V. reflexivity.
Qed.

(** The values read from a log loaded from the file. *)
Lemma read_json_pairing l v : restored (VList (map (fun t => VTuple (map (fun i => VInt (Z.of_nat i)) t)) l)) v -> read_pairing v = Ok l.
Proof.
  intro H. inversion H as [|? ? J]; subst. inversion J as [| | | | |? l' Fl| |]; subst. unfold read_pairing.
  assert (G : Forall2 (fun t u => read_nats u = Ok t) l l').
  { clear - Fl. revert l' Fl. induction l as [|t l IH]; intros l' Fl; inversion Fl as [|? u ? l2 J F2]; subst; constructor; [|apply IH; assumption].
    inversion J as [| | | | | |? t' Ft|]; subst. unfold read_nats. clear - Ft. revert t' Ft. induction t as [|i t IH]; intros t' Ft; inversion Ft as [|? u ? l2 J F2]; subst; [reflexivity|].
    inversion J; subst. cbn [mapM]. rewrite read_nat_ok. cbn [bind]. rewrite (IH _ F2). reflexivity. }
  clear - G. induction G as [|t u l l' E _ IH]; [reflexivity|]. cbn [mapM]. rewrite E. cbn [bind]. rewrite IH. reflexivity.
Qed.
Lemma read_json_strings l v : restored (VList (map VStr l)) v -> read_strings v = Ok l.
Proof.
  intro H. inversion H as [|? ? J]; subst. inversion J as [| | | | |? l' Fl| |]; subst. unfold read_strings. clear - Fl. revert l' Fl.
  induction l as [|s l IH]; intros l' Fl; inversion Fl as [|? u ? l2 J F2]; subst; [reflexivity|]. inversion J; subst. cbn [mapM bind]. rewrite (IH _ F2). reflexivity.
Qed.
Lemma plot_reads w0 w w' j x (p : prepared) ms : (forall k, global_at w 0 k = global_at w0 0 k) -> NoDup (x_mods x) -> nth_error (x_mods x) ms = Some "sound"%string ->
  get_value w0 0 "sample_pairing" = Ok (VList (map (fun t => VTuple (map (fun i => VInt (Z.of_nat i)) t)) (p_pairing p))) ->
  get_value w0 0 "modalities" = Ok (VList (map VStr (x_mods x))) -> same_contents w 0 w' j ->
  plot_windows wavs audio w' j = ws <- sound_windows wavs audio ms (p_pairing p) ;; sliding_windows wavs ws.
Proof.
  intros Gl N Es Gp Gm (l1 & l' & _ & _ & _ & H & _). apply info_keys.get_value_some in Gp, Gm.
  assert (R : forall k v, global_at w0 0 k = Some v -> exists v', get_value w' j k = Ok v' /\ restored v v').
  { intros k v E. specialize (H k). rewrite Gl, E in H. destruct (global_at w' j k) as [v'|] eqn:E'; [|destruct H]. exists v'. split; [now apply info_keys.get_value_some|exact H]. }
  destruct (R _ _ Gm) as (vm & Em & Rm). destruct (R _ _ Gp) as (vp & Ep & Rp).
  unfold plot_windows. rewrite Em. cbn [bind]. rewrite (read_json_strings _ _ Rm). cbn [bind]. rewrite (index_at _ _ _ N Es). cbn [bind]. rewrite Ep. cbn [bind]. rewrite (read_json_pairing _ _ Rp). reflexivity.
Qed.

Lemma evaluated ord rd draws feat_dir store x p file f ms mo ld cb r (cs : list (list A)) :
  good_run ord rd x p file ms mo -> nth_error (x_loaders x) ms = Some ld ->
  dict_get String.eqb store (hacfeat_model.CODEBOOK_PATH feat_dir) = Some cb ->
  recorded wavs audio p ms (listened x p) r cs -> (10 <= r)%Q -> (1 # 2 <= lasts r (List.concat cs))%Q ->
  described (hac_of zero mfcc delta vq (hacfeat_model.m_codebooks cb)) r (List.concat cs) (cols_of (ld_data ld)) ->
  exists tr te w0 f0 w f' l d n dist,
    p_generator p = Ok [(tr, te)] /\ run ord rd x file f = (w0, f0, Ok tt) /\ run_results x p tr te (value_at w0 0 0) /\
    evaluate_sliding zero wavs audio mfcc delta vq ord rd draws feat_dir store x file f = (w, f', Ok tt) /\
    trained_with x p (samples_of p tr) l d /\ value_at w0 0 0 "dictionary" = Some (VArr d) /\
    number_of_windows (lasts r (List.concat cs)) n /\
    compared (hac_of zero mfcc delta vq (hacfeat_model.m_codebooks cb)) x p l mo (kept_cols x (cols_of (ld_data ld))) r (List.concat cs) n dist /\
    added w0 w [("sliding_distances"%string, VArr dist); ("label_ex"%string, VNats (p_labels_ex p))] /\
    match file with
    | None => f' = f
    | Some path => forall w2 sf, wf_world w2 -> exists w2' j, load w2 f' path sf true = (w2', Ok j) /\ same_contents w 0 w2' j
    end /\
    (exists ws sl, sound_windows wavs audio ms (firstn (listened x p) (p_pairing p)) = Ok ws /\ sliding_windows wavs ws = Ok sl /\ length sl = n) /\
    forall w' j, same_contents w 0 w' j -> plot_windows wavs audio w' j = ws <- sound_windows wavs audio ms (p_pairing p) ;; sliding_windows wavs ws.
Proof.
  intros (HO & Gn & Sd & G & En & K & Md & Cl & Ep & Es & Eo) El Ec Rec R10 Hl Hf.
  assert (N2 : 2 <= length (x_mods x)).
  { assert (ms < length (x_mods x)) by (apply nth_error_Some; congruence). assert (mo < length (x_mods x)) by (apply nth_error_Some; congruence).
    destruct (Nat.eq_dec ms mo) as [->|]; [rewrite Es in Eo; discriminate|lia]. }
  destruct (regular ord rd x p file f HO Gn Sd G En K Md Cl N2 Ep) as (tr & te & w0 & f0 & Eg & Er & Ff & Rs & (rows & Ep2) & (lg & rf & dc & L & Ee & Fn & Dr & W & St & Kn) & Gp & Gm).
  pose proof Rs as (l & d & truth & V1 & V2 & Tl & V3 & Lt & _).
  destruct (distances_ok zero wavs audio mfcc delta vq rd x p Sd G Ep draws feat_dir store w0 te truth tr l d ms mo ld cb r cs) as (n & dist & Ed & Nw & Cm & Pl); auto.
  { exact (last_value _ _ _ _ _ _ L Ee Dr V2). }
  { exact (last_value _ _ _ _ _ _ L Ee Dr V3). }
  destruct (store_one w0 lg rf dc "sliding_distances" (VArr dist) L Ee Dr) as (w1 & l1 & E1 & L1 & Ee1 & Fn1 & D1 & W1 & St1 & G1 & Vl1); auto using array_storable.
  { apply Kn. now left. }
  destruct (store_one w1 l1 rf _ "label_ex" (VNats (p_labels_ex p)) L1 Ee1 D1) as (w2 & l2 & E2 & L2 & Ee2 & Fn2 & D2 & W2 & St2 & G2 & Vl2); auto using experiment_save.nats_storable.
  { rewrite logger_proof.get_set. cbn. apply Kn. right. now left. }
  assert (L20 : nth_error (w_logs w2) 0 = Some l2) by now rewrite L2.
  assert (Ad : added w0 w2 [("sliding_distances"%string, VArr dist); ("label_ex"%string, VNats (p_labels_ex p))]).
  { split; [intro k; rewrite G2; apply G1|]. split; [unfold runs_of; rewrite L2, L; cbn; now rewrite Ee2, Ee|]. intro k. rewrite Vl2, Vl1. cbn [dict_get].
    destruct (String.eqb_spec "label_ex" k) as [<-|]; [reflexivity|]. destruct (String.eqb_spec "sliding_distances" k); reflexivity. }
  assert (Pr : forall w' j, same_contents w2 0 w' j -> plot_windows wavs audio w' j = ws <- sound_windows wavs audio ms (p_pairing p) ;; sliding_windows wavs ws).
  { intros w' j. exact (plot_reads w0 w2 w' j x p ms (proj1 Ad) (proj1 Sd) Es Gp Gm). }
  assert (Ev : forall f' res, save ord w2 0 f0 = (f', res) -> evaluate_sliding zero wavs audio mfcc delta vq ord rd draws feat_dir store x file f = (w2, f', match res with Err NoFileError => Ok tt | r => r end)).
  { intros f' res Sv. unfold evaluate_sliding. rewrite Er, Ep2. cbn [snd bind]. rewrite Ep. cbn [bind]. rewrite Ed. cbn [bind]. rewrite E1. cbn [wbind]. rewrite E2. rewrite Sv. reflexivity. }
  destruct file as [path|].
  - destruct (logger_load.roundtrip ord w2 0 l2 path f0 empty_world true HO W2 logger_proof.empty_wf L20) as (f' & w3 & l3 & Sv & _); [congruence|exact Gn|exact St2|].
    exists tr, te, w0, f0, w2, f', l, d, n, dist. split; [exact Eg|]. split; [exact Er|]. split; [exact Rs|]. split; [exact (Ev _ _ Sv)|]. repeat (split; [assumption|]). split; [|split; [exact Pl|exact Pr]].
    intros v2 sf Wv. destruct (logger_load.roundtrip ord w2 0 l2 path f0 v2 sf HO W2 Wv L20) as (f2 & v3 & l4 & Sv2 & Lo & _ & Sm & _); [congruence|exact Gn|exact St2|].
    assert (f2 = f') as -> by congruence. eauto.
  - assert (Sv : save ord w2 0 f0 = (f0, Err NoFileError)). { unfold save, save_writes, get_logger. rewrite L2. cbn [nth_error bind]. rewrite Fn2, Fn1, Fn. reflexivity. }
    exists tr, te, w0, f0, w2, f0, l, d, n, dist. split; [exact Eg|]. split; [exact Er|]. split; [exact Rs|]. split; [exact (Ev _ _ Sv)|]. repeat (split; [assumption|]). split; [exact (Ff eq_refl)|split; [exact Pl|exact Pr]].
Qed.

Lemma two_mods x ms mo : nth_error (x_mods x) ms = Some "sound"%string -> nth_error (x_mods x) mo = Some "objects"%string -> 2 <= length (x_mods x).
Proof.
  intros Es Eo. assert (ms < length (x_mods x)) by (apply nth_error_Some; congruence). assert (mo < length (x_mods x)) by (apply nth_error_Some; congruence).
  destruct (Nat.eq_dec ms mo) as [->|]; [rewrite Es in Eo; discriminate|lia].
Qed.

(** The windows of the plots. *)
Lemma plot_rows ord rd draws feat_dir store x p file f ms mo ld cb r (cs : list (list A)) :
  good_run ord rd x p file ms mo -> nth_error (x_loaders x) ms = Some ld ->
  dict_get String.eqb store (hacfeat_model.CODEBOOK_PATH feat_dir) = Some cb ->
  recorded wavs audio p ms (listened x p) r cs -> (10 <= r)%Q -> (1 # 2 <= lasts r (List.concat cs))%Q ->
  described (hac_of zero mfcc delta vq (hacfeat_model.m_codebooks cb)) r (List.concat cs) (cols_of (ld_data ld)) ->
  exists w f' dist rows, evaluate_sliding zero wavs audio mfcc delta vq ord rd draws feat_dir store x file f = (w, f', Ok tt) /\
    value_at w 0 0 "sliding_distances" = Some (VArr dist) /\ shape dist = [rows; length (p_examples p)] /\
    (x_debug x = false -> forall w' j, same_contents w 0 w' j -> exists sl, plot_windows wavs audio w' j = Ok sl /\ length sl = rows) /\
    forall all, recorded wavs audio p ms (length (p_pairing p)) r all -> (lasts r (List.concat cs) + (1 # 10) + slack <= lasts r (List.concat all))%Q ->
      forall w' j, same_contents w 0 w' j -> exists sl, plot_windows wavs audio w' j = Ok sl /\ rows < length sl.
Proof.
  intros Gr El Ec Rec R10 Hl Hf.
  destruct (evaluated ord rd draws feat_dir store x p file f ms mo ld cb r cs Gr El Ec Rec R10 Hl Hf) as (tr & te & w0 & f0 & w & f' & l & d & n & dist & _ & _ & _ & Ev & _ & _ & Nw & Cm & (_ & _ & Ad) & _ & (ws & sl & Ew & Es & Ls) & Pr).
  destruct Cm as (X & hs & es & rnd & _ & _ & _ & _ & _ & Sh & _).
  exists w, f', dist, n. split; [exact Ev|]. split; [rewrite Ad; reflexivity|]. split; [exact Sh|]. split.
  - intros Db w' j Sm. exists sl. split; [|auto]. unfold listened in Ew. rewrite Db, firstn_all in Ew. rewrite (Pr w' j Sm), Ew. exact Es.
  - intros all Ra Ha w' j Sm. destruct Gr as (_ & _ & Sd & G & _ & _ & _ & _ & Ep & Em & _).
    assert (H12 : (1 # 2 <= lasts r (List.concat all))%Q) by (apply Qle_trans with (lasts r (List.concat cs)); [exact Hl|]; unfold slack in Ha; Lqa.lra).
    destruct (windows_of wavs audio rd x p Sd G Ep (length (p_pairing p)) ms r all) as (ws2 & sl2 & Ew2 & Es2 & N2); auto; [apply nth_error_Some; congruence|].
    rewrite firstn_all in Ew2. exists sl2. split; [rewrite (Pr w' j Sm), Ew2; exact Es2|]. apply N2.
    destruct n as [|n]; [apply Qle_trans with (1 # 2)%Q; [unfold end_of, begin_of; vm_compute; discriminate|exact H12]|]. destruct Nw as [_ N1]. specialize (N1 n (Nat.lt_succ_diag_r n)).
    assert (E : (end_of (S n) == end_of n + (1 # 10))%Q). { unfold end_of, begin_of. rewrite Nat2Z.inj_succ. unfold Z.succ. rewrite inject_Z_plus. field. }
    rewrite E. unfold slack in *. Lqa.lra.
Qed.

(** What happens when the distances cannot be computed. *)
Lemma refused ord rd draws feat_dir store x p file f ms mo cb e :
  good_run ord rd x p file ms mo -> dict_get String.eqb store (hacfeat_model.CODEBOOK_PATH feat_dir) = Some cb ->
  (forall w te truth d, get_last_value w 0 "test" = Ok (VNats te) -> labels_of p te truth -> get_last_value w 0 "dictionary" = Ok (VArr d) ->
     get_value w 0 "sample_pairing" = Ok (VList (map (fun t => VTuple (map (fun i => VInt (Z.of_nat i)) t)) (p_pairing p))) ->
     sliding_distances zero wavs audio mfcc delta vq draws feat_dir store x p w = Err e) ->
  exists w0 f0, run ord rd x file f = (w0, f0, Ok tt) /\ evaluate_sliding zero wavs audio mfcc delta vq ord rd draws feat_dir store x file f = (w0, f0, Err e).
Proof.
  intros (HO & Gn & Sd & G & En & K & Md & Cl & Ep & Es & Eo) Ec H. pose proof (two_mods x ms mo Es Eo) as N2.
  destruct (regular ord rd x p file f HO Gn Sd G En K Md Cl N2 Ep) as (tr & te & w0 & f0 & Eg & Er & Ff & Rs & (rows & Ep2) & (lg & rf & dc & L & Ee & Fn & Dr & W & St & Kn) & Gp & Gm).
  pose proof Rs as (l & d & truth & V1 & V2 & Tl & V3 & Lt & _). exists w0, f0. split; [exact Er|]. unfold evaluate_sliding. rewrite Er, Ep2. cbn [snd bind]. rewrite Ep. cbn [bind].
  rewrite (H w0 te truth d); auto.
  - exact (last_value _ _ _ _ _ _ L Ee Dr V2).
  - exact (last_value _ _ _ _ _ _ L Ee Dr V3).
Qed.
Lemma refused_short ord rd draws feat_dir store x p file f ms mo cb r (cs : list (list A)) :
  good_run ord rd x p file ms mo -> dict_get String.eqb store (hacfeat_model.CODEBOOK_PATH feat_dir) = Some cb ->
  recorded wavs audio p ms (listened x p) r cs -> (0 < r)%Q -> cs <> [] -> (lasts r (List.concat cs) + slack < 1 # 2)%Q ->
  exists w0 f0, run ord rd x file f = (w0, f0, Ok tt) /\ evaluate_sliding zero wavs audio mfcc delta vq ord rd draws feat_dir store x file f = (w0, f0, Err ValueError).
Proof.
  intros Gr Ec Rec R0 Nc Hs. apply (refused ord rd draws feat_dir store x p file f ms mo cb ValueError Gr Ec). intros w te truth d Gt Lt Gd Gp.
  destruct Gr as (_ & _ & Sd & G & _ & _ & _ & _ & Ep & Es & Eo). eapply too_short; eauto.
Qed.
Lemma refused_features ord rd draws feat_dir store x p file f ms mo ld cb r (cs : list (list A)) D :
  good_run ord rd x p file ms mo -> nth_error (x_loaders x) ms = Some ld -> dict_get String.eqb store (hacfeat_model.CODEBOOK_PATH feat_dir) = Some cb ->
  recorded wavs audio p ms (listened x p) r cs -> (10 <= r)%Q -> (1 # 2 <= lasts r (List.concat cs))%Q ->
  described (hac_of zero mfcc delta vq (hacfeat_model.m_codebooks cb)) r (List.concat cs) D ->
  (if x_debug x then D < Nat.min 11 (cols_of (ld_data ld)) else D <> cols_of (ld_data ld)) ->
  exists w0 f0, run ord rd x file f = (w0, f0, Ok tt) /\ evaluate_sliding zero wavs audio mfcc delta vq ord rd draws feat_dir store x file f = (w0, f0, Err AssertionError).
Proof.
  intros Gr El Ec Rec R10 Hl Hf HD. apply (refused ord rd draws feat_dir store x p file f ms mo cb AssertionError Gr Ec). intros w te truth d Gt Lt Gd Gp.
  destruct Gr as (_ & _ & Sd & G & _ & _ & _ & _ & Ep & Es & Eo). eapply other_features; eauto.
Qed.
(** No file of codebooks. *)
Lemma no_codebooks ord rd draws feat_dir store x file f : dict_get String.eqb store (hacfeat_model.CODEBOOK_PATH feat_dir) = None ->
  forall w f' u, evaluate_sliding zero wavs audio mfcc delta vq ord rd draws feat_dir store x file f = (w, f', u) -> u <> Ok tt.
Proof.
  intros Ec w f' u E. unfold evaluate_sliding in E. destruct (run ord rd x file f) as [[w1 f1] [u1|e1]]; [|injection E as <- <- <-; discriminate].
  destruct (snd (print_two w1 x)) as [|]; cbn [bind] in E; [|injection E as <- <- <-; discriminate].
  destruct (prepare rd x) as [p|]; cbn [bind] in E; [|injection E as <- <- <-; discriminate].
  assert (N : exists e, sliding_distances zero wavs audio mfcc delta vq draws feat_dir store x p w1 = Err e).
  { assert (Lc : load_codebooks feat_dir store = Err IOError) by (unfold load_codebooks; rewrite Ec; reflexivity).
    unfold sliding_distances. rewrite Lc. cbv zeta. repeat (match goal with |- exists e, bind ?r _ = Err e => destruct r; cbn [bind]; [|eauto] end). all: try eauto.
  }
  destruct N as (e & N). rewrite N in E. cbn [bind] in E. injection E as <- <- <-. discriminate.
Qed.
End Script.
