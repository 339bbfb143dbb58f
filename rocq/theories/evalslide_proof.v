(** * What samples/image_sound_eval_sliding.py computes. *)

From Coq Require Import List ZArith Reals Lra Bool Arith String QArith Lia.
Import ListNotations.
From Verif Require Import Py Py_proof utils_model logger_model logger_spec nd_model nd_spec sparse_model metrics_model metrics_spec nmf_model nmf_spec
  learner_model learner_spec experiment_model experiment_spec figures_model window_model window_spec hac_model evalslide_model evalslide_spec evalslide_windows evalslide_rows.
From Verif Require logger_proof logger_load learner_proof learner_more experiment_proof experiment_run experiment_end experiment_save experiment_ready experiment_coefs
  figures_proof figures_tables info_keys pairing_proof metrics_more stack_model hacfeat_model window_concat window_sampled transf_joints.
Open Scope py_scope.
Local Open Scope nat_scope.
Notation length := List.length.
Notation Q := QArith_base.Q.

(** ** Values of the log. *)
Lemma read_nat_ok i : read_nat (VInt (Z.of_nat i)) = Ok i.
Proof. unfold read_nat. rewrite (proj2 (Z.ltb_ge _ _)) by lia. now rewrite Nat2Z.id. Qed.
Lemma mapM_map {A B C} (f : B -> result C) (g : A -> B) (h : A -> C) l : (forall a, f (g a) = Ok (h a)) -> mapM f (map g l) = Ok (map h l).
Proof. intro H. induction l as [|a l IH]; cbn [map mapM]; [reflexivity|]. rewrite H. cbn [bind]. rewrite IH. reflexivity. Qed.
Lemma read_nats_ok l : read_nats (VNats l) = Ok l /\ read_nats (VTuple (map (fun i => VInt (Z.of_nat i)) l)) = Ok l.
Proof.
  unfold read_nats, VNats. rewrite (mapM_map read_nat (fun i => VInt (Z.of_nat i)) (fun i => i)) by apply read_nat_ok. now rewrite map_id.
Qed.
Lemma read_pairing_ok (l : list (list nat)) : read_pairing (VList (map (fun t => VTuple (map (fun i => VInt (Z.of_nat i)) t)) l)) = Ok l.
Proof.
  unfold read_pairing. rewrite (mapM_map read_nats (fun t => VTuple (map (fun i => VInt (Z.of_nat i)) t)) (fun t => t)); [now rewrite map_id|]. intro t. apply read_nats_ok.
Qed.
Lemma first_ten_eq {B} debug (l : list B) : first_ten debug l = if debug then firstn 10 l else l.
Proof. unfold first_ten. destruct debug; auto. exact (slice_to_nonneg l 10). Qed.
Lemma index_at l s i : NoDup l -> nth_error l i = Some s -> list_index String.eqb l s 0 = Ok i.
Proof. intros N E. exact (learner_proof.index_from_ok s l 0 i E N). Qed.

Section Script.
Context {A F : Type} (zero : F) (wavs : wavfiles string A) (audio : nat -> result string)
  (mfcc : Q * list A -> result (mat F)) (delta : mat F -> nat -> result (mat F)) (vq : mat F -> mat F -> result (list Z)).
Notation leaf := (leaf nat A string).

Section Prepared.
Context (rd : random) (x : experiment) (p : prepared) (Sd : sound x) (G : legal x rd) (Ep : prepare rd x = Ok p).

(** ** The windows of the recordings. *)
Lemma listened_le : listened x p <= length (p_pairing p).
Proof using Type. unfold listened. destruct (x_debug x); lia. Qed.
Lemma heard_tuples : first_ten (x_debug x) (p_pairing p) = firstn (listened x p) (p_pairing p).
Proof using Type.
  rewrite first_ten_eq. unfold listened. destruct (x_debug x); [|now rewrite firstn_all]. destruct (Nat.min_spec 10 (length (p_pairing p))) as [[H E]|[H E]]; rewrite E; [reflexivity|].
  now rewrite firstn_all, firstn_all2 by exact H.
Qed.

Section Tuples.
Context (n : nat) (Hn : n <= length (p_pairing p)).
Lemma heard_length : length (firstn n (p_pairing p)) = n.
Proof using Hn. rewrite firstn_length. lia. Qed.
Lemma heard_nth t : t < n -> nth_error (firstn n (p_pairing p)) t = nth_error (p_pairing p) t.
Proof using Hn. intro H. rewrite <- (firstn_skipn n (p_pairing p)) at 2. rewrite nth_error_app1; auto. rewrite heard_length. exact H. Qed.

Lemma sources m : m < length (x_mods x) -> mapM (fun t => py_nth t (Z.of_nat m)) (firstn n (p_pairing p)) = Ok (map (source p m) (seq 0 n)).
Proof using Sd G Ep Hn.
  intro Hm. assert (Lm : m < length (x_loaders x)) by (rewrite (experiment_run.n_mods x Sd); exact Hm).
  destruct (experiment_proof.prepare_inv _ _ _ Ep) as [B].
  destruct (experiment_ready.mapM_exists (fun t => py_nth t (Z.of_nat m)) (firstn n (p_pairing p))) as (l & El).
  { intros t I. apply In_nth_error in I as (i & Ei). assert (Hi : i < n) by (rewrite <- heard_length; apply nth_error_Some; congruence).
    rewrite heard_nth in Ei by exact Hi. destruct (experiment_proof.tuple_at rd x p G B i) as (tup & Et & Lt); [lia|].
    assert (tup = t) by congruence. subst. exists (source p m i). apply experiment_proof.py_nth_nat_ok. exact (experiment_proof.source_at x p i t m Et Lt Lm). }
  rewrite El. f_equal. pose proof (mapM_length _ _ _ El) as L. rewrite heard_length in L. apply mapM_ok in El.
  apply figures_proof.nth_error_same. intro i. destruct (Nat.lt_ge_cases i n) as [Hi|Hi].
  - rewrite nth_error_map. rewrite (nth_error_nth' (seq 0 n) 0) by now rewrite seq_length. rewrite seq_nth by exact Hi. cbn [option_map Nat.add].
    destruct (experiment_proof.tuple_at rd x p G B i) as (tup & Et & Lt); [lia|]. rewrite <- heard_nth in Et by exact Hi.
    destruct (pairing_proof.Forall2_nth _ _ _ El i tup Et) as (a & Ea & Ha). rewrite Ea. rewrite heard_nth in Et by exact Hi.
    apply experiment_proof.py_nth_nat_ok in Ha. rewrite (experiment_proof.source_at x p i tup m Et Lt Lm) in Ha. congruence.
  - rewrite (proj2 (nth_error_None _ _)) by lia. symmetry. apply nth_error_None. rewrite map_length, seq_length. lia.
Qed.

(** The windows of the numbers and of the labels. *)
Lemma index_windows_ok m (ws : list leaf) hi : m < length (x_mods x) -> length ws = n -> ws <> [] -> tiles 0 (map window_concat.span ws) hi ->
  exists idx, index_windows m (firstn n (p_pairing p)) ws = Ok idx /\ forall labels, exists lw, label_windows wavs idx labels = Ok lw /\ length lw = length ws.
Proof using Sd G Ep Hn.
  intros Hm L N T. pose proof (sources m Hm) as Es. apply mapM_ok in Es.
  set (f := fun (q : list nat * leaf) => i <- py_nth (fst q) (Z.of_nat m) ;; Ok (LB (Basic (w_start (snd q)) (w_end (snd q)) (Some i))) : result leaf).
  assert (H : forall ts is (ws : list leaf) , Forall2 (fun t i => py_nth t (Z.of_nat m) = Ok i) ts is -> length ws = length ts ->
    exists idx, mapM f (combine ts ws) = Ok idx /\ map window_concat.span idx = map window_concat.span ws /\ Forall (fun w => exists b, w = LB b) idx).
  { clear. intros ts is ws H. revert ws. induction H as [|t i ts is E H IH]; intros [|w ws] L; try discriminate; cbn [combine mapM].
    - exists []. auto.
    - destruct (IH ws) as (idx & Ei & Sp & Fb); [cbn in L; lia|]. unfold f at 1. cbn [fst snd]. rewrite E. cbn [bind]. rewrite Ei. cbn [bind]. eexists. split; [reflexivity|].
      split; [cbn [map]; rewrite Sp; reflexivity|constructor; eauto]. }
  destruct (H (firstn n (p_pairing p)) _ ws Es) as (idx & Ei & Sp & Fb); [rewrite heard_length; exact L|].
  assert (Ln : length idx = length ws) by (rewrite <- (map_length window_concat.span idx), Sp; apply map_length).
  assert (Ni : idx <> []) by (intro; subst; destruct ws; [congruence|discriminate]).
  assert (Ec : new_concat idx = Ok idx) by (apply (window_concat.tiles_ok 0 idx hi Ni); rewrite Sp; exact T).
  exists idx. split; [unfold index_windows; fold f; rewrite Ei; exact Ec|]. intro labels.
  assert (Cp : mapM (copy wavs) idx = Ok idx). { clear -Fb. induction Fb as [|w idx (b & ->) _ IH]; cbn [mapM copy bind]; [reflexivity|]. rewrite IH. reflexivity. }
  unfold label_windows, concat_copy. rewrite Cp. cbn [bind]. rewrite Ec. cbn [bind]. eexists. split; [reflexivity|]. rewrite <- Ln. clear. revert labels. induction idx as [|w idx IH]; intros [|l labels]; cbn; auto.
Qed.

Lemma sounds_ok m r (cs : list (list A)) : m < length (x_mods x) -> recorded wavs audio p m n r cs -> (0 < r)%Q -> cs <> [] ->
  exists (ws : list leaf) xs hi, sound_windows wavs audio m (firstn n (p_pairing p)) = Ok ws /\ window_sampled.tracks wavs r ws xs /\ tiles 0 (map window_concat.span ws) hi /\ ws <> [] /\
    length ws = n /\ window_sampled.data_of xs = List.concat cs /\ (hi == lasts r (List.concat cs))%Q.
Proof using Sd G Ep Hn.
  intros Hm Rec Rp N. pose proof (sources m Hm) as Es.
  assert (P : exists paths, mapM audio (map (source p m) (seq 0 n)) = Ok paths /\ Forall2 (fun path c => wavs path = Ok (r, c)) paths cs).
  { clear Es N. unfold recorded in Rec. induction Rec as [|t c ts cs (path & E1 & E2) Rec (paths & E & Fp)]; cbn [map mapM]; [exists []; auto|].
    rewrite E1. cbn [bind]. rewrite E. cbn [bind]. exists (path :: paths). auto. }
  destruct P as (paths & Epa & Fp). destruct (recordings_ok wavs paths cs r Rp N Fp) as (ws & xs & hi & E & Tr & T & Nw & L & D & H).
  exists ws, xs, hi. split; [|repeat (split; [assumption|]); split; [|auto]].
  - unfold sound_windows. assert (Em : mapM (fun t => i <- py_nth t (Z.of_nat m) ;; audio i) (firstn n (p_pairing p)) = Ok paths); [|now rewrite Em].
    clear -Es Epa. revert Es Epa. generalize (map (source p m) (seq 0 n)). generalize (firstn n (p_pairing p)). intros ts. revert paths. induction ts as [|t ts IH]; intros paths is Es Epa; cbn [mapM] in *.
    + injection Es as <-. exact Epa.
    + destruct (py_nth t (Z.of_nat m)) as [i|]; [|discriminate]. cbn [bind] in *. apply bind_ok in Es as (is' & Es & Ei). injection Ei as <-. cbn [mapM] in Epa.
      apply bind_ok in Epa as (pa & E1 & Epa). rewrite E1. cbn [bind]. apply bind_ok in Epa as (pas & E2 & Epa). injection Epa as <-. rewrite (IH pas is' Es E2). reflexivity.
  - rewrite L. apply mapM_length in Epa. rewrite Epa, map_length, seq_length. reflexivity.
Qed.

End Tuples.

(** The matrix of the features of the windows, of any number. *)
Lemma features_any (debug : bool) n c (r : Q) (all : list A) (sl : list (list leaf)) D : sl <> [] ->
  (forall i w, nth_error sl i = Some w -> exists Z, concat_to_array wavs w = Ok Z /\ a_rate Z = r /\ heard r all i (a_data Z)) ->
  (forall i s, i < length sl -> heard r all i s -> exists v, hac_of zero mfcc delta vq c (r, s) = Ok v /\ length v = D) ->
  exists X, test_matrix zero wavs mfcc delta vq debug n c sl = Ok X /\ fits (length sl) (if debug then Nat.min n D else D) X.
Proof using Type.
  intros N Hw Hf.
  assert (V : exists vs, Forall2 (fun w v => process_win zero wavs mfcc delta vq c w = Ok (row_matrix v) /\ length v = D) sl vs).
  { apply experiment_run.forall2_exists. intros w I. apply In_nth_error in I as (i & E). destruct (Hw i w E) as (Z & E1 & E2 & E3). destruct (Hf i (a_data Z)) as (v & E4 & E5); [apply nth_error_Some; congruence|exact E3|].
    exists v. split; [|exact E5]. unfold process_win. rewrite E1. cbn [bind]. rewrite E2, E4. reflexivity. }
  destruct V as (vs & Fv). assert (Lv : length vs = length sl) by (clear -Fv; induction Fv; cbn; auto).
  assert (Em : mapM (process_win zero wavs mfcc delta vq c) sl = Ok (map row_matrix vs)).
  { apply mapM_ok. clear -Fv. induction Fv as [|w v sl vs (E & _) Fv IH]; cbn; constructor; auto. }
  destruct (rows_stacked vs D) as (X & EX & FX & VX); [destruct vs; [destruct sl; [congruence|discriminate]|discriminate]| |].
  { intros v I. clear -Fv I. induction Fv as [|w v' sl vs (_ & E) Fv IH]; [destruct I|]. destruct I as [<-|I]; auto. }
  unfold test_matrix. rewrite Em. cbn [bind]. rewrite EX. cbn [bind]. eexists. split; [reflexivity|]. rewrite Lv in FX. destruct debug; [apply first_cols_fits|]; exact FX.
Qed.
(** The matrix of the features of the windows. *)
Lemma features_ok (debug : bool) n c (r : Q) (all : list A) (sl : list (list leaf)) D : sl <> [] ->
  (forall i w, nth_error sl i = Some w -> exists Z, concat_to_array wavs w = Ok Z /\ a_rate Z = r /\ heard r all i (a_data Z)) ->
  (forall i s, i < length sl -> heard r all i s -> exists v, hac_of zero mfcc delta vq c (r, s) = Ok v /\ length v = D) -> (n = if debug then Nat.min n D else D) ->
  exists X, test_matrix zero wavs mfcc delta vq debug n c sl = Ok X /\ nonneg (mvalue X) /\ window_rows (hac_of zero mfcc delta vq c) r all (length sl) n X.
Proof using Type.
  intros N Hw Hf En.
  assert (V : exists vs, Forall2 (fun w v => process_win zero wavs mfcc delta vq c w = Ok (row_matrix v) /\ length v = D) sl vs /\
    forall i v, nth_error vs i = Some v -> exists s, heard r all i s /\ hac_of zero mfcc delta vq c (r, s) = Ok v).
  { assert (W1 : forall i w, nth_error sl i = Some w -> exists v s, (process_win zero wavs mfcc delta vq c w = Ok (row_matrix v) /\ length v = D) /\ heard r all i s /\ hac_of zero mfcc delta vq c (r, s) = Ok v).
    { intros i w E. destruct (Hw i w E) as (Z & E1 & E2 & E3). destruct (Hf i (a_data Z)) as (v & E4 & E5); [apply nth_error_Some; congruence|exact E3|].
      exists v, (a_data Z). split; [split; [|exact E5]|auto]. unfold process_win. rewrite E1. cbn [bind]. rewrite E2, E4. reflexivity. }
    clear -W1. assert (H : forall sl k, (forall i w, nth_error sl i = Some w -> exists v s, (process_win zero wavs mfcc delta vq c w = Ok (row_matrix v) /\ length v = D) /\ heard r all (k + i) s /\ hac_of zero mfcc delta vq c (r, s) = Ok v) ->
      exists vs, Forall2 (fun w v => process_win zero wavs mfcc delta vq c w = Ok (row_matrix v) /\ length v = D) sl vs /\
      forall i v, nth_error vs i = Some v -> exists s, heard r all (k + i) s /\ hac_of zero mfcc delta vq c (r, s) = Ok v).
    { clear. induction sl as [|w sl IH]; intros k H.
      - exists []. split; [constructor|]. intros [|i] v E; discriminate.
      - destruct (H 0 w eq_refl) as (v & s & H1 & H2 & H3). destruct (IH (S k)) as (vs & Fv & Hv). { intros i w' E. destruct (H (S i) w' E) as (v' & s' & H'). exists v', s'. now rewrite Nat.add_succ_comm. }
        exists (v :: vs). split; [constructor; auto|]. intros [|i] v' E; cbn in E; [injection E as <-; eauto|]. destruct (Hv i v' E) as (s' & E1 & E2). exists s'. now rewrite <- Nat.add_succ_comm. }
    exact (H sl 0 W1). }
  destruct V as (vs & Fv & Hs).
  assert (Lv : length vs = length sl) by (clear -Fv; induction Fv; cbn; auto).
  assert (Em : mapM (process_win zero wavs mfcc delta vq c) sl = Ok (map row_matrix vs)).
  { apply mapM_ok. clear -Fv. induction Fv as [|w v sl vs (E & _) Fv IH]; cbn; constructor; auto. }
  destruct (rows_stacked vs D) as (X & EX & FX & VX); [destruct vs; [destruct sl; [congruence|discriminate]|discriminate]| |].
  { intros v I. clear -Fv I. induction Fv as [|w v' sl vs (_ & E) Fv IH]; [destruct I|]. destruct I as [<-|I]; auto. }
  unfold test_matrix. rewrite Em. cbn [bind]. rewrite EX. cbn [bind].
  set (Y := if debug then first_cols n X else X). exists Y. split; [reflexivity|].
  assert (FY : fits (length vs) n Y /\ forall i j, i < length vs -> j < n -> el (mvalue Y) [i; j] = el (mvalue X) [i; j]).
  { unfold Y. destruct debug; [|rewrite <- En in FX; auto]. destruct (first_cols_fits (length vs) D n X FX) as [F1 F2]. rewrite <- En in F1, F2. auto. }
  destruct FY as [FY VY]. assert (Ln : n <= D) by (destruct debug; lia).
  assert (V : forall i j, i < length vs -> j < n -> el (mvalue Y) [i; j] = INR (nth j (nth i vs []) 0)).
  { intros i j Hi Hj. rewrite VY by assumption. apply VX; [now apply nth_error_nth'|lia]. }
  split; [exact (window_nonneg _ _ _ (fun i j => nth j (nth i vs []) 0) FY V)|]. rewrite <- Lv. split; [exact FY|].
  intros i Hi. destruct (nth_error vs i) as [v|] eqn:Ev; [|apply nth_error_None in Ev; lia]. destruct (Hs i v Ev) as (s & H1 & H2). exists s, v. split; [exact H1|]. split; [exact H2|].
  intros j Hj. rewrite V by assumption. now rewrite (nth_error_nth vs i [] Ev).
Qed.

(** ** The learner. *)
Lemma same_learner samples l d : trained_with x p samples l d ->
  l = Learner (x_mods x) (map cols_of (p_data p)) (p_coefs p) (x_k x) false (Some d).
Proof using Type.
  intros (rnd & ys & _ & Et & Ed & _). unfold train in Et. destruct (match ys with [] => _ | _ :: _ => _ end) as [o|e]; [|discriminate].
  injection Et as Et. rewrite <- Et in Ed. cbn [dico] in Ed. subst o. rewrite <- Et. reflexivity.
Qed.

Lemma distances_ok draws feat_dir store w te truth tr l d ms mo ld cb r (cs : list (list A)) :
  get_last_value w 0 "test" = Ok (VNats te) -> labels_of p te truth -> get_last_value w 0 "dictionary" = Ok (VArr d) ->
  get_value w 0 "sample_pairing" = Ok (VList (map (fun t => VTuple (map (fun i => VInt (Z.of_nat i)) t)) (p_pairing p))) ->
  trained_with x p (samples_of p tr) l d ->
  nth_error (x_mods x) ms = Some "sound"%string -> nth_error (x_mods x) mo = Some "objects"%string -> nth_error (x_loaders x) ms = Some ld ->
  dict_get String.eqb store (hacfeat_model.CODEBOOK_PATH feat_dir) = Some cb ->
  recorded wavs audio p ms (listened x p) r cs -> (10 <= r)%Q -> (1 # 2 <= lasts r (List.concat cs))%Q ->
  described (hac_of zero mfcc delta vq (hacfeat_model.m_codebooks cb)) r (List.concat cs) (cols_of (ld_data ld)) ->
  exists n dist, sliding_distances zero wavs audio mfcc delta vq draws feat_dir store x p w = Ok dist /\ number_of_windows (lasts r (List.concat cs)) n /\
    compared (hac_of zero mfcc delta vq (hacfeat_model.m_codebooks cb)) x p l mo (kept_cols x (cols_of (ld_data ld))) r (List.concat cs) n dist /\
    exists ws sl, sound_windows wavs audio ms (firstn (listened x p) (p_pairing p)) = Ok ws /\ sliding_windows wavs ws = Ok sl /\ length sl = n.
Proof using Sd G Ep.
  intros Gt Lt Gd Gp Tl Es Eo El Ec Rec R10 Hl Hf.
  destruct (experiment_proof.prepare_inv _ _ _ Ep) as [B].
  pose proof Sd as (Nm & _ & _ & _ & _ & _ & Hk & _ & Hi).
  assert (Hms : ms < length (x_mods x)) by (apply nth_error_Some; congruence).
  assert (Hmo : mo < length (x_mods x)) by (apply nth_error_Some; congruence).
  assert (R0 : (0 < r)%Q) by (apply Qlt_le_trans with (10#1)%Q; [reflexivity|exact R10]).
  assert (Nc : cs <> []). { intro; subst. unfold lasts in Hl. cbn in Hl. unfold Qdiv in Hl. rewrite Qmult_0_l in Hl. apply Qle_not_lt in Hl. apply Hl. reflexivity. }
  destruct (sounds_ok (listened x p) listened_le ms r cs Hms Rec R0 Nc) as (ws & xs & hi & Ew & Tr & T & Nw & Lw & D & Eh).
  destruct (index_windows_ok (listened x p) listened_le ms ws hi Hms Lw Nw T) as (idx & Ei & Elw).
  assert (Hhi : (1 # 2 <= hi)%Q) by (rewrite Eh; exact Hl).
  destruct (sliding_ok wavs r ws xs hi R10 Nw Tr T) as (sl & Esl & Nsl & Hsl); [rewrite D; exact Eh|exact Hhi|]. rewrite D in Nsl, Hsl.
  assert (N0 : sl <> []). { destruct Nsl as [N1 _]. assert (H0 : (end_of 0 <= lasts r (List.concat cs))%Q) by (apply Qle_trans with (1 # 2)%Q; [discriminate|exact Hl]). specialize (N1 0 H0). destruct sl; [cbn in N1; lia|discriminate]. }
  set (hacs := hac_of zero mfcc delta vq (hacfeat_model.m_codebooks cb)) in *. set (nf := kept_cols x (cols_of (ld_data ld))).
  destruct (features_ok (x_debug x) nf (hacfeat_model.m_codebooks cb) r (List.concat cs) sl (cols_of (ld_data ld)) N0 Hsl) as (X & EX & NX & RX).
  { intros i s Hin Hs. exact (Hf i s (proj2 Nsl i Hin) Hs). }
  { unfold nf, kept_cols. destruct (x_debug x); lia. }
  (* the columns *)
  destruct (experiment_end.prepared_rows rd x p G Ep) as (_ & _ & _ & _ & _ & _ & _ & Rows). destruct (Rows ms ld El) as (y0 & z0 & _ & Ez0 & _ & Rz0).
  assert (Enf : py_nth (map cols_of (p_data p)) (Z.of_nat ms) = Ok nf).
  { apply experiment_proof.py_nth_nat_ok. rewrite nth_error_map, Ez0. cbn [option_map]. destruct Rz0 as [Rz0 _]. unfold cols_of at 1. rewrite Rz0. reflexivity. }
  (* the learner *)
  pose proof (same_learner _ _ _ Tl) as El'. destruct (experiment_run.learner_facts rd x p Sd G B) as (W0 & M0 & D0 & K0 & _ & C0).
  destruct Tl as (_ & _ & _ & _ & _ & Shd & Ndd).
  assert (Wl : well_formed l) by (rewrite El'; exact W0).
  assert (Ml : mods l = x_mods x) by (rewrite El'; reflexivity).
  assert (Dl : dims l = experiment_run.widths x) by (rewrite El'; exact D0).
  assert (Kl : lk l = x_k x) by (rewrite El'; reflexivity).
  assert (Cl : forall m, In m (x_mods x) -> (0 <= coef_of l m)%R) by (rewrite El'; exact C0).
  assert (Td : trained l d). { split; [rewrite El'; reflexivity|]. rewrite Kl. unfold width. rewrite <- (learner_proof.dims_map l Wl), Dl. exact Shd. }
  assert (Dm : dim_of l "sound" = nf).
  { pose proof (experiment_run.fits_mods x l Wl Dl _ _ (experiment_run.data_ok_others rd x p Sd G B)) as Fm. rewrite Ml in Fm.
    destruct (pairing_proof.Forall2_nth _ _ _ Fm ms _ Es) as (z & Ez & (Fz & _)). assert (z = z0) by congruence. subst z.
    apply learner_proof.fits_shape in Fz. destruct Rz0 as [Rz0 _]. rewrite Rz0 in Fz. injection Fz as Fz. symmetry. exact Fz. }
  destruct (learner_more.internal_value l Wl (length sl) ["sound"%string] [X]) with (d := d) (rnd := draws 0) (c := 0) (it := x_iter_test x) as (hs & Ehs & Shs & Nhs & _); auto.
  { discriminate. }
  { constructor; [|constructor]. rewrite Ml. eapply nth_error_In; eauto. }
  { constructor; [|constructor]. rewrite Dm. apply RX. }
  { intros s [<-|[]]. apply Cl. eapply nth_error_In; eauto. }
  { lia. }
  rewrite Kl in Shs.
  assert (Oe : exists y, nth_error (p_data_ex p) mo = Some y).
  { destruct (nth_error (x_loaders x) mo) as [lo|] eqn:Elo; [|apply nth_error_None in Elo; rewrite (experiment_run.n_mods x Sd) in Elo; lia].
    destruct (Rows mo lo Elo) as (y & _ & Ey & _). eauto. }
  destruct Oe as (y & Ey).
  assert (Eon : mod_name (x_mods x) mo = "objects"%string) by (unfold mod_name; apply nth_error_nth; exact Eo).
  destruct (experiment_run.single_ok x Sd l d Wl Ml Dl Kl Td Ndd Cl (length (p_examples p)) (p_data_ex p) mo y (experiment_run.data_ok_ex rd x p Sd G B) Ey (draws 1)) as (es & Ees & Ses & Nes).
  destruct (metrics_more.all_cosine hs es (length sl) (length (p_examples p)) (x_k x) Shs Ses) as (dist & Ed & Sdist & Vd).
  exists (length sl), dist. split; [|split; [exact Nsl|split; [|exists ws, sl; auto]]].
  - unfold sliding_distances. rewrite (index_at _ _ _ Nm Es), (index_at _ _ _ Nm Eo). cbn [bind]. rewrite Gt. cbn [bind]. rewrite (proj1 (read_nats_ok te)). cbn [bind].
    assert (Et : mapM (fun t => py_nth (p_labels p) (Z.of_nat t)) te = Ok truth).
    { apply mapM_ok. eapply ListUtil.Forall2_impl; [|exact Lt]. intros t lab. apply experiment_proof.py_nth_nat_ok. }
    rewrite Et. cbn [bind]. rewrite Gp. cbn [bind]. rewrite read_pairing_ok. cbn [bind]. rewrite heard_tuples, Ew. cbn [bind]. rewrite Ei. cbn [bind].
    destruct (Elw (first_ten (x_debug x) truth)) as (lw & -> & _). cbn [bind]. rewrite Esl. cbn [bind]. unfold load_codebooks. rewrite Ec. cbn [bind]. rewrite Enf. cbn [bind].
    rewrite EX. cbn [bind]. rewrite Gd. cbn [bind read_array]. rewrite <- El'. unfold reconstruct_internal at 1. rewrite Ehs. cbn [bind].
    rewrite (proj2 (experiment_proof.py_nth_nat_ok _ _ _) Ey). cbn [bind]. rewrite <- Eon, Ees. exact Ed.
  - exists X, hs, es, (draws 0). split; [exact RX|]. split; [exact Ehs|]. split; [exact Shs|]. split; [exact Nhs|]. split; [|split; [exact Sdist|exact Vd]].
    exists (draws 1), [y]. split; [constructor; [exact (experiment_run.ex_data_of rd x p Sd G B mo y Ey)|constructor]|]. split; [exact Ees|]. auto.
Qed.

(** ** Windows without their features. *)
Lemma windows_of n m r (cs : list (list A)) : n <= length (p_pairing p) -> m < length (x_mods x) -> recorded wavs audio p m n r cs -> (10 <= r)%Q -> (1 # 2 <= lasts r (List.concat cs))%Q ->
  exists ws sl, sound_windows wavs audio m (firstn n (p_pairing p)) = Ok ws /\ sliding_windows wavs ws = Ok sl /\ number_of_windows (lasts r (List.concat cs)) (length sl).
Proof using Sd G Ep.
  intros Hn Hm Rec R10 Hl. assert (R0 : (0 < r)%Q) by (apply Qlt_le_trans with (10#1)%Q; [reflexivity|exact R10]).
  assert (Nc : cs <> []). { intro; subst. unfold lasts in Hl. cbn in Hl. unfold Qdiv in Hl. rewrite Qmult_0_l in Hl. apply Qle_not_lt in Hl. apply Hl. reflexivity. }
  destruct (sounds_ok n Hn m r cs Hm Rec R0 Nc) as (ws & xs & hi & Ew & Tr & T & Nw & Lw & D & Eh).
  assert (Hhi : (1 # 2 <= hi)%Q) by (rewrite Eh; exact Hl).
  destruct (sliding_ok wavs r ws xs hi R10 Nw Tr T) as (sl & Esl & Nsl & _); [rewrite D; exact Eh|exact Hhi|]. rewrite D in Nsl. exists ws, sl. auto.
Qed.

(** Recordings that are too short for one window. *)
Lemma too_short draws feat_dir store w te truth d ms mo cb r (cs : list (list A)) :
  get_last_value w 0 "test" = Ok (VNats te) -> labels_of p te truth -> get_last_value w 0 "dictionary" = Ok (VArr d) ->
  get_value w 0 "sample_pairing" = Ok (VList (map (fun t => VTuple (map (fun i => VInt (Z.of_nat i)) t)) (p_pairing p))) ->
  nth_error (x_mods x) ms = Some "sound"%string -> nth_error (x_mods x) mo = Some "objects"%string ->
  dict_get String.eqb store (hacfeat_model.CODEBOOK_PATH feat_dir) = Some cb ->
  recorded wavs audio p ms (listened x p) r cs -> (0 < r)%Q -> cs <> [] -> (lasts r (List.concat cs) + slack < 1 # 2)%Q ->
  sliding_distances zero wavs audio mfcc delta vq draws feat_dir store x p w = Err ValueError.
Proof using Sd G Ep.
  intros Gt Lt Gd Gp Es Eo Ec Rec R0 Nc Hl.
  pose proof Sd as (Nm & _ & _ & _ & _ & _ & Hk & _ & Hi).
  assert (Hms : ms < length (x_mods x)) by (apply nth_error_Some; congruence).
  destruct (sounds_ok (listened x p) listened_le ms r cs Hms Rec R0 Nc) as (ws & xs & hi & Ew & Tr & T & Nw & Lw & D & Eh).
  destruct (index_windows_ok (listened x p) listened_le ms ws hi Hms Lw Nw T) as (idx & Ei & Elw).
  pose proof (no_window wavs ws hi Nw T) as Esl. rewrite Eh in Esl. specialize (Esl Hl).
  assert (Enf : exists nf, py_nth (map cols_of (p_data p)) (Z.of_nat ms) = Ok nf).
  { destruct (experiment_end.prepared_rows rd x p G Ep) as (_ & _ & _ & _ & _ & _ & _ & Rows).
    destruct (nth_error (x_loaders x) ms) as [ld|] eqn:El; [|apply nth_error_None in El; rewrite (experiment_run.n_mods x Sd) in El; lia].
    destruct (Rows ms ld El) as (y0 & z0 & _ & Ez0 & _). exists (cols_of z0). apply experiment_proof.py_nth_nat_ok. now rewrite nth_error_map, Ez0. }
  destruct Enf as (nf & Enf).
  unfold sliding_distances. rewrite (index_at _ _ _ Nm Es), (index_at _ _ _ Nm Eo). cbn [bind]. rewrite Gt. cbn [bind]. rewrite (proj1 (read_nats_ok te)). cbn [bind].
  assert (Et : mapM (fun t => py_nth (p_labels p) (Z.of_nat t)) te = Ok truth).
  { apply mapM_ok. eapply ListUtil.Forall2_impl; [|exact Lt]. intros t lab. apply experiment_proof.py_nth_nat_ok. }
  rewrite Et. cbn [bind]. rewrite Gp. cbn [bind]. rewrite read_pairing_ok. cbn [bind]. rewrite heard_tuples, Ew. cbn [bind]. rewrite Ei. cbn [bind].
  destruct (Elw (first_ten (x_debug x) truth)) as (lw & -> & _). cbn [bind]. rewrite Esl. cbn [bind]. unfold load_codebooks. rewrite Ec. cbn [bind]. rewrite Enf. reflexivity.
Qed.

(** Features of another number. *)
Lemma other_features draws feat_dir store w te truth d ms mo ld cb r (cs : list (list A)) D :
  get_last_value w 0 "test" = Ok (VNats te) -> labels_of p te truth -> get_last_value w 0 "dictionary" = Ok (VArr d) ->
  get_value w 0 "sample_pairing" = Ok (VList (map (fun t => VTuple (map (fun i => VInt (Z.of_nat i)) t)) (p_pairing p))) ->
  nth_error (x_mods x) ms = Some "sound"%string -> nth_error (x_mods x) mo = Some "objects"%string -> nth_error (x_loaders x) ms = Some ld ->
  dict_get String.eqb store (hacfeat_model.CODEBOOK_PATH feat_dir) = Some cb ->
  recorded wavs audio p ms (listened x p) r cs -> (10 <= r)%Q -> (1 # 2 <= lasts r (List.concat cs))%Q ->
  described (hac_of zero mfcc delta vq (hacfeat_model.m_codebooks cb)) r (List.concat cs) D ->
  (if x_debug x then D < Nat.min 11 (cols_of (ld_data ld)) else D <> cols_of (ld_data ld)) ->
  sliding_distances zero wavs audio mfcc delta vq draws feat_dir store x p w = Err AssertionError.
Proof using Sd G Ep.
  intros Gt Lt Gd Gp Es Eo El Ec Rec R10 Hl Hf HD.
  destruct (experiment_proof.prepare_inv _ _ _ Ep) as [B].
  pose proof Sd as (Nm & _ & _ & _ & _ & _ & Hk & _ & Hi).
  assert (Hms : ms < length (x_mods x)) by (apply nth_error_Some; congruence).
  assert (R0 : (0 < r)%Q) by (apply Qlt_le_trans with (10#1)%Q; [reflexivity|exact R10]).
  assert (Nc : cs <> []). { intro; subst. unfold lasts in Hl. cbn in Hl. unfold Qdiv in Hl. rewrite Qmult_0_l in Hl. apply Qle_not_lt in Hl. apply Hl. reflexivity. }
  destruct (sounds_ok (listened x p) listened_le ms r cs Hms Rec R0 Nc) as (ws & xs & hi & Ew & Tr & T & Nw & Lw & Da & Eh).
  destruct (index_windows_ok (listened x p) listened_le ms ws hi Hms Lw Nw T) as (idx & Ei & Elw).
  assert (Hhi : (1 # 2 <= hi)%Q) by (rewrite Eh; exact Hl).
  destruct (sliding_ok wavs r ws xs hi R10 Nw Tr T) as (sl & Esl & Nsl & Hsl); [rewrite Da; exact Eh|exact Hhi|]. rewrite Da in Nsl, Hsl.
  assert (N0 : sl <> []). { destruct Nsl as [N1 _]. assert (H0 : (end_of 0 <= lasts r (List.concat cs))%Q) by (apply Qle_trans with (1 # 2)%Q; [discriminate|exact Hl]). specialize (N1 0 H0). destruct sl; [cbn in N1; lia|discriminate]. }
  set (nf := kept_cols x (cols_of (ld_data ld))).
  destruct (features_any (x_debug x) nf (hacfeat_model.m_codebooks cb) r (List.concat cs) sl D N0 Hsl) as (X & EX & FX). { intros i s Hin Hs. exact (Hf i s (proj2 Nsl i Hin) Hs). }
  destruct (experiment_end.prepared_rows rd x p G Ep) as (_ & _ & _ & _ & _ & _ & _ & Rows). destruct (Rows ms ld El) as (y0 & z0 & _ & Ez0 & _ & Rz0).
  assert (Enf : py_nth (map cols_of (p_data p)) (Z.of_nat ms) = Ok nf).
  { apply experiment_proof.py_nth_nat_ok. rewrite nth_error_map, Ez0. cbn [option_map]. destruct Rz0 as [Rz0 _]. unfold cols_of at 1. rewrite Rz0. reflexivity. }
  destruct (experiment_run.learner_facts rd x p Sd G B) as (W0 & M0 & D0 & K0 & _ & C0).
  set (l := Learner (x_mods x) (map cols_of (p_data p)) (p_coefs p) (x_k x) false (Some d)).
  assert (Wl : well_formed l) by exact W0.
  assert (Dl : dims l = experiment_run.widths x) by exact D0.
  assert (Dm : dim_of l "sound" = nf).
  { pose proof (experiment_run.fits_mods x l Wl Dl _ _ (experiment_run.data_ok_others rd x p Sd G B)) as Fm. cbn [l mods] in Fm. fold l in Fm.
    destruct (pairing_proof.Forall2_nth _ _ _ Fm ms _ Es) as (z & Ez & (Fz & _)). assert (z = z0) by congruence. subst z.
    apply learner_proof.fits_shape in Fz. destruct Rz0 as [Rz0 _]. rewrite Rz0 in Fz. injection Fz as Fz. symmetry. exact Fz. }
  unfold sliding_distances. rewrite (index_at _ _ _ Nm Es), (index_at _ _ _ Nm Eo). cbn [bind]. rewrite Gt. cbn [bind]. rewrite (proj1 (read_nats_ok te)). cbn [bind].
  assert (Et : mapM (fun t => py_nth (p_labels p) (Z.of_nat t)) te = Ok truth).
  { apply mapM_ok. eapply ListUtil.Forall2_impl; [|exact Lt]. intros t lab. apply experiment_proof.py_nth_nat_ok. }
  rewrite Et. cbn [bind]. rewrite Gp. cbn [bind]. rewrite read_pairing_ok. cbn [bind]. rewrite heard_tuples, Ew. cbn [bind]. rewrite Ei. cbn [bind].
  destruct (Elw (first_ten (x_debug x) truth)) as (lw & -> & _). cbn [bind]. rewrite Esl. cbn [bind]. unfold load_codebooks. rewrite Ec. cbn [bind]. rewrite Enf. cbn [bind].
  rewrite EX. cbn [bind]. rewrite Gd. cbn [bind read_array]. fold l. unfold reconstruct_internal at 1.
  rewrite (learner_more.internal_bad (draws 0) 0 l ["sound"%string] [X]); [reflexivity|exact Wl| |reflexivity| |].
  - constructor; [|constructor]. cbn [l mods]. eapply nth_error_In; eauto.
  - constructor; [|constructor]. now rewrite (learner_proof.fits_shape _ _ _ FX).
  - exists "sound"%string, X. split; [now left|]. rewrite Dm. unfold cols_of. rewrite (learner_proof.fits_shape _ _ _ FX). cbn [nth]. unfold nf, kept_cols. destruct (x_debug x); lia.
Qed.
End Prepared.
End Script.
