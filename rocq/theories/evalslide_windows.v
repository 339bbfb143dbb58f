(** * The windows of samples/image_sound_eval_sliding.py. *)

From Coq Require Import List ZArith QArith Qround Lqa Bool Arith String Lia.
Import ListNotations.
From Verif Require Import Py Py_proof window_model window_spec window_proof window_slider window_concat window_sampled window_wavs
  experiment_model experiment_spec experiment_proof evalslide_model evalslide_spec.
From Verif Require logger_proof experiment_ready pairing_proof.
Open Scope py_scope.
Local Open Scope Q_scope.
Notation length := List.length.
Notation Q := QArith_base.Q.
Transparent TOL.

Lemma slider_starts t0 t1 width shift tol l : slider t0 t1 width shift false tol = Ok l ->
  forall p, In p l -> (exists i, fst p == t0 + inject_Z (Z.of_nat i) * shift) \/ fst p == t1 - width.
Proof.
  unfold slider. cbn [negb]. intro E. apply bind_ok in E as (st & Es & E). injection E as <-. intros p I. apply in_map_iff in I as (t & <- & I). cbn [fst].
  unfold arange in Es. apply bind_ok in Es as (a & _ & Es). apply bind_ok in Es as (b & _ & Es). set (n := to_approx_int a b false) in *.
  destruct (n <? 0)%Z eqn:L; [injection Es as <-; destruct I|]. cbn [orb] in Es. injection Es as <-. apply Z.ltb_ge in L. apply in_app_or in I as [I|[<-|[]]].
  - left. apply in_map_iff in I as (i & <- & _). exists i. reflexivity.
  - unfold snap_above. destruct (Qlt_bool _ _); [right; reflexivity|left]. exists (Z.to_nat n). rewrite Z2Nat.id by exact L. reflexivity.
Qed.

Lemma times_shift i : inject_Z (Z.of_nat i) * SHIFT == begin_of i.
Proof. unfold begin_of, SHIFT. change (inject_Z 10) with (10 # 1). field. Qed.

Section Windows.
Context {A : Type} (wavs : wavfiles string A).
Notation leaf := (leaf nat A string).

(** What is heard in a window. *)
Lemma heard_of (X Y : arrw A) i a b : 10 <= a_rate X -> array_ok X -> a_start X == 0 -> near TOL a (begin_of i) -> near TOL b (a + WIDTH) ->
  0 <= a -> b <= a_end X -> array_get_subwindow X a b = Ok Y -> heard (a_rate X) (a_data X) i (a_data Y) /\ a_rate Y = a_rate X /\ ~ b < a_start Y.
Proof.
  intros R W SX Na Nb H0 H1 E. pose proof W as [_ En]. unfold near, TOL, WIDTH in *.
  assert (Hab : a <= b) by lra.
  destruct (array_sub_spec X a b W) as (Y' & lo & hi & E' & L1 & L2 & D & S' & R' & W' & In1 & In2 & _); [unfold within; lra|unfold within; lra|].
  assert (Y' = Y) by congruence. subst Y'.
  (* a sample inside *)
  assert (Hk : exists k, sample_inside (a_start X) (a_rate X) a b k).
  { exists (Z.to_nat (Qceiling (a * a_rate X))). unfold sample_inside, sample_time. 
    assert (P : 0 <= a * a_rate X) by (apply Qmult_le_0_compat; lra).
    assert (Z0 : (0 <= Qceiling (a * a_rate X))%Z). { apply (Qceiling_resp_le 0) in P. exact P. }
    rewrite Nat2Z.inj_succ, Z2Nat.id by exact Z0. pose proof (Qle_ceiling (a * a_rate X)) as C1. pose proof (Qceiling_lt (a * a_rate X)) as C2.
    unfold Z.sub in C2. rewrite inject_Z_plus in C2. change (inject_Z (- (1))) with (-1 # 1) in C2. unfold Z.succ. rewrite inject_Z_plus. change (inject_Z 1) with 1.
    rewrite SX. assert (Rp : 0 < a_rate X) by lra. split.
    - rewrite Qplus_0_l. apply Qle_shift_div_l; auto.
    - rewrite Qplus_0_l. apply Qle_shift_div_r; auto.
      assert (a * a_rate X + 2 <= b * a_rate X); [|lra]. assert (2 <= (b - a) * a_rate X); [|lra].
      apply Qle_trans with ((2 # 10) * a_rate X); [lra|]. apply Qmult_le_compat_r; lra. }
  destruct Hk as (k0 & K0). pose proof (In2 k0 K0) as B0. split.
  - exists lo, hi. split; [exact D|]. split; [lia|]. unfold end_of, slack. unfold sample_inside, sample_time in *. split.
    + intros k Hk. specialize (In1 k Hk). rewrite !SX in In1. split; [apply Qle_trans with (a - (1 # 100000000)); [lra|apply In1]|apply Qle_trans with (b + (1 # 100000000)); [apply In1|lra]].
    + intros k _ [Hk1 Hk2]. apply In2. rewrite !SX. split; [apply Qle_trans with (begin_of i + (3 # 100000000)); [lra|exact Hk1]|apply Qle_trans with (begin_of i + (1 # 2) - (3 # 100000000)); [exact Hk2|lra]].
  - split; [exact R'|]. rewrite S'. unfold sample_inside, sample_time in *. intro Hlt. 
    destruct K0 as [_ K2].
    assert (inject_Z (Z.of_nat lo) / a_rate X <= inject_Z (Z.of_nat (S k0)) / a_rate X).
    { unfold Qdiv. apply Qmult_le_compat_r; [rewrite <- Zle_Qle; lia|apply Qinv_le_0_compat; lra]. }
    lra.
Qed.


Lemma concatenated r (ws : list leaf) xs X : ws <> [] -> tracks wavs r ws xs -> concat_to_array wavs ws = Ok X -> 0 < r ->
  array_ok X /\ (forall w, nth_error ws 0 = Some w -> a_start X == w_start w) /\ a_rate X = r /\ a_data X = window_sampled.data_of xs.
Proof.
  intros N T E R. destruct ws as [|w0 ws]; [congruence|]. destruct (tracks_cons_inv wavs r w0 ws xs T) as (x0 & xs' & -> & S1 & S2 & _ & _).
  destruct (tracks_rates wavs r _ _ T) as [Rs Ms]. destruct (concatenate_ok r xs' x0 R Rs) as (X' & HX & WX & SX & RX & DX).
  unfold concat_to_array in E. rewrite Ms in E. cbn [bind] in E. assert (X' = X) by congruence. subst X'. split; [exact WX|]. split; [|auto].
  intros w [= <-]. rewrite SX. destruct (sampled_array wavs w0 S1) as (y & Hy & _ & Sy & _). assert (y = x0) by congruence. now subst y.
Qed.

(** The sound of all recordings. *)
Lemma recordings_ok paths (cs : list (list A)) r : 0 < r -> cs <> [] ->
  Forall2 (fun path c => wavs path = Ok (r, c)) paths cs ->
  exists (ws : list leaf) xs hi, concat_from_list_of_wavs wavs paths None = Ok ws /\ tracks wavs r ws xs /\ tiles 0 (map span ws) hi /\ ws <> [] /\
    length ws = length paths /\ window_sampled.data_of xs = List.concat cs /\ hi == lasts r (List.concat cs).
Proof.
  intros R N F.
  assert (Np : paths <> []) by (intro; subst; inversion F; subst; congruence).
  assert (F' : Forall2 (fun f c => wavs f = Ok c /\ 0 < fst c) paths (map (fun c => (r, c)) cs)).
  { clear N Np. induction F as [|f c fs cs' H F IH]; cbn; constructor; auto. }
  destruct (wavs_ok wavs (O := nat) paths _ None Np F') as (ws & hi & E & T & L & Wh).
  assert (Lc : length (map (fun c => (r, c)) cs) = length paths).
  { rewrite map_length. clear -F. induction F; cbn; auto. }
  destruct (whole_tracks wavs r paths _ ws Lc L Wh) as (xs & Tr & D).
  { apply Forall_forall. intros c I. apply in_map_iff in I as (c0 & <- & _). reflexivity. }
  exists ws, xs, hi. split; [exact E|]. split; [exact Tr|]. split; [exact T|]. split; [destruct ws; [destruct paths; [congruence|discriminate]|discriminate]|].
  split; [exact L|].
  assert (D' : window_sampled.data_of xs = List.concat cs) by (rewrite D, map_map; cbn [snd]; now rewrite map_id).
  split; [exact D'|]. rewrite (tracks_len wavs r ws xs 0 hi R Tr T), D'. unfold lasts. lra.
Qed.

Lemma tiles_bounds lo (ws : list leaf) hi : ws <> [] -> tiles lo (map span ws) hi ->
  exists s e, concat_start ws = Ok s /\ concat_end ws = Ok e /\ s == lo /\ e == hi.
Proof.
  intros N T. unfold concat_start, concat_end. destruct ws as [|w ws]; [congruence|]. cbn [py_nth].
  exists (w_start w). clear N. revert lo w T.
  assert (H : forall lo w, tiles lo (map span (w :: ws)) hi -> exists e, (w0 <- py_nth (w :: ws) (-1) ;; Ok (w_end w0)) = Ok e /\ e == hi).
  { induction ws as [|w' ws IH]; intros lo w T.
    - exists (w_end w). split; [reflexivity|]. cbn in T. tauto.
    - cbn [map tiles] in T. destruct T as (_ & _ & T). destruct (IH (snd (span w)) w' T) as (e & E & He). exists e. split; [|exact He].
      rewrite <- E. rewrite !logger_proof.py_nth_last. cbn [length]. rewrite !Nat.sub_succ, !Nat.sub_0_r. reflexivity. }
  intros lo w T. destruct (H lo w T) as (e & E & He). exists e. split; [reflexivity|]. split; [exact E|]. split; [|exact He]. cbn in T. tauto.
Qed.

(** The sliding windows: their number and what is heard in each of them. *)
Lemma sliding_ok r (ws : list leaf) xs hi : 10 <= r -> ws <> [] -> tracks wavs r ws xs -> tiles 0 (map span ws) hi -> hi == lasts r (window_sampled.data_of xs) -> 1 # 2 <= hi ->
  exists sl, sliding_windows wavs ws = Ok sl /\ number_of_windows (lasts r (window_sampled.data_of xs)) (length sl) /\
    forall i w, nth_error sl i = Some w -> exists Z, concat_to_array wavs w = Ok Z /\ a_rate Z = r /\ heard r (window_sampled.data_of xs) i (a_data Z).
Proof.
  intros R N Tr T Eh Hh. destruct (tiles_bounds 0 ws hi N T) as (s & e & Es & Ee & Hs & He). unfold sliding_windows. rewrite Es, Ee. cbn [bind].
  destruct (slider_full s e WIDTH SHIFT TOL) as (ts & Et & H1 & H2 & H3); [unfold SHIFT; lra|unfold TOL; lra|unfold TOL, SHIFT; lra|].
  rewrite Et. cbn [bind].
  assert (Hin : forall i p, nth_error ts i = Some p -> exists new Z, concat_get_subwindow wavs ws (fst p) (snd p) = Ok new /\ concat_to_array wavs new = Ok Z /\ a_rate Z = r /\ heard r (window_sampled.data_of xs) i (a_data Z)).
  { intros i p Ep. destruct (H1 i p Ep) as (B1 & B2 & B3 & B4 & B5 & B6). pose proof (times_shift i) as Ti. unfold nshift in *.
    assert (P0 : 0 <= begin_of i). { unfold begin_of. change (inject_Z 10) with (10#1). apply Qle_shift_div_l; [lra|]. rewrite Qmult_0_l. change 0 with (inject_Z 0). rewrite <- Zle_Qle. lia. }
    assert (Pa : 0 <= fst p).
    { destruct (slider_starts _ _ _ _ _ _ Et p (nth_error_In _ _ Ep)) as [(k & K)|K].
      - rewrite times_shift in K. assert (0 <= begin_of k). { unfold begin_of. change (inject_Z 10) with (10#1). apply Qle_shift_div_l; [lra|]. rewrite Qmult_0_l. change 0 with (inject_Z 0). rewrite <- Zle_Qle. lia. } lra.
      - unfold WIDTH in K. lra. }
    unfold near, TOL, WIDTH in *.
    destruct (concat_sub_sampled wavs r 0 ws hi xs (fst p) (snd p)) as (X & Y & EX & EY & C); auto; try lra.
    destruct (concatenated r ws xs X N Tr EX) as (WX & SX & RX & DX); [lra|].
    assert (AX : a_start X == 0) by (destruct ws as [|w0 ws']; [congruence|]; rewrite (SX w0 eq_refl); cbn in T; tauto).
    assert (EndX : a_end X == hi) by (destruct WX as [_ ->]; rewrite RX, DX; unfold sample_time; rewrite AX, Eh; unfold lasts; lra).
    destruct (heard_of X Y i (fst p) (snd p)) as (Hd & RY & Nb); auto; try (unfold near, TOL, WIDTH; lra); [now rewrite RX|].
    destruct C as [(new & Z & C1 & C2 & C3 & C4 & C5 & C6)|(_ & _ & C)]; [|destruct (Nb C)].
    exists new, Z. split; [exact C1|]. split; [exact C2|]. split; [congruence|].
    rewrite C6, <- DX, <- RX. exact Hd. }
  destruct (experiment_ready.mapM_exists (fun p => concat_get_subwindow wavs ws (fst p) (snd p)) ts) as (sl & Esl).
  { intros p I. apply In_nth_error in I as (i & I). destruct (Hin i p I) as (new & _ & H & _). eauto. }
  exists sl. split; [exact Esl|]. pose proof (mapM_length _ _ _ Esl) as L. rewrite L. split.
  - split.
    + intros i Hi. apply H2. unfold nshift. rewrite times_shift. unfold end_of, WIDTH in *. lra.
    + intros i Hi. destruct (nth_error ts i) as [p|] eqn:Ep; [|apply nth_error_None in Ep; lia]. destruct (H1 i p Ep) as (B1 & _ & B3 & _). pose proof (times_shift i) as Ti. unfold nshift in *.
      unfold near, TOL, WIDTH, end_of, slack in *. lra.
  - intros i w Ew. apply mapM_ok in Esl. destruct (nth_error ts i) as [p|] eqn:Ep.
    + destruct (Hin i p Ep) as (new & Z & C1 & C2). pose proof (pairing_proof.Forall2_nth _ _ _ Esl i p Ep) as (w' & Ew' & C). assert (w' = w) by congruence. subst w'. assert (new = w) by congruence. subst new. eauto.
    + apply nth_error_None in Ep. assert (i < length sl)%nat by (apply nth_error_Some; congruence). lia.
Qed.

Lemma no_window (ws : list leaf) hi : ws <> [] -> tiles 0 (map span ws) hi -> hi + slack < 1 # 2 -> sliding_windows wavs ws = Ok [].
Proof.
  intros N T Hh. destruct (tiles_bounds 0 ws hi N T) as (s & e & Es & Ee & Hs & He). unfold sliding_windows. rewrite Es, Ee. cbn [bind].
  destruct (slider_full s e WIDTH SHIFT TOL) as (ts & Et & H1 & _ & _); [unfold SHIFT; lra|unfold TOL; lra|unfold TOL, SHIFT; lra|].
  rewrite Et. cbn [bind]. destruct ts as [|p ts]; [reflexivity|exfalso]. destruct (H1 0%nat p eq_refl) as (B1 & _ & B3 & _).
  unfold near, nshift, TOL, WIDTH, SHIFT, slack in *. change (inject_Z (Z.of_nat 0)) with 0 in B1. lra.
Qed.
End Windows.
