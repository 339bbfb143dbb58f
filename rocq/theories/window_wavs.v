(** * Proofs about lists of sound files and about sample times. *)

From Coq Require Import List ZArith QArith Qround Bool Lia Lqa Psatz.
Import ListNotations.
From Verif Require Import Py Py_proof ListUtil window_model window_spec window_proof window_concat window_sampled.
Open Scope py_scope.
Local Open Scope Q_scope.

Lemma Forall2_length {X Y} (R : X -> Y -> Prop) l l' : Forall2 R l l' -> length l = length l'.
Proof. induction 1; cbn; auto. Qed.

Section Wavs.
Context {O A P : Type} (files : wavfiles P A).
Notation leaf := (leaf O A P).
Implicit Types (ws : list leaf) (paths : list P).

(** A window over the whole of a file. *)
Definition whole (f : P) (c : Q * list A) (w : leaf) : Prop :=
  exists v, w = LW v /\ wav_ok files (snd c) v /\ v_path v = f /\ v_rate v = fst c /\
    v_after v = 0%Z /\ v_stop v = Z.of_nat (length (snd c)).

Lemma new_wavs paths contents :
  Forall2 (fun f c => files f = Ok c /\ 0 < fst c) paths contents ->
  exists ws, mapM (fun f => w <- new_wav_window files f 0 None ;; Ok (@LW O A P w)) paths = Ok ws /\
    Forall2 (fun c w => exists f, whole f c w) contents ws /\ length ws = length paths /\
    (forall i f c w, nth_error paths i = Some f -> nth_error contents i = Some c ->
       nth_error ws i = Some w -> whole f c w) /\
    Forall (fun w => w_start w == 0) ws.
Proof.
  induction 1 as [|f [r s] paths contents [F R] Fs (ws & Hw & F2 & L & N & Z)].
  - exists []. split; auto. split; [constructor|]. split; auto. split; [|constructor].
    intros [|i] f c w; discriminate.
  - cbn [fst] in R. destruct (new_wav_ok files f r s 0 F R) as (w & Hn & V & E1 & E2 & E3 & E4 & E5).
    assert (Wh : whole f (r, s) (@LW O A P w)) by (exists w; cbn; auto 10).
    exists (LW w :: ws). cbn [mapM]. rewrite Hn. cbn [bind]. rewrite Hw. cbn [bind]. split; auto.
    split; [constructor; eauto|]. split; [cbn; auto|]. split.
    + intros [|i] f' c' w'; cbn; [|apply N]. intros [= <-] [= <-] [= <-]. auto.
    + constructor; auto. cbn. rewrite E2. reflexivity.
Qed.

Lemma whole_move f c w d : whole f c w -> whole f c (move w d).
Proof.
  intros (v & -> & V & E1 & E2 & E3 & E4). exists (wav_move v d). cbn. split; auto.
  split; [apply wav_move_ok; auto|]. auto.
Qed.
Lemma whole_duration f c w : whole f c w -> 0 <= duration w.
Proof.
  intros (v & -> & (F & R & B & C & E) & E1 & E2 & E3 & E4). unfold duration. cbn. rewrite E.
  assert (0 <= inject_Z (v_stop v - v_after v) / v_rate v); [|lra].
  apply Qle_shift_div_l; auto. assert (K : (0 <= v_stop v - v_after v)%Z) by lia.
  apply (proj1 (injZ_le _ _)) in K. change (inject_Z 0) with 0 in K. lra.
Qed.

(** Everything about the concatenation of a list of readable files. *)
Lemma wavs_ok paths contents start : paths <> [] ->
  Forall2 (fun f c => files f = Ok c /\ 0 < fst c) paths contents ->
  exists ws hi, @concat_from_list_of_wavs O A P files paths start = Ok ws /\
    tiles (match start with Some s => s | None => 0 end) (map span ws) hi /\
    length ws = length paths /\
    (forall i f c w, nth_error paths i = Some f -> nth_error contents i = Some c ->
       nth_error ws i = Some w -> whole f c w).
Proof.
  intros N F. destruct (new_wavs paths contents F) as (ws & Hw & F2 & L & Wh & Z).
  unfold concat_from_list_of_wavs. rewrite Hw. cbn [bind].
  assert (D : Forall (fun w : leaf => 0 <= duration w) ws).
  { apply Forall_forall. intros w Hin. apply In_nth_error in Hin as (i & Hi).
    assert (i < length ws)%nat by (apply nth_error_Some; congruence).
    destruct (nth_error paths i) as [f|] eqn:Ef; [|apply nth_error_None in Ef; lia].
    destruct (nth_error contents i) as [c|] eqn:Ec.
    - eapply whole_duration; eauto.
    - apply nth_error_None in Ec. apply Forall2_length in F. lia. }
  unfold align.
  assert (Start : exists s, (match start with Some s => Ok s | None => w <- py_nth ws 0 ;; Ok (w_start w) end) = Ok s /\
                    s == match start with Some s => s | None => 0 end).
  { destruct start as [s|]; [exists s; split; [auto|reflexivity]|].
    destruct ws as [|w ws']; [destruct paths; [contradiction|discriminate]|].
    rewrite py_nth_0. cbn. exists (w_start w). split; auto. inversion Z; auto. }
  destruct Start as (s & -> & Es). cbn [bind].
  destruct (align_loop_spec ws s) as (G1 & G2 & G3 & G4).
  assert (Ta := G4 D).
  assert (Na : align_loop s ws <> []).
  { destruct ws; [destruct paths; [contradiction|discriminate]|discriminate]. }
  rewrite (tiles_ok _ _ _ Na Ta).
  exists (align_loop s ws), (s + sum_Q (map duration ws)). split; auto.
  split; [eapply tiles_comp; [exact Es|reflexivity|exact Ta]|].
  split; [apply Forall2_length in G1; lia|].
  intros i f c w Hf Hc Hw'.
  destruct (nth_error ws i) as [v|] eqn:Ev.
  - assert (M : exists d, w = move v d).
    { clear - G1 Ev Hw'. revert i Ev Hw'. induction G1 as [|x y l l' H G IH]; intros [|i]; cbn; try discriminate.
      - intros [= ->] [= ->]. auto.
      - apply IH. }
    destruct M as (d & ->). apply whole_move. eauto.
  - exfalso. apply nth_error_None in Ev. apply Forall2_length in G1.
    assert (i < length (align_loop s ws))%nat by (apply nth_error_Some; congruence). lia.
Qed.

Lemma whole_tracks r paths contents ws : length contents = length paths -> length ws = length paths ->
  (forall i f c w, nth_error paths i = Some f -> nth_error contents i = Some c ->
     nth_error ws i = Some w -> whole f c w) ->
  Forall (fun c => fst c = r) contents ->
  exists xs, tracks files r ws xs /\ data_of xs = concat (map snd contents).
Proof.
  intros L1 L2 N F. revert paths ws L1 L2 N. induction F as [|c contents Hc F IH]; intros paths ws L1 L2 N.
  - destruct paths; [|discriminate]. destruct ws; [|discriminate]. exists []. split; [constructor|auto].
  - destruct paths as [|f paths]; [discriminate|]. destruct ws as [|w ws]; [discriminate|].
    destruct (IH paths ws) as (xs & T & D); try (cbn in *; lia).
    { intros i. apply (N (S i)). }
    destruct (N 0%nat f c w eq_refl eq_refl eq_refl) as (v & -> & V & E1 & E2 & E3 & E4).
    destruct (wav_to_array_ok files (snd c) v V) as (x & Hx & W & Sx & Ex & Rx & Dx & _).
    exists (x :: xs). split.
    + constructor; auto. cbn. split; [eauto|]. split; auto. congruence.
    + unfold data_of in *. cbn. rewrite D. f_equal. rewrite Dx, E3, E4, Nat2Z.id. unfold segment. cbn.
      rewrite Nat.sub_0_r. apply firstn_all.
Qed.

Lemma wavs_samples r paths contents start : paths <> [] ->
  Forall2 (fun f c => files f = Ok c /\ 0 < fst c) paths contents ->
  Forall (fun c => fst c = r) contents ->
  exists ws X, @concat_from_list_of_wavs O A P files paths start = Ok ws /\
    concat_to_array files ws = Ok X /\
    a_start X == (match start with Some s => s | None => 0 end) /\ a_rate X = r /\
    a_data X = concat (map snd contents) /\
    save_wav files ws = Ok (r, concat (map snd contents)).
Proof.
  intros N F Rs. destruct (wavs_ok paths contents start N F) as (ws & hi & H & T & L & Wh).
  assert (L1 : length contents = length paths) by (apply Forall2_length in F; auto).
  destruct (whole_tracks r paths contents ws L1 L Wh Rs) as (xs & Tr & D).
  destruct ws as [|w0 ws]; [destruct paths; [contradiction|discriminate]|].
  destruct paths as [|f0 paths]; [contradiction|]. destruct contents as [|c0 contents]; [discriminate|].
  destruct (tracks_cons_inv files r w0 ws xs Tr) as (x0 & xs' & -> & S0 & T0 & R0 & Tr').
  assert (R : 0 < r).
  { assert (K : files f0 = Ok c0 /\ 0 < fst c0) by (inversion F; auto). pose proof (Forall_inv Rs) as K2. cbn in K, K2. rewrite <- K2. apply K. }
  destruct (tracks_rates files r _ _ Tr) as [Ra Ma].
  destruct (concatenate_ok r xs' x0 R Ra) as (X & HX & WX & SX & RX & DX).
  exists (w0 :: ws), X. split; auto.
  assert (HX' : concat_to_array files (w0 :: ws) = Ok X) by (unfold concat_to_array; rewrite Ma; exact HX).
  split; auto. split.
  - rewrite SX. destruct (sampled_array files w0 S0) as (y & Hy & _ & Sy & _). assert (y = x0) by congruence. subst y.
    rewrite Sy. cbn in T. apply T.
  - split; auto. split; [congruence|]. unfold save_wav. rewrite py_nth_0. cbn [bind].
    destruct (Wh 0%nat f0 c0 w0 eq_refl eq_refl eq_refl) as (v & -> & V & E1 & E2 & _).
    cbn [bind]. rewrite HX'. cbn [bind]. rewrite E2, DX, D, (Forall_inv Rs). reflexivity.
Qed.

(** Different rates are refused when the samples are joined. *)
Lemma wavs_rates_differ paths contents start i j ci cj : paths <> [] ->
  Forall2 (fun f c => files f = Ok c /\ 0 < fst c) paths contents ->
  nth_error contents i = Some ci -> nth_error contents j = Some cj -> ~ fst ci == fst cj ->
  exists ws, @concat_from_list_of_wavs O A P files paths start = Ok ws /\
    concat_to_array files ws = Err ValueError.
Proof.
  intros N F Hi Hj Ne. destruct (wavs_ok paths contents start N F) as (ws & hi & H & T & L & Wh).
  exists ws. split; auto.
  assert (L1 : length contents = length paths) by (apply Forall2_length in F; auto).
  (* every window gives an array of the rate of its file *)
  assert (M : exists xs, mapM (to_array_window files) ws = Ok xs /\
            Forall2 (fun c x => a_rate x = fst c) contents xs).
  { clear - L L1 Wh. revert contents ws L1 L Wh. induction paths as [|f paths IH]; intros contents ws L1 L Wh.
    - destruct contents; [|discriminate]. destruct ws; [|discriminate]. exists []. split; [auto|constructor].
    - destruct contents as [|c contents]; [discriminate|]. destruct ws as [|w ws]; [discriminate|].
      destruct (IH contents ws) as (xs & Hx & Fx); try (cbn in *; lia).
      { intros i. apply (Wh (S i)). }
      destruct (Wh 0%nat f c w eq_refl eq_refl eq_refl) as (v & -> & V & E1 & E2 & _).
      destruct (wav_to_array_ok files (snd c) v V) as (x & Hx0 & W & Sx & Ex & Rx & _).
      exists (x :: xs). cbn [mapM to_array_window]. rewrite Hx0. cbn [bind]. rewrite Hx. split; auto.
      constructor; auto. congruence. }
  destruct M as (xs & M & Fx). unfold concat_to_array. rewrite M. cbn [bind].
  unfold array_concatenate. destruct xs as [|x0 xs]; auto.
  destruct (forallb (fun w => Qeq_bool (a_rate w) (a_rate x0)) (x0 :: xs)) eqn:B; auto.
  exfalso. rewrite forallb_forall in B.
  assert (All : forall k c, nth_error contents k = Some c -> fst c == a_rate x0).
  { intros k c Hk.
    assert (exists x, nth_error (x0 :: xs) k = Some x /\ a_rate x = fst c).
    { clear - Fx Hk. revert k Hk. induction Fx as [|c' x l l' E G IH]; intros [|k]; cbn; try discriminate.
      - intros [= ->]. eauto.
      - apply IH. }
    destruct H0 as (x & Hx & <-). apply Qeq_bool_iff. apply B. eapply nth_error_In; eauto. }
  apply Ne. rewrite (All i ci Hi), (All j cj Hj). reflexivity.
Qed.
End Wavs.

(** ** Sample times. *)
Lemma get_times_ok s r n : ~ r == 0 -> exists l, get_times s r n = Ok l /\ length l = n /\
  forall k t, nth_error l k = Some t -> t == s + (inject_Z (Z.of_nat k) + (1 # 2)) / r.
Proof.
  intro R. unfold get_times, samples_to_duration. rewrite py_div_ok by auto. cbn [bind].
  eexists. split; [reflexivity|]. split; [rewrite map_length, seq_length; auto|].
  intros k t H. rewrite nth_error_map in H.
  destruct (nth_error (seq 0 n) k) as [m|] eqn:E; [|discriminate]. cbn in H. injection H as <-.
  assert (m = k).
  { assert (k < n)%nat by ((assert (K : nth_error (seq 0 n) k <> None) by congruence;
      apply nth_error_Some in K; rewrite seq_length in K; auto)).
    apply nth_error_nth with (d := 0%nat) in E. rewrite seq_nth in E by auto. lia. }
  subst m. change (inject_Z 1 * 1) with 1. field. auto.
Qed.

Lemma sub_times {A} (x : arrw A) a b : array_ok x ->
  within (a_start x) (a_end x) a -> within (a_start x) (a_end x) b ->
  exists y i j ts us, array_get_subwindow x a b = Ok y /\
    get_times (a_start x) (a_rate x) (length (a_data x)) = Ok ts /\
    get_times (a_start y) (a_rate y) (length (a_data y)) = Ok us /\
    a_data y = segment (a_data x) i j /\ length us = length (segment ts i j) /\
    (forall k t u, nth_error us k = Some u -> nth_error (segment ts i j) k = Some t -> u == t).
Proof.
  intros W Ha Hb. destruct (array_sub_closed x a b W Ha Hb) as (y & i & j & H & _ & _ & Li & Lj & D & S' & R' & W').
  assert (Rp := proj1 W). assert (Nz : ~ a_rate x == 0) by lra.
  destruct (get_times_ok (a_start x) (a_rate x) (length (a_data x)) Nz) as (ts & Ht & Lt & Tt).
  destruct (get_times_ok (a_start y) (a_rate y) (length (a_data y))) as (us & Hu & Lu & Tu); [rewrite R'; auto|].
  exists y, i, j, ts, us. repeat (split; [solve [auto]|]).
  assert (Len : length us = length (segment ts i j)).
  { rewrite Lu, D. unfold segment. rewrite !firstn_length, !skipn_length, Lt. auto. }
  split; auto. intros k t u Hk Hs.
  rewrite (Tu k u Hk), S', R'.
  assert (k < length (segment ts i j))%nat by (apply nth_error_Some; congruence).
  assert (k < j - i)%nat.
  { unfold segment in H0. rewrite firstn_length in H0. lia. }
  rewrite nth_error_segment in Hs by auto. rewrite (Tt _ _ Hs), Nat2Z.inj_add, inject_Z_plus. field. auto.
Qed.
