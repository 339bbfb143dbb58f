(** * Proofs about samples/icdl2013.py and samples/image_sound.py. *)

From Coq Require Import List ZArith Reals Bool Arith String QArith Qreals Lia Lra.
Import ListNotations.
From Flocq Require Import Core.
From Verif Require Import Py utils_model utils_spec utils_proof logger_model logger_spec nd_model pairing_model experiment_model experiment_spec experiment_proof experiment_run experiment_end
  figures_model figures_spec figures_tables evalslide_model tenths_model tenths_spec.
From Verif Require utils_props logger_proof experiment_save experiment_log.
Local Open Scope nat_scope.

Lemma tenth_value : Q2R tenth = (3602879701896397 / 36028797018963968)%R.
Proof. reflexivity. Qed.
(** [round64] for a number in [2^(k-1), 2^k). *)
Lemma round64_at x k m : (bpow radix2 (k - 1) <= Rabs x < bpow radix2 k)%R -> (-1000 <= k)%Z -> (Rabs (x * bpow radix2 (53 - k) - IZR m) < / 2)%R ->
  round64 x = (IZR m * bpow radix2 (k - 53))%R.
Proof.
  intros B K H. unfold round64, round. assert (M : mag radix2 x = k :> Z) by (apply mag_unique; exact B).
  assert (C : cexp radix2 (FLT_exp (-1074) 53) x = (k - 53)%Z) by (unfold cexp, FLT_exp; rewrite M; lia).
  unfold scaled_mantissa. rewrite C. replace (- (k - 53))%Z with (53 - k)%Z by lia. rewrite (Znearest_imp _ _ m H). reflexivity.
Qed.
Lemma tenth_rounded : round64 (/ 10) = Q2R tenth.
Proof.
  rewrite (round64_at _ (-3) 7205759403792794).
  - rewrite tenth_value. cbn. lra.
  - rewrite Rabs_pos_eq by lra. cbn. lra.
  - lia.
  - cbn. apply Rabs_def1; lra.
Qed.
Lemma ten_times : reps_of round64 (Q2R tenth) = 10%Z.
Proof.
  unfold reps_of. rewrite tenth_value. replace (1 / (3602879701896397 / 36028797018963968))%R with (36028797018963968 / 3602879701896397)%R by lra.
  rewrite (round64_at _ 4 5629499534213120).
  - cbn. replace (5629499534213120 * / 562949953421312)%R with 10%R by lra. apply Ztrunc_IZR.
  - rewrite Rabs_pos_eq by lra. cbn. lra.
  - lia.
  - cbn. apply Rabs_def1; lra.
Qed.
Lemma tenth_of n : (Z.of_nat n <= 2 ^ 50)%Z -> nb_test_of round64 n (Q2R tenth) = Z.of_nat (Nat.div n 10).
Proof.
  intro Hn. unfold nb_test_of. rewrite (utils_props.round64_int (Z.of_nat n)) by (cbn in *; lia).
  pose proof (Nat.div_mod n 10 ltac:(lia)) as D. pose proof (Nat.mod_upper_bound n 10 ltac:(lia)) as U. set (m := Nat.div n 10) in *. set (r := Nat.modulo n 10) in *.
  assert (Nz : Z.of_nat n = (10 * Z.of_nat m + Z.of_nat r)%Z) by lia. assert (Ur : (0 <= Z.of_nat r <= 9)%Z) by lia. rewrite Nz in *. rewrite plus_IZR, mult_IZR.
  assert (Um : (0 <= Z.of_nat m)%Z) by lia. assert (Hm : (10 * Z.of_nat m <= 2 ^ 50)%Z) by lia. clear Hn.
  clear D U Nz. clearbody m r. clear n. rename m into m0. set (m := Z.of_nat m0) in *. set (r' := Z.of_nat r) in *. clearbody m r'. clear m0 r.
  destruct Ur as [R0 R9]. apply IZR_le in R0, R9, Um. apply IZR_le in Hm. rewrite mult_IZR in Hm. change (IZR (2 ^ 50)) with 1125899906842624%R in Hm.
  set (y := (Q2R tenth * (10 * IZR m + IZR r'))%R).
  assert (L : (IZR m <= y)%R) by (unfold y; rewrite tenth_value; lra).
  assert (Uy : (y * (1 + bpow radix2 (-53)) < IZR m + 1)%R) by (unfold y; rewrite tenth_value; cbn; lra).
  assert (Lr : (IZR m <= round64 y)%R).
  { rewrite <- (utils_props.round64_int m). - apply round_le; [apply FLT_exp_valid; reflexivity|apply valid_rnd_N|exact L]. - assert (10 * m <= 1125899906842624)%Z by (apply le_IZR; rewrite mult_IZR; exact Hm). apply le_IZR in Um. change (2 ^ 53)%Z with 9007199254740992%Z. lia. }
  assert (Ur : (round64 y < IZR m + 1)%R).
  { destruct (Rlt_le_dec (round64 y) 1) as [H|H]; [lra|]. apply Rle_lt_trans with (2 := Uy). apply round64_upper; [lra|exact H]. }
  rewrite Ztrunc_floor by lra. apply Zfloor_imp. rewrite plus_IZR. lra.
Qed.
Lemma split_tenth n : 10 <= n -> (Z.of_nat n <= 2 ^ 50)%Z -> can_split (Ratio tenth) n.
Proof.
  intros H10 Hn. split; [cbn in *; lia|]. split; [unfold tenth, Qlt, Qle; cbn; lia|]. rewrite tenth_of by exact Hn.
  pose proof (Nat.div_le_mono 10 n 10 ltac:(lia) H10) as A. rewrite Nat.div_same in A by lia. pose proof (Nat.div_lt n 10 ltac:(lia) ltac:(lia)). lia.
Qed.

Lemma enough_tenth x rd : x_mode x = Ratio tenth -> ten_samples x rd -> enough x rd.
Proof. intros M H ns l t E. rewrite M. destruct (H ns l t E). now apply split_tenth. Qed.

Lemma script_run ord rd x f w : run_world rd x None = (w, Ok tt) -> run ord rd x None f = (w, f, Ok tt).
Proof.
  intro H. unfold run. rewrite H. destruct (experiment_save.run_saveable rd x None w _ H) as (l & L & F & _). unfold save, save_writes.
  assert (E : get_logger w 0 = Ok l) by (apply logger_proof.get_logger_ok; rewrite L; reflexivity). rewrite E. cbn [bind]. rewrite F. reflexivity.
Qed.
Lemma tenths rd x p : legal x rd -> x_mode x = Ratio tenth -> ten_samples x rd -> prepare rd x = Ok p -> forall splits, p_generator p = Ok splits -> ten_runs (length (p_labels p)) splits.
Proof.
  intros G M T Ep splits Es. destruct (prepare_inv _ _ _ Ep) as [B]. pose proof (pb_gen _ _ _ B) as Pg. rewrite M in Pg. cbn [get_generator] in Pg. injection Pg as Pg. rewrite Es in Pg.
  pose proof G as (_ & _ & Ps & _). destruct (T _ _ _ (pb_pair _ _ _ B)) as [T1 T2]. rewrite <- (samples_length rd x p G B) in T1, T2. set (n := length (p_labels p)) in *.
  destruct (random_split_spec (r_split rd) n (Q2R tenth)) as [A _]; [cbn in *; lia|rewrite tenth_value; lra|exact Ps|].
  rewrite (tenth_of n T2) in A. destruct A as (l & El & Ll & Is & Dj).
  { pose proof (Nat.div_le_mono 10 n 10 ltac:(lia) T1) as A. rewrite Nat.div_same in A by lia. lia. }
  rewrite Pg in El. injection El as <-. rewrite ten_times in Ll. split; [lia|]. split; [|exact Dj]. intros s0 I. destruct (Is s0 I) as [P L]. split; [exact P|lia].
Qed.

Lemma debug_first argv : fst (pop_debug argv) = true <-> exists prog rest, argv = prog :: "--debug"%string :: rest.
Proof.
  destruct argv as [|prog [|a rest]]; cbn [pop_debug fst]; try (split; [discriminate|intros (? & ? & ?); discriminate]).
  destruct (String.eqb_spec a "--debug") as [->|N]; cbn [fst]; split; try discriminate; try reflexivity.
  - intros _. now exists prog, rest.
  - intros (? & ? & [= _ E _]). destruct (N E).
Qed.

Lemma table_ok n1 n2 argv ff l1 l2 : clean n1 -> clean n2 -> exists x debug, on_two n1 n2 l1 l2 debug x /\ (debug = true <-> exists prog rest, argv = prog :: "--debug"%string :: rest) /\
  forall ord rd f, sound x -> legal x rd -> ten_samples x rd ->
  exists p splits w rows, prepare rd x = Ok p /\ ten_runs (length (p_labels p)) splits /\ runs_of w 0 = Some 10 /\
    (forall q tr te, nth_error splits q = Some (tr, te) -> run_results x p tr te (value_at w 0 q)) /\
    table_script n1 n2 argv ff l1 l2 ord rd f = (w, f, rows, Ok tt) /\ table_of x p splits rows.
Proof.
  intros C1 C2. pose proof (debug_first argv) as D. exists (default_experiment ff n1 n2 l1 l2 (fst (pop_debug argv))), (fst (pop_debug argv)). split; [|split; [exact D|]].
  - unfold on_two. destruct ff; cbn; intuition.
  - clear D. unfold table_script. destruct (pop_debug argv) as [debug rest]. cbn [fst]. intros ord rd f So Le T. set (x := default_experiment ff n1 n2 l1 l2 debug) in *.
    assert (M : x_mode x = Ratio tenth) by reflexivity. pose proof (enough_tenth x rd M T) as En.
    assert (Cl : forall m, In m (x_mods x) -> clean m) by (unfold x; destruct ff; cbn; intuition congruence).
    assert (L2 : length (x_mods x) = 2) by (unfold x; destruct ff; reflexivity).
    destruct (run_succeeds rd x None So Le En) as (p & splits & w & Ep & Eg & _ & _ & Er & Rn & Rs); [discriminate|exact Cl|discriminate|].
    destruct (two_table rd x None So Le En eq_refl Cl ltac:(lia)) as (p' & splits' & w' & Ep' & Eg' & Er' & rows & Pr & F).
    assert (p' = p) as -> by congruence. assert (splits' = splits) as -> by congruence. assert (w' = w) as -> by congruence.
    pose proof (tenths rd x p Le M T Ep splits Eg) as Tn. exists p, splits, w, rows. split; [exact Ep|]. split; [exact Tn|]. split; [rewrite Rn; f_equal; apply Tn|]. split; [exact Rs|].
    rewrite (script_run ord rd x f w Er), Pr. split; [reflexivity|]. rewrite L2 in F. exact F.
Qed.

(** Fewer than ten samples *)
Lemma table_few n1 n2 argv ff l1 l2 : exists x debug, on_two n1 n2 l1 l2 debug x /\ (debug = true <-> exists prog rest, argv = prog :: "--debug"%string :: rest) /\
  forall ord rd f p, legal x rd -> prepare rd x = Ok p -> length (p_labels p) < 10 ->
  exists w, table_script n1 n2 argv ff l1 l2 ord rd f = (w, f, [], Err ValueError) /\ runs_of w 0 = Some 0.
Proof.
  pose proof (debug_first argv) as D. exists (default_experiment ff n1 n2 l1 l2 (fst (pop_debug argv))), (fst (pop_debug argv)). split; [|split; [exact D|]].
  - unfold on_two. destruct ff; cbn; intuition.
  - clear D. unfold table_script. destruct (pop_debug argv) as [debug rest]. cbn [fst]. intros ord rd f p Le Ep Hn. set (x := default_experiment ff n1 n2 l1 l2 debug) in *.
    destruct (prepare_inv _ _ _ Ep) as [B]. pose proof (pb_gen _ _ _ B) as Pg. cbn [x default_experiment x_mode get_generator] in Pg. injection Pg as Pg.
    pose proof Le as (_ & _ & Ps & _). destruct (random_split_spec (r_split rd) (length (p_labels p)) (Q2R tenth)) as [_ A]; [lia|rewrite tenth_value; lra|exact Ps|].
    rewrite tenth_of, Nat.div_small in A by lia. specialize (A eq_refl). rewrite A in Pg.
    destruct (run_world rd x None) as [w r] eqn:Er. unfold run. rewrite Er.
    destruct (experiment_log.logged_splits rd x None p w r Le Ep Er) as [E _]; [lia|unfold tenth, Qlt, Qle; cbn; lia|].
    destruct (E ValueError (eq_sym Pg)) as [-> R0]. exists w. auto.
Qed.
