(** * Lemmas on the construction of codebooks by splitting. *)

From Coq Require Import List ZArith Arith Reals Bool Lia Lra.
Import ListNotations.
From Verif Require Import Py Py_proof hac_model hac_spec quant_model quant_spec hac_proof quant_proof.
Open Scope py_scope.
Local Open Scope R_scope.

Lemma argmax_from_spec l pos best bestv l0 :
  length l0 = pos -> (best < pos)%nat -> nth best l0 0%nat = bestv ->
  (forall j, (j < pos)%nat -> (nth j l0 0 <= bestv)%nat) ->
  let r := argmax_from l pos best bestv in
  (r < pos + length l)%nat /\
  (forall j, (j < pos + length l)%nat -> (nth j (l0 ++ l) 0 <= nth r (l0 ++ l) 0)%nat).
Proof.
  revert pos best bestv l0. induction l as [|x l IH]; intros pos best bestv l0 L B V M.
  - cbn. rewrite app_nil_r, Nat.add_0_r. split; [exact B|]. intros j J. rewrite V. auto.
  - cbn [argmax_from]. specialize (IH (S pos)).
    assert (A : l0 ++ x :: l = (l0 ++ [x]) ++ l) by (rewrite <- app_assoc; reflexivity).
    assert (Len : length (l0 ++ [x]) = S pos) by (rewrite app_length; cbn; lia).
    assert (NX : nth pos (l0 ++ [x]) 0%nat = x) by (rewrite app_nth2 by lia; rewrite L, Nat.sub_diag; reflexivity).
    assert (NO : forall j, (j < pos)%nat -> nth j (l0 ++ [x]) 0%nat = nth j l0 0%nat) by (intros; apply app_nth1; lia).
    cbn [length]. rewrite A. replace (pos + S (length l))%nat with (S pos + length l)%nat by lia.
    destruct (Nat.ltb_spec bestv x) as [X|X].
    + apply IH; try assumption; try lia.
      intros j J. destruct (Nat.eq_dec j pos) as [->|N]; [rewrite NX; lia|].
      rewrite NO by lia. specialize (M j ltac:(lia)). lia.
    + apply IH; try assumption; try lia.
      * rewrite NO by lia. exact V.
      * intros j J. destruct (Nat.eq_dec j pos) as [->|N]; [rewrite NX; lia|].
        rewrite NO by lia. apply M. lia.
Qed.
Lemma argmax_spec l : l <> [] -> exists i, argmax l = Ok i /\ (i < length l)%nat /\
  forall j, (j < length l)%nat -> (nth j l 0 <= nth i l 0)%nat.
Proof.
  destruct l as [|x l]; [congruence|]. intros _. eexists. split; [reflexivity|].
  apply (argmax_from_spec l 1 0 x [x] eq_refl); [lia|reflexivity|].
  intros j J. replace j with 0%nat by lia. cbn. lia.
Qed.

Lemma filter_members (codes : list nat) i :
  length (filter (Z.eqb (Z.of_nat i)) (map Z.of_nat codes)) = members codes i.
Proof.
  unfold members. induction codes as [|c codes IH]; [reflexivity|]. cbn [map filter count_occ].
  destruct (Nat.eq_dec c i) as [->|N].
  - rewrite Z.eqb_refl. cbn [length]. rewrite IH. reflexivity.
  - destruct (Z.eqb_spec (Z.of_nat i) (Z.of_nat c)); [lia|exact IH].
Qed.

Lemma bincount_members codes k : Forall (fun c => (c < k)%nat) codes ->
  bincount (map Z.of_nat codes) (Z.of_nat k) = Ok (map (members codes) (seq 0 k)).
Proof.
  intros H. rewrite bincount_codes.
  - rewrite Nat2Z.id. f_equal. apply map_ext. apply filter_members.
  - induction H; cbn; constructor; [lia|assumption].
  - lia.
Qed.

Lemma members_seq codes k j : (j < k)%nat -> nth j (map (members codes) (seq 0 k)) 0%nat = members codes j.
Proof.
  intros J. rewrite nth_indep with (d' := members codes 0) by (rewrite map_length, seq_length; exact J).
  rewrite map_nth, seq_nth by exact J. reflexivity.
Qed.

Lemma members_pos codes h : (0 < members codes h)%nat -> In h codes.
Proof. unfold members. intros H. apply (count_occ_In Nat.eq_dec). lia. Qed.

Lemma some_member codes k h : codes <> [] -> Forall (fun c => (c < k)%nat) codes -> most_populated codes k h ->
  In h codes.
Proof.
  intros N F (_ & M). destruct codes as [|c codes]; [congruence|]. inversion F; subst.
  apply members_pos. specialize (M c H1). unfold members at 1 in M. cbn [count_occ] in M.
  destruct (Nat.eq_dec c c); [lia|congruence].
Qed.

Lemma row_add_moved c p t : length p = length c -> exists r, row_add c (map (fun x => t * x) p) = Ok r /\ moved c p t r.
Proof.
  intros L. unfold row_add. rewrite map_length, L, Nat.eqb_refl. eexists. split; [reflexivity|]. split.
  - rewrite map_length, combine_length, map_length, L. lia.
  - revert p L. induction c as [|x c IH]; intros [|y p] L j J; try discriminate; cbn in J; [lia|].
    cbn [map combine]. destruct j as [|j]; cbn [nth fst snd]; [reflexivity|]. apply IH; cbn in L; lia.
Qed.

Section Kmeans.
Variable vq : mat R -> mat R -> result (list nat).
Variable svd : mat R -> result (list R * list (list R)).
Variable kmeans2 : mat R -> mat R -> result (mat R).
Hypothesis Hvq : is_vq vq.
Hypothesis Hsvd : is_svd svd.
Hypothesis Hk2 : is_kmeans2 kmeans2.

Lemma assoc_rows codes (rows : list (list R)) h n : length codes = length rows -> In h codes ->
  Forall (fun r => length r = n) rows ->
  let a := map snd (filter (fun qr => (fst qr =? h)%nat) (combine codes rows)) in
  a <> [] /\ Forall (fun r => length r = n) a.
Proof.
  revert rows. induction codes as [|c codes IH]; intros [|r rows] L I F; try discriminate; [destruct I|].
  cbn [combine filter fst]. inversion F; subst. cbn in L.
  destruct (Nat.eqb_spec c h) as [->|N].
  - cbn [map snd]. split; [discriminate|]. constructor; [reflexivity|].
    clear - H2. revert codes. induction rows as [|r' rows IHr]; intros [|c codes]; cbn [combine filter map]; try constructor.
    inversion H2; subst. cbn [fst]. destruct (c =? h)%nat; cbn [map snd]; [constructor|]; try assumption; apply IHr; assumption.
  - destruct I as [->|I]; [congruence|]. apply IH; [lia|exact I|exact H2].
Qed.

Lemma split_ok data cs alpha : rect data -> rect cs -> mcols data = mcols cs -> (0 < mcols data)%nat ->
  mrows data <> [] -> mrows cs <> [] ->
  exists codes h p r1 r2, vq data cs = Ok codes /\ Forall2 (nearest (mrows cs)) (mrows data) codes /\
    most_populated codes (length (mrows cs)) h /\ length p = mcols cs /\
    moved (nth h (mrows cs) []) p alpha r1 /\ moved (nth h (mrows cs) []) p (- alpha) r2 /\
    split_largest vq svd data cs alpha =
      Ok (Mat (mcols cs) (firstn h (mrows cs) ++ skipn (S h) (mrows cs) ++ [r1; r2])).
Proof using Hvq Hsvd.
  intros Rd Rc E P Nd Nc. destruct (Hvq data cs Rd Rc E Nc) as (codes & Ec & F).
  assert (B : Forall (fun c => (c < length (mrows cs))%nat) codes).
  { eapply F2_in_first; [exact F|]. intros a b [L _]. exact L. }
  assert (LC : length codes = length (mrows data)).
  { clear -F. induction F; cbn; congruence. }
  destruct (argmax_spec (map (members codes) (seq 0 (length (mrows cs))))) as (h & Eh & Lh & Mh).
  { destruct (mrows cs); [congruence|discriminate]. }
  rewrite map_length, seq_length in Lh, Mh.
  assert (MP : most_populated codes (length (mrows cs)) h).
  { split; [exact Lh|]. intros j J. specialize (Mh j J). rewrite !members_seq in Mh by assumption. exact Mh. }
  assert (NC : codes <> []).
  { intros ->. destruct (mrows data); [congruence|discriminate LC]. }
  destruct (assoc_rows codes (mrows data) h (mcols data) LC (some_member _ _ _ NC B MP) Rd) as (Na & Fa).
  destruct (Hsvd (Mat (mcols data) (map snd (filter (fun qr => (fst qr =? h)%nat) (combine codes (mrows data)))))) as (s & v & Es & Ns & Nv & Fv); try assumption.
  destruct s as [|s0 s]; [congruence|]. destruct v as [|v0 v]; [congruence|].
  inversion Fv as [|? ? Lv0 _]; subst. cbn [mcols] in Lv0.
  assert (Lp : length (map (fun x => x * sqrt s0) v0) = mcols cs) by (rewrite map_length; congruence).
  assert (Lc : length (nth h (mrows cs) []) = mcols cs).
  { unfold rect in Rc. rewrite Forall_forall in Rc. apply Rc, nth_In, Lh. }
  destruct (row_add_moved (nth h (mrows cs) []) (map (fun x => x * sqrt s0) v0) alpha) as (r1 & E1 & M1); [congruence|].
  destruct (row_add_moved (nth h (mrows cs) []) (map (fun x => x * sqrt s0) v0) (- alpha)) as (r2 & E2 & M2); [congruence|].
  exists codes, h, (map (fun x => x * sqrt s0) v0), r1, r2.
  do 6 (split; [assumption|]).
  unfold split_largest. rewrite Ec. cbn [bind]. rewrite bincount_members by exact B. cbn [bind].
  rewrite Eh. cbn [bind]. rewrite Es. cbn [bind].
  change (py_nth (v0 :: v) 0) with (Ok v0). change (py_nth (s0 :: s) 0) with (Ok s0). cbn [bind].
  assert (Eh2 : py_nth (mrows cs) (Z.of_nat h) = Ok (nth h (mrows cs) [])).
  { unfold py_nth, norm_index. rewrite (proj2 (Z.leb_le 0 (Z.of_nat h))) by lia.
    rewrite (proj2 (Z.ltb_lt (Z.of_nat h) (Z.of_nat (length (mrows cs))))) by lia. cbn [andb bind].
    rewrite Nat2Z.id, (nth_error_nth' _ [] Lh). reflexivity. }
  rewrite Eh2. cbn [bind]. rewrite E1. cbn [bind].
  rewrite (map_ext (fun x => - (alpha * x)) (fun x => - alpha * x)) by (intros; ring).
  rewrite E2. cbn [bind]. f_equal. f_equal. f_equal.
  - unfold slice_to, clamp_slice. destruct (Z.ltb_spec (Z.of_nat h) 0); [lia|]. f_equal. lia.
  - f_equal. replace (Z.of_nat h + 1)%Z with (Z.of_nat (S h)) by lia. apply slice_from_skipn.
Qed.

Lemma split_shape (data cs : mat R) alpha (cs' : mat R) h r1 r2 p : rect data -> rect cs -> mcols data = mcols cs ->
  (h < length (mrows cs))%nat -> length p = mcols cs ->
  moved (nth h (mrows cs) []) p alpha r1 -> moved (nth h (mrows cs) []) p (- alpha) r2 ->
  cs' = Mat (mcols cs) (firstn h (mrows cs) ++ skipn (S h) (mrows cs) ++ [r1; r2]) ->
  rect cs' /\ length (mrows cs') = S (length (mrows cs)).
Proof using.
  intros Rd Rc E Lh Lp (L1 & _) (L2 & _) ->.
  assert (Lc : length (nth h (mrows cs) []) = mcols cs).
  { unfold rect in Rc. rewrite Forall_forall in Rc. apply Rc, nth_In, Lh. }
  split.
  - unfold rect in *. cbn [mrows mcols]. rewrite Forall_forall in *. intros r H.
    apply in_app_or in H. destruct H as [H|H]; [apply Rc; rewrite <- (firstn_skipn h (mrows cs)); apply in_or_app; auto|].
    apply in_app_or in H. destruct H as [H|H]; [apply Rc; rewrite <- (firstn_skipn (S h) (mrows cs)); apply in_or_app; auto|].
    destruct H as [<-|[<-|[]]]; congruence.
  - cbn [mrows]. rewrite !app_length, firstn_length, skipn_length. cbn [length]. lia.
Qed.

Lemma loop_ok data k alpha : rect data -> (0 < mcols data)%nat -> mrows data <> [] ->
  forall fuel cs, rect cs -> mcols data = mcols cs -> mrows cs <> [] ->
  (k <= Z.of_nat (fuel + length (mrows cs)))%Z ->
  exists c, kmeans_loop vq svd kmeans2 fuel data cs k alpha = Ok c /\ rect c /\ mcols c = mcols data /\
    length (mrows c) = Nat.max (length (mrows cs)) (Z.to_nat k).
Proof using Hvq Hsvd Hk2.
  intros Rd P Nd. induction fuel as [|fuel IH]; intros cs Rc E Nc K; cbn [kmeans_loop].
  - destruct (Z.ltb_spec (Z.of_nat (length (mrows cs))) k) as [X|X]; [cbn in K; lia|].
    exists cs. split; [reflexivity|]. split; [exact Rc|]. split; [congruence|]. lia.
  - destruct (Z.ltb_spec (Z.of_nat (length (mrows cs))) k) as [X|X].
    + destruct (split_ok data cs alpha Rd Rc E P Nd Nc) as (codes & h & p & r1 & r2 & _ & _ & MP & Lp & M1 & M2 & S).
      rewrite S. cbn [bind]. set (cs1 := Mat _ _).
      destruct (split_shape data cs alpha cs1 h r1 r2 p Rd Rc E (proj1 MP) Lp M1 M2 eq_refl) as (R1 & L1).
      destruct (Hk2 data cs1 Rd R1) as (c2 & E2 & R2 & C2 & L2); [exact E|exact Nd| |].
      { intros Z. rewrite Z in L1. discriminate L1. }
      rewrite E2. cbn [bind]. destruct (IH c2 R2) as (c & Ec & Rcc & Cc & Lc).
      * rewrite C2. exact E.
      * intros Z. rewrite L1, Z in L2. discriminate L2.
      * lia.
      * exists c. split; [exact Ec|]. split; [exact Rcc|]. split; [exact Cc|]. lia.
    + exists cs. split; [reflexivity|]. split; [exact Rc|]. split; [congruence|]. lia.
Qed.

Lemma kmeans_count data k alpha fuel : rect data -> (0 < mcols data)%nat -> mrows data <> [] ->
  (k <= Z.of_nat (fuel + 1))%Z ->
  exists c, iterative_kmeans vq svd kmeans2 fuel data k alpha = Ok c /\ rect c /\ mcols c = mcols data /\
    length (mrows c) = Nat.max 1 (Z.to_nat k).
Proof using Hvq Hsvd Hk2.
  intros Rd P Nd K. unfold iterative_kmeans. apply loop_ok; try assumption.
  - unfold rect. cbn [mrows mcols]. constructor; [|constructor]. unfold mean_rows. rewrite map_length, seq_length. reflexivity.
  - reflexivity.
  - discriminate.
Qed.

Lemma build_modes kr data k m fuel :
  build_codebook vq svd kmeans2 kr fuel data k OtherMode = Err ValueError /\
  build_codebook vq svd kmeans2 kr fuel data k Raw = kr data k /\
  (m = Iterative -> rect data -> (0 < mcols data)%nat -> mrows data <> [] -> (k <= Z.of_nat (fuel + 1))%Z ->
   exists c, build_codebook vq svd kmeans2 kr fuel data k m = Ok c /\ length (mrows c) = Nat.max 1 (Z.to_nat k)).
Proof using Hvq Hsvd Hk2.
  split; [reflexivity|]. split; [reflexivity|]. intros -> Rd P Nd K.
  destruct (kmeans_count data k (/ 100) fuel Rd P Nd K) as (c & E & _ & _ & L). exists c. split; [exact E|exact L].
Qed.
End Kmeans.
