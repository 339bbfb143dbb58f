(** * reverse_function, tall matrices, enumeration of permutations, brute force,
      fuel independence and NaN divergence. *)

From Coq Require Import List Arith Bool Lia Permutation QArith Lqa Setoid.
Import ListNotations.
From Verif Require Import Py Py_proof ListUtil munkres_model munkres_proof
  munkres_spec munkres_opt.
Local Open Scope nat_scope.

(** ** Fuel independence. *)

Section Fuel.
Context (A : arith).

Lemma find_path_mono : forall f g t r f', find_path A f g t = Ok r -> f <= f' ->
  find_path A f' g t = Ok r.
Proof.
  induction f as [|f IH]; intros g t r f' E Hle; [discriminate|].
  destruct f' as [|f']; [lia|]. simpl in *.
  destruct (tstack t) as [|v rest].
  - destruct (augment_labels A g t) as [[g' t']|e]; simpl in *; [|discriminate].
    apply IH; [exact E|lia].
  - destruct (mat1 A g v); [|exact E]. apply IH; [exact E|lia].
Qed.

Lemma augment_matching_mono father : forall f g v r f',
  augment_matching A f father g v = Ok r -> f <= f' ->
  augment_matching A f' father g v = Ok r.
Proof.
  induction f as [|f IH]; intros g v r f' E Hle; [discriminate|].
  destruct f' as [|f']; [lia|]. simpl in *.
  destruct (father v) as [u|]; [|discriminate].
  destruct (mat0 A g u); [|exact E]. apply IH; [exact E|lia].
Qed.

Lemma matching_loop_mono : forall f i g u r f' i',
  matching_loop A f i g u = Ok r -> f <= f' -> i <= i' ->
  matching_loop A f' i' g u = Ok r.
Proof.
  induction f as [|f IH]; intros i g u r f' i' E Hf Hi; [discriminate|].
  destruct f' as [|f']; [lia|]. simpl in *.
  destruct (u <? bg_n A g); [|exact E].
  destruct (mat0 A g u).
  - eapply IH; [exact E|lia|exact Hi].
  - destruct (find_path A i g (new_tree A g u)) as [[[g' t] v]|e] eqn:E1; [|discriminate].
    rewrite (find_path_mono _ _ _ _ _ E1 Hi). simpl in *.
    destruct (augment_matching A i (tfather t) g' v) as [g2|e] eqn:E2; [|discriminate].
    rewrite (augment_matching_mono _ _ _ _ _ _ E2 Hi). simpl in *.
    eapply IH; [exact E|lia|exact Hi].
Qed.

Lemma max_weight_matching_mono f n w r f' :
  max_weight_matching A f n w = Ok r -> f <= f' ->
  max_weight_matching A f' n w = Ok r.
Proof.
  unfold max_weight_matching. intros E Hle.
  destruct (init_labels A n w) as [l0|e]; simpl in *; [|discriminate].
  match type of E with bind ?x _ = _ => destruct x as [g|e] eqn:E1 end; [|discriminate].
  rewrite (matching_loop_mono _ _ _ _ _ _ _ E1 Hle Hle). exact E.
Qed.

Lemma square_mono f (m : matrix A) r f' :
  min_weight_perm_square A f m = Ok r -> f <= f' ->
  min_weight_perm_square A f' m = Ok r.
Proof.
  unfold min_weight_perm_square. intros E Hle.
  destruct (np_max A (all_entries m)) as [x|e]; simpl in *; [|discriminate].
  eapply max_weight_matching_mono; eassumption.
Qed.

Lemma wide_mono f (m : matrix A) r f' :
  min_weight_perm_wide A f m = Ok r -> f <= f' ->
  min_weight_perm_wide A f' m = Ok r.
Proof.
  unfold min_weight_perm_wide. intros E Hle.
  match type of E with bind ?x _ = _ => destruct x as [m'|e] end; simpl in *; [|discriminate].
  destruct (min_weight_perm_square A f m') as [p|e] eqn:E1; [|discriminate].
  rewrite (square_mono _ _ _ _ E1 Hle). exact E.
Qed.

Lemma min_weight_perm_mono f (m : matrix A) r f' :
  min_weight_perm f m = Ok r -> f <= f' -> min_weight_perm f' m = Ok r.
Proof.
  unfold min_weight_perm. intros E Hle.
  destruct (mcols m <? nrows m); [|eapply wide_mono; eassumption].
  destruct (min_weight_perm_wide A f (transpose m)) as [p|e] eqn:E1; [|discriminate].
  rewrite (wide_mono _ _ _ _ E1 Hle). exact E.
Qed.
End Fuel.

(** ** reverse_function. *)

Definition rev_step (rev : list (option nat)) (p : nat * nat) : result (list (option nat)) :=
  py_set rev (Z.of_nat (snd p)) (Some (fst p)).

Lemma py_set_nat {X} (l : list X) j x :
  py_set l (Z.of_nat j) x = if j <? length l then Ok (list_set l j x) else Err IndexError.
Proof.
  unfold py_set. rewrite norm_index_nonneg. destruct (j <? length l); reflexivity.
Qed.

Lemma rev_fold_ok s : forall i0 init,
  (forall j, In j s -> j < length init) -> NoDup s ->
  exists r, foldM rev_step (combine (seq i0 (length s)) s) init = Ok r /\
    length r = length init /\
    (forall j, ~ In j s -> nth_error r j = nth_error init j) /\
    (forall k j, nth_error s k = Some j -> nth_error r j = Some (Some (i0 + k))).
Proof.
  induction s as [|j s IH]; intros i0 init Hlt Hnd.
  - exists init. simpl. repeat split; auto. intros [|k] j H; discriminate.
  - inversion Hnd as [|? ? Hj Hnd']; subst.
    destruct (IH (S i0) (list_set init j (Some i0))) as (r & E & Hl & Hout & Hin).
    { intros k Hk. rewrite list_set_length. apply Hlt; right; exact Hk. }
    { exact Hnd'. }
    exists r. cbn [length seq combine foldM].
    unfold rev_step at 1. cbn [fst snd]. rewrite py_set_nat.
    assert (j < length init) as Hjl by (apply Hlt; left; reflexivity).
    apply Nat.ltb_lt in Hjl. rewrite Hjl. cbn [bind].
    split; [exact E|]. rewrite list_set_length in Hl. split; [exact Hl|].
    split.
    + intros k Hk. rewrite Hout by (intros H; apply Hk; right; exact H).
      rewrite nth_error_list_set. destruct (Nat.eqb_spec k j) as [->|]; [|reflexivity].
      exfalso; apply Hk; left; reflexivity.
    + intros [|k] x Hx; simpl in Hx.
      * injection Hx as <-. rewrite Hout by exact Hj.
        rewrite nth_error_list_set, Nat.eqb_refl, Hjl. rewrite Nat.add_0_r. reflexivity.
      * rewrite Nat.add_succ_r. apply (Hin k x Hx).
Qed.

Lemma reverse_function_ok s size :
  NoDup s -> (forall j, In j s -> j < size) ->
  exists r, reverse_function s (Some size) = Ok r /\ length r = size /\
    (forall i j, nth_error r j = Some (Some i) <-> nth_error s i = Some j) /\
    (forall j, j < size -> ~ In j s -> nth_error r j = Some None).
Proof.
  intros Hnd Hlt. unfold reverse_function, enumerate. cbn [bind].
  destruct (rev_fold_ok s 0 (repeat None size)) as (r & E & Hl & Hout & Hin); auto.
  { intros j Hj. rewrite repeat_length. auto. }
  exists r. split; [exact E|]. rewrite repeat_length in Hl. split; [exact Hl|].
  assert (Hnone : forall j, j < size -> ~ In j s -> nth_error r j = Some None).
  { intros j Hj Hjs. rewrite Hout by exact Hjs.
    rewrite (nth_error_nth' _ None) by (rewrite repeat_length; exact Hj).
    rewrite nth_repeat. reflexivity. }
  split; [|exact Hnone].
  intros i j. split.
  - intros H.
    destruct (in_dec Nat.eq_dec j s) as [Hj|Hj].
    + apply In_nth_error in Hj as [k Hk]. rewrite (Hin k j Hk) in H.
      injection H as <-. exact Hk.
    + assert (j < size).
      { rewrite <- Hl. apply nth_error_Some. congruence. }
      rewrite Hnone in H by assumption. discriminate.
  - intros H. apply (Hin i j H).
Qed.

Lemma fold_max_ge l : forall x y, In y (x :: l) -> y <= fold_left Nat.max l x.
Proof.
  induction l as [|z l IH]; intros x y Hy; simpl in *.
  - destruct Hy as [->|[]]. lia.
  - destruct Hy as [<-|[<-|Hy]].
    + specialize (IH (Nat.max x z) _ (or_introl eq_refl)). lia.
    + specialize (IH (Nat.max x z) _ (or_introl eq_refl)). lia.
    + apply IH; right; exact Hy.
Qed.
Lemma fold_max_in l : forall x, In (fold_left Nat.max l x) (x :: l).
Proof.
  induction l as [|z l IH]; intros x; [left; reflexivity|].
  change (fold_left Nat.max (z :: l) x) with (fold_left Nat.max l (Nat.max x z)).
  destruct (IH (Nat.max x z)) as [H|H]; [|right; right; exact H].
  rewrite <- H. destruct (Nat.max_spec x z) as [[_ ->]|[_ ->]]; simpl; auto.
Qed.

Lemma rev_fold_err s : forall i0 init,
  (exists j, In j s /\ length init <= j) ->
  foldM rev_step (combine (seq i0 (length s)) s) init = Err IndexError.
Proof.
  induction s as [|j s IH]; intros i0 init (k & Hk & Hle); [destruct Hk|].
  cbn [length seq combine foldM]. unfold rev_step at 1. cbn [fst snd].
  rewrite py_set_nat. destruct (Nat.ltb_spec j (length init)) as [Hj|Hj]; [|reflexivity].
  cbn [bind]. apply IH. destruct Hk as [->|Hk]; [lia|].
  exists k. rewrite list_set_length. auto.
Qed.

Lemma reverse_function_default s : s <> [] ->
  reverse_function s None = Err IndexError.
Proof.
  destruct s as [|x l]; [congruence|]. intros _.
  unfold reverse_function, enumerate, list_max_res. cbn [bind].
  apply (rev_fold_err (x :: l) 0). exists (fold_left Nat.max l x).
  split; [apply fold_max_in|]. rewrite repeat_length. lia.
Qed.

(** ** Tall matrices. *)

Fixpoint opairs (i : nat) (r : list (option nat)) : list (nat * nat) :=
  match r with
  | [] => []
  | Some j :: r' => (i, j) :: opairs (S i) r'
  | None :: r' => opairs (S i) r'
  end.

Lemma in_opairs r : forall i a j, In (a, j) (opairs i r) <->
  i <= a /\ nth_error r (a - i) = Some (Some j).
Proof.
  induction r as [|[x|] r IH]; intros i a j; simpl.
  - split; [tauto|]. intros [_ H]. destruct (a - i); discriminate.
  - rewrite IH. split.
    + intros [E|[H1 H2]].
      * injection E as -> ->. split; [lia|]. rewrite Nat.sub_diag. reflexivity.
      * split; [lia|]. replace (a - i) with (S (a - S i)) by lia. exact H2.
    + intros [H1 H2]. destruct (a - i) as [|k] eqn:Ek.
      * left. simpl in H2. injection H2 as ->. f_equal. lia.
      * right. split; [lia|]. replace (a - S i) with k by lia. exact H2.
  - rewrite IH. split.
    + intros [H1 H2].
      split; [lia|]. replace (a - i) with (S (a - S i)) by lia. exact H2.
    + intros [H1 H2]. destruct (a - i) as [|k] eqn:Ek; [discriminate|].
      split; [lia|]. replace (a - S i) with k by lia. exact H2.
Qed.

Lemma opairs_NoDup r : forall i, NoDup (opairs i r).
Proof.
  induction r as [|[x|] r IH]; intros i; simpl; [constructor| |apply IH].
  constructor; [|apply IH]. rewrite in_opairs. lia.
Qed.

Definition sum2 (c : nat -> nat -> Q) (l : list (nat * nat)) : Q :=
  fold_right (fun p a => (c (fst p) (snd p) + a)%Q) 0%Q l.

Lemma sum2_perm c l l' : Permutation l l' -> (sum2 c l == sum2 c l')%Q.
Proof. induction 1; simpl; lra. Qed.

Lemma partial_cost_sum2 c r : forall i,
  (partial_cost_from c i r == sum2 c (opairs i r))%Q.
Proof.
  induction r as [|[x|] r IH]; intros i; simpl; [reflexivity| |apply IH].
  rewrite IH. reflexivity.
Qed.

Lemma cost_sum2 c s : forall i,
  (cost_from c i s == sum2 c (combine (seq i (length s)) s))%Q.
Proof.
  induction s as [|x s IH]; intros i; simpl; [reflexivity|].
  rewrite IH. reflexivity.
Qed.

Lemma sum2_swap c l :
  (sum2 (fun a b => c b a) l == sum2 c (map (fun p => (snd p, fst p)) l))%Q.
Proof. induction l as [|[a b] l IH]; simpl; [reflexivity|]. rewrite IH. reflexivity. Qed.

Lemma in_combine_seq {X} (s : list X) : forall i a (x : X),
  In (a, x) (combine (seq i (length s)) s) <->
  i <= a /\ nth_error s (a - i) = Some x.
Proof.
  induction s as [|y s IH]; intros i a x; simpl.
  - split; [tauto|]. intros [_ H]. destruct (a - i); discriminate.
  - rewrite IH. split.
    + intros [E|[H1 H2]].
      * injection E as -> ->. split; [lia|]. rewrite Nat.sub_diag. reflexivity.
      * split; [lia|]. replace (a - i) with (S (a - S i)) by lia. exact H2.
    + intros [H1 H2]. destruct (a - i) as [|k] eqn:Ek.
      * left. simpl in H2. injection H2 as ->. f_equal. lia.
      * right. split; [lia|]. replace (a - S i) with k by lia. exact H2.
Qed.

Lemma combine_seq_NoDup {X} (s : list X) : forall i, NoDup (combine (seq i (length s)) s).
Proof.
  induction s as [|y s IH]; intros i; simpl; constructor; [|apply IH].
  rewrite in_combine_seq. lia.
Qed.

Lemma inverse_cost c r s :
  (forall i j, nth_error r i = Some (Some j) <-> nth_error s j = Some i) ->
  (partial_cost c r == cost (fun j i => c i j) s)%Q.
Proof.
  intros H. unfold partial_cost, cost. rewrite partial_cost_sum2, cost_sum2.
  rewrite (sum2_swap c). apply sum2_perm. apply NoDup_Permutation.
  - apply opairs_NoDup.
  - apply NoDup_map_inj_in; [|apply combine_seq_NoDup].
    intros [a b] [a' b'] _ _ E. simpl in E. congruence.
  - intros [i j]. rewrite in_opairs, in_map_iff. rewrite Nat.sub_0_r, H. split.
    + intros [_ Hj]. exists (j, i). split; [reflexivity|].
      rewrite in_combine_seq, Nat.sub_0_r. split; [lia|exact Hj].
    + intros ((a & b) & E & Hin). simpl in E. injection E as -> ->.
      rewrite in_combine_seq, Nat.sub_0_r in Hin. destruct Hin; split; [lia|assumption].
Qed.

Lemma in_columns_of r j : In j (columns_of r) <-> In (Some j) r.
Proof.
  unfold columns_of. rewrite in_flat_map. split.
  - intros ([x|] & H & Hj); [|destruct Hj]. destruct Hj as [->|[]]. exact H.
  - intros H. exists (Some j). simpl; auto.
Qed.

Lemma columns_of_unique r : NoDup (columns_of r) -> forall i i' j,
  nth_error r i = Some (Some j) -> nth_error r i' = Some (Some j) -> i = i'.
Proof.
  induction r as [|o r IH]; intros Hnd i i' j Hi Hi'; [destruct i; discriminate|].
  assert (Hnd' : NoDup (columns_of r)).
  { destruct o; [inversion Hnd; assumption|exact Hnd]. }
  destruct i as [|i], i' as [|i']; [reflexivity| | |f_equal; eapply IH; eassumption];
    simpl in Hi, Hi'.
  - injection Hi as ->. simpl in Hnd. inversion Hnd as [|? ? Hn _]; subst.
    exfalso. apply Hn. apply in_columns_of. eapply nth_error_In; exact Hi'.
  - injection Hi' as ->. simpl in Hnd. inversion Hnd as [|? ? Hn _]; subst.
    exfalso. apply Hn. apply in_columns_of. eapply nth_error_In; exact Hi.
Qed.

Lemma covers_NoDup n1 n2 r : covers_columns n1 n2 r -> NoDup (columns_of r).
Proof.
  intros [_ H]. eapply Permutation_NoDup; [symmetry; exact H|apply seq_NoDup].
Qed.

(** Inverse of a covering partial assignment. *)
Lemma covers_inverse n1 n2 r : covers_columns n1 n2 r ->
  exists s, is_injection n2 n1 s /\
    (forall i j, nth_error r i = Some (Some j) <-> nth_error s j = Some i).
Proof.
  intros Hc. pose proof (covers_NoDup _ _ _ Hc) as Hnd. destruct Hc as [Hl Hp].
  assert (Hex : forall j, j < n2 -> exists i, nth_error r i = Some (Some j)).
  { intros j Hj. apply In_nth_error. apply in_columns_of.
    eapply Permutation_in; [symmetry; exact Hp|]. apply in_seq; lia. }
  assert (Hb : forall m, m <= n2 -> exists s, length s = m /\
     forall j i, nth_error s j = Some i -> nth_error r i = Some (Some j)).
  { induction m as [|m IH]; intros Hm.
    - exists []. split; [reflexivity|]. intros [|j] i H; discriminate.
    - destruct IH as (s & Hs & Hsp); [lia|].
      destruct (Hex m) as [i Hi]; [lia|].
      exists (s ++ [i]). split; [rewrite app_length; simpl; lia|].
      intros j i' H. destruct (Nat.lt_ge_cases j m) as [Hj|Hj].
      + rewrite nth_error_app1 in H by lia. auto.
      + rewrite nth_error_app2 in H by lia.
        destruct (j - length s) as [|[|k]] eqn:Ek; try discriminate.
        simpl in H. injection H as <-. replace j with m by lia. exact Hi. }
  destruct (Hb n2 (le_n _)) as (s & Hs & Hsp).
  exists s. split.
  - split; [exact Hs|]. split.
    + apply NoDup_nth_error. intros a b Ha E.
      destruct (nth_error s a) as [i|] eqn:Ea; [|apply nth_error_None in Ea; lia].
      apply Hsp in Ea. symmetry in E. apply Hsp in E. congruence.
    + intros i Hi. apply In_nth_error in Hi as [j Hj]. apply Hsp in Hj.
      rewrite <- Hl. apply nth_error_Some. congruence.
  - intros i j. split; [|apply Hsp].
    intros H. assert (j < n2) as Hj.
    { assert (In j (seq 0 n2)) as Hin; [|apply in_seq in Hin; lia].
      eapply Permutation_in; [exact Hp|]. apply in_columns_of.
      eapply nth_error_In; exact H. }
    destruct (nth_error s j) as [i'|] eqn:E; [|apply nth_error_None in E; lia].
    f_equal. eapply columns_of_unique; [exact Hnd|apply Hsp; exact E|exact H].
Qed.

Lemma reversed_covers n1 n2 r s : is_injection n2 n1 s -> length r = n1 ->
  (forall i j, nth_error r j = Some (Some i) <-> nth_error s i = Some j) ->
  covers_columns n1 n2 r.
Proof.
  intros (Hs & Hnd & Hlt) Hr H. split; [exact Hr|].
  apply NoDup_Permutation.
  - assert (Hu : forall i i' j, nth_error r i = Some (Some j) ->
              nth_error r i' = Some (Some j) -> i = i').
    { intros i i' j H1 H2. apply H in H1, H2. congruence. }
    clear -Hu. induction r as [|o r IH]; [constructor|].
    assert (NoDup (columns_of r)).
    { apply IH. intros i i' j H1 H2. specialize (Hu (S i) (S i') j H1 H2). lia. }
    destruct o as [x|]; [|exact H]. simpl. constructor; [|exact H].
    intros Hin. apply in_columns_of, In_nth_error in Hin as [k Hk].
    specialize (Hu 0 (S k) x eq_refl Hk). discriminate.
  - apply seq_NoDup.
  - intros j. rewrite in_columns_of, in_seq. split.
    + intros Hj. apply In_nth_error in Hj as [i Hi]. apply H in Hi.
      assert (j < length s) by (apply nth_error_Some; congruence). lia.
    + intros Hj. destruct (nth_error s j) as [i|] eqn:E;
        [|apply nth_error_None in E; lia].
      apply H in E. eapply nth_error_In; exact E.
Qed.

Section Transpose.
Context (A : arith).
Lemma transpose_nrows (m : matrix A) : nrows (transpose m) = mcols m.
Proof. unfold nrows, transpose. simpl. rewrite map_length, seq_length. reflexivity. Qed.
Lemma transpose_wf (m : matrix A) : wf_matrix (transpose m).
Proof.
  unfold wf_matrix, transpose. simpl. apply Forall_forall. intros r Hr.
  apply in_map_iff in Hr as (j & <- & _). rewrite map_length, seq_length. reflexivity.
Qed.
Lemma transpose_get (m : matrix A) i j : i < nrows m -> j < mcols m ->
  mget (transpose m) j i = mget m i j.
Proof.
  intros Hi Hj. unfold mget at 1, transpose. simpl.
  set (f := fun j => map (fun i => mget m i j) (seq 0 (nrows m))).
  rewrite (nth_indep _ [] (f 0)) by (rewrite map_length, seq_length; exact Hj).
  rewrite map_nth, seq_nth by exact Hj. unfold f. simpl.
  set (h := fun i => mget m i j).
  rewrite (nth_indep _ (nzero A) (h 0)) by (rewrite map_length, seq_length; exact Hi).
  rewrite (map_nth h), seq_nth by exact Hi. reflexivity.
Qed.
End Transpose.

Lemma mapM_as_index s : mapM as_index (map Some s) = Ok s.
Proof. induction s as [|x s IH]; simpl; [reflexivity|]. rewrite IH. reflexivity. Qed.

Lemma tall_opt fuel (m : Qmatrix) :
  wf_matrix m -> 0 < mcols m -> mcols m < nrows m -> 2 * nrows m < fuel ->
  exists r, min_weight_perm fuel m = Ok r /\
    optimal_partial (nrows m) (mcols m) (fun i j => mget m i j) r.
Proof.
  intros Hw Hc Hlt Hf. unfold min_weight_perm.
  apply Nat.ltb_lt in Hlt as Hb. rewrite Hb.
  destruct (wide_structure_opt fuel (transpose m)) as (s & E & Hi & Hopt);
    rewrite ?transpose_nrows; simpl; try lia; [apply transpose_wf|].
  rewrite E. cbn [bind]. rewrite mapM_as_index. cbn [bind].
  rewrite transpose_nrows in *. change (mcols (transpose m)) with (nrows m) in *.
  destruct Hi as (Hs & Hnd & Hsl).
  destruct (reverse_function_ok s (nrows m) Hnd Hsl) as (r & Er & Hr & Hinv & _).
  exists r. split; [exact Er|].
  assert (Hcov : covers_columns (nrows m) (mcols m) r).
  { eapply reversed_covers; [|exact Hr|exact Hinv]. split; auto. }
  split; [exact Hcov|].
  intros r' Hr'. destruct (covers_inverse _ _ _ Hr') as (s' & Hs' & Hinv').
  rewrite (inverse_cost _ r s) by (intros; apply Hinv).
  rewrite (inverse_cost _ r' s') by exact Hinv'.
  assert (Htr : forall x, is_injection (mcols m) (nrows m) x ->
     (cost (fun j i => mget m i j) x == cost (fun i j => mget (transpose m) i j) x)%Q).
  { intros x (Hxl & _ & Hx). apply cost_ext. intros a j _ Ha Hj.
    rewrite transpose_get; [reflexivity|apply Hx; exact Hj|lia]. }
  specialize (Hopt s' Hs'). pose proof (Htr s ltac:(split; auto)) as E1.
  pose proof (Htr s' Hs') as E2. cbv beta in *.
  eapply Qle_trans; [apply Qle_lteq; right; exact E1|].
  eapply Qle_trans; [exact Hopt|]. apply Qle_lteq; right. symmetry; exact E2.
Qed.

(** ** Enumeration of permutations. *)

Lemma insertions_perm {X} (x : X) p q : In q (insertions x p) -> Permutation q (x :: p).
Proof.
  unfold insertions. intros H. apply in_map_iff in H as (i & <- & _).
  rewrite <- (firstn_skipn i p) at 3. simpl. symmetry. apply Permutation_middle.
Qed.

Lemma in_insertions {X} (x : X) p1 p2 : In (p1 ++ x :: p2) (insertions x (p1 ++ p2)).
Proof.
  unfold insertions. apply in_map_iff. exists (length p1). split.
  - rewrite firstn_app, firstn_all, Nat.sub_diag, skipn_app, skipn_all, Nat.sub_diag.
    simpl. rewrite app_nil_r. reflexivity.
  - apply in_seq. rewrite app_length. lia.
Qed.

Lemma all_perms_cons {X} (x y : X) l :
  all_perms (x :: y :: l) = flat_map (insertions x) (all_perms (y :: l)).
Proof. reflexivity. Qed.

Lemma all_perms_spec {X} (l : list X) p : In p (all_perms l) <-> Permutation p l.
Proof.
  revert p. induction l as [|x l IH]; intros p.
  - simpl. split; [intros [<-|[]]; constructor|].
    intros H. left. symmetry. apply Permutation_nil. symmetry; exact H.
  - destruct l as [|y l].
    + simpl. split; [intros [<-|[]]; reflexivity|].
      intros H. left. symmetry. apply Permutation_length_1_inv. symmetry; exact H.
    + rewrite all_perms_cons, in_flat_map. split.
      * intros (q & Hq & Hp). apply IH in Hq. apply insertions_perm in Hp.
        rewrite Hp, Hq. reflexivity.
      * intros H. assert (In x p) as Hx.
        { eapply Permutation_in; [symmetry; exact H|left; reflexivity]. }
        apply in_split in Hx as (p1 & p2 & ->).
        exists (p1 ++ p2). split; [|apply in_insertions].
        apply IH. apply Permutation_cons_inv with (a := x).
        rewrite <- H. apply Permutation_middle.
Qed.

Lemma NoDup_flat_map {X Y} (f : X -> list Y) l :
  (forall x, In x l -> NoDup (f x)) -> NoDup l ->
  (forall x x' y, In x l -> In x' l -> In y (f x) -> In y (f x') -> x = x') ->
  NoDup (flat_map f l).
Proof.
  induction l as [|x l IH]; simpl; intros Hf Hnd Hinj; [constructor|].
  inversion Hnd; subst. apply NoDup_app_intro.
  - apply Hf; auto.
  - apply IH; auto. intros a b y Ha Hb; apply Hinj; auto.
  - intros y Hy Hy'. apply in_flat_map in Hy' as (x' & Hx' & Hy').
    assert (x = x') by (eapply Hinj; eauto). subst; contradiction.
Qed.

Lemma insertion_remove {X} (dec : forall a b : X, {a = b} + {a <> b}) (x : X) p q :
  ~ In x p -> In q (insertions x p) -> remove dec x q = p.
Proof.
  intros Hx H. unfold insertions in H. apply in_map_iff in H as (i & <- & _).
  simpl. rewrite remove_app. simpl. destruct (dec x x); [|congruence].
  rewrite <- remove_app, firstn_skipn. apply notin_remove; exact Hx.
Qed.

Lemma insertions_NoDup {X} (x : X) p : ~ In x p -> NoDup (insertions x p).
Proof.
  intros Hx. unfold insertions. apply NoDup_map_inj_in; [|apply seq_NoDup].
  intros i j Hi Hj E. apply in_seq in Hi, Hj.
  assert (H : forall i j, i < j -> j <= length p ->
     firstn i p ++ [x] ++ skipn i p <> firstn j p ++ [x] ++ skipn j p).
  { clear -Hx. intros i j Hij Hj E.
    apply (f_equal (fun l => nth_error l i)) in E.
    rewrite nth_error_app2 in E by (rewrite firstn_length; lia).
    rewrite firstn_length, (Nat.min_l i) in E by lia. rewrite Nat.sub_diag in E.
    rewrite (nth_error_app1 (firstn j p)) in E by (rewrite firstn_length; lia).
    simpl in E. symmetry in E. apply nth_error_In in E.
    apply Hx. rewrite <- (firstn_skipn j p). apply in_or_app; auto. }
  destruct (Nat.lt_trichotomy i j) as [Hlt|[->|Hlt]]; [|reflexivity|].
  - exfalso. apply (H i j); auto; lia.
  - exfalso. apply (H j i); auto; lia.
Qed.

Lemma all_perms_NoDup {X} (dec : forall a b : X, {a = b} + {a <> b}) (l : list X) :
  NoDup l -> NoDup (all_perms l).
Proof.
  induction l as [|x l IH]; intros Hnd.
  - simpl. constructor; [simpl; tauto|constructor].
  - destruct l as [|y l].
    + simpl. constructor; [simpl; tauto|constructor].
    + rewrite all_perms_cons. inversion Hnd as [|? ? Hx Hnd']; subst.
      assert (Hnx : forall p, In p (all_perms (y :: l)) -> ~ In x p).
      { intros p Hp Hin. apply all_perms_spec in Hp. apply Hx.
        eapply Permutation_in; eassumption. }
      apply NoDup_flat_map.
      * intros p Hp. apply insertions_NoDup. auto.
      * auto.
      * intros p p' q Hp Hp' Hq Hq'.
        rewrite <- (insertion_remove dec x p q), <- (insertion_remove dec x p' q); auto.
Qed.

(** ** Weights and brute force. *)

Lemma Qsum_app l1 l2 : (Qsum_list (l1 ++ l2) == Qsum_list l1 + Qsum_list l2)%Q.
Proof. induction l1 as [|x l1 IH]; simpl; [lra|]. rewrite IH. lra. Qed.

Lemma Qsum_select (f : nat -> Q) (p : nat -> Q) n j :
  j < n -> (forall k, k < n -> (p k == (if k =? j then 1 else 0))%Q) ->
  (Qsum_list (map (fun k => f k * p k)%Q (seq 0 n)) == f j)%Q.
Proof.
  intros Hj Hp.
  assert (H : forall len a, (forall k, a <= k < a + len -> (p k == (if k =? j then 1 else 0))%Q) ->
     (Qsum_list (map (fun k => f k * p k)%Q (seq a len)) ==
      if (a <=? j) && (j <? a + len) then f j else 0)%Q).
  { clear. induction len as [|len IH]; intros a Hp; simpl.
    - destruct (Nat.leb_spec a j), (Nat.ltb_spec j (a + 0)); simpl; try lia; reflexivity.
    - rewrite IH by (intros k Hk; apply Hp; lia). rewrite (Hp a) by lia.
      destruct (Nat.eqb_spec a j) as [->|Hne].
      + destruct (Nat.leb_spec (S j) j); [lia|].
        destruct (Nat.leb_spec j j), (Nat.ltb_spec j (j + S len)); simpl; try lia. lra.
      + destruct (Nat.leb_spec (S a) j), (Nat.ltb_spec j (S a + len)),
          (Nat.leb_spec a j), (Nat.ltb_spec j (a + S len)); simpl; try lia; lra. }
  rewrite H by (intros; apply Hp; lia).
  destruct (Nat.leb_spec 0 j), (Nat.ltb_spec j (0 + n)); simpl; try lia. reflexivity.
Qed.

Lemma perm_matrix_get perm i j d : i < length perm -> j < length perm ->
  nth j (nth i (map (fun j => map (fun k => if k =? j then 1%Q else 0%Q)
                       (seq 0 (length perm))) perm) []) d =
  (if j =? nth i perm 0 then 1%Q else 0%Q).
Proof.
  intros Hi Hj. set (n := length perm) in *.
  set (F := fun j => map (fun k => if k =? j then 1%Q else 0%Q) (seq 0 n)).
  rewrite (nth_indep _ [] (F 0)) by (rewrite map_length; exact Hi).
  rewrite map_nth. unfold F.
  set (G := fun k => if k =? nth i perm 0 then 1%Q else 0%Q).
  rewrite (nth_indep _ d (G 0)) by (rewrite map_length, seq_length; exact Hj).
  rewrite map_nth, seq_nth by exact Hj. reflexivity.
Qed.

Lemma weight_perm (w : Qmatrix) perm n :
  nrows w = n -> mcols w = n -> is_permutation n perm ->
  exists q, weight perm w = Ok q /\ (q == cost (fun i j => mget w i j) perm)%Q.
Proof.
  intros Hr Hc Hp. pose proof (is_permutation_length _ _ Hp) as Hl.
  unfold weight, permutation_matrix. rewrite Hl.
  assert (forallb (fun j => j <? n) perm = true) as ->.
  { apply forallb_forall. intros j Hj. apply Nat.ltb_lt.
    eapply is_permutation_lt; eassumption. }
  cbn [bind]. set (PM := @Matrix Qarith _ _).
  assert (Hpr : nrows PM = n) by (unfold nrows, PM; simpl; rewrite map_length; exact Hl).
  assert (Hpc : mcols PM = n) by reflexivity.
  rewrite Hpr, Hpc, Hr, Hc. unfold broadcast_dim. rewrite Nat.eqb_refl. cbn [bind].
  eexists; split; [reflexivity|].
  assert (Hpm : forall i j, i < n -> j < n ->
     mget PM i j = (if j =? nth i perm 0 then 1%Q else 0%Q)).
  { intros i j Hi Hj. unfold mget, PM. simpl. rewrite <- Hl.
    apply perm_matrix_get; lia. }
  assert (Hb : forall i, i < n -> bidx n i = i).
  { intros i Hi. unfold bidx. destruct (Nat.eqb_spec n 1); lia. }
  assert (Hnth : forall s i0, (forall k, k < length s -> nth k s 0 = nth (i0 + k) perm 0) ->
     (i0 + length s = n)%nat ->
     (Qsum_list (flat_map (fun i => map (fun j =>
        (mget w (bidx n i) (bidx n j) * mget PM (bidx n i) (bidx n j))%Q)
        (seq 0 n)) (seq i0 (length s))) == cost_from (fun i j => mget w i j) i0 s)%Q).
  { induction s as [|x s IH]; intros i0 Hs Hlen; simpl; [reflexivity|].
    rewrite Qsum_app. rewrite IH.
    - assert (Hx : x = nth i0 perm 0).
      { specialize (Hs 0). simpl in Hs. rewrite Nat.add_0_r in Hs. apply Hs. lia. }
      rewrite (map_ext_in _ (fun j => (mget w i0 j * mget PM i0 j)%Q)).
      + rewrite (Qsum_select (fun j => mget w i0 j) (fun j => mget PM i0 j) n x).
        * reflexivity.
        * subst x. eapply is_permutation_lt; [exact Hp|]. apply nth_In. simpl in Hlen; lia.
        * intros k Hk. rewrite Hpm by (simpl in Hlen; lia). rewrite <- Hx. reflexivity.
      + intros j Hj. apply in_seq in Hj.
        rewrite !Hb by (simpl in Hlen; lia). reflexivity.
    - intros k Hk. specialize (Hs (S k)). simpl in Hs. rewrite Hs by lia.
      f_equal. lia.
    - simpl in Hlen. lia. }
  unfold cost. rewrite <- (Hnth perm 0); [|auto|exact Hl]. rewrite Hl. reflexivity.
Qed.

Lemma diag_cost (w : Qmatrix) n i0 :
  (Qsum_list (map (fun i => mget w i i) (seq i0 n)) ==
   cost_from (fun i j => mget w i j) i0 (seq i0 n))%Q.
Proof.
  revert i0; induction n as [|n IH]; intros i0; simpl; [reflexivity|].
  rewrite IH. reflexivity.
Qed.

Lemma brute_fold (w : Qmatrix) n : nrows w = n -> mcols w = n ->
  forall ps acc_w acc_p,
  (forall p, In p ps -> is_permutation n p) -> is_permutation n acc_p ->
  (acc_w == cost (fun i j => mget w i j) acc_p)%Q ->
  exists rw rp,
    foldM (fun (acc : Q * list nat) perm =>
          bind (weight perm w) (fun cur =>
          Ok (if Qle_bool (fst acc) cur then acc else (cur, perm)))) ps (acc_w, acc_p)
    = Ok (rw, rp) /\
    is_permutation n rp /\ (rw == cost (fun i j => mget w i j) rp)%Q /\
    (rw <= acc_w)%Q /\
    (forall p, In p ps -> (rw <= cost (fun i j => mget w i j) p)%Q).
Proof.
  intros Hr Hc. induction ps as [|p ps IH]; intros aw ap Hps Hap Haw; simpl.
  - exists aw, ap. repeat split; auto; [lra|tauto].
  - destruct (weight_perm w p n Hr Hc) as (q & Eq & Hq); [apply Hps; left; reflexivity|].
    rewrite Eq. simpl.
    destruct (Qle_bool aw q) eqn:Eb.
    + destruct (IH aw ap) as (rw & rp & E & H1 & H2 & H3 & H4); auto.
      { intros p' Hp'; apply Hps; right; exact Hp'. }
      exists rw, rp. repeat split; auto.
      intros p' [<-|Hp']; [|auto]. apply Qle_bool_iff in Eb. lra.
    + destruct (IH q p) as (rw & rp & E & H1 & H2 & H3 & H4); auto.
      { intros p' Hp'; apply Hps; right; exact Hp'. }
      { apply Hps; left; reflexivity. }
      exists rw, rp. repeat split; auto.
      * destruct (Qlt_le_dec aw q) as [H|H]; [|lra].
        apply Qlt_le_weak, Qle_bool_iff in H. congruence.
      * intros p' [<-|Hp']; [|auto]. lra.
Qed.

Lemma brute_force_opt (w : Qmatrix) n : nrows w = n -> mcols w = n ->
  exists s, min_weight_perm_brute_force w = Ok s /\
    optimal_permutation n (fun i j => mget w i j) s.
Proof.
  intros Hr Hc. unfold min_weight_perm_brute_force. rewrite Hr, Hc, Nat.min_id.
  destruct (brute_fold w n Hr Hc (all_perms (seq 0 n))
     (Qsum_list (map (fun i => mget w i i) (seq 0 n))) (seq 0 n))
    as (rw & rp & E & H1 & H2 & H3 & H4).
  - intros p Hp. apply all_perms_spec in Hp. exact Hp.
  - unfold is_permutation. reflexivity.
  - apply diag_cost.
  - rewrite E. cbn [bind snd]. exists rp. split; [reflexivity|]. split; [exact H1|].
    intros s' Hs'. rewrite <- H2. apply H4. apply all_perms_spec. exact Hs'.
Qed.

(** ** NaN. *)

Definition is_nan (x : option Q) : Prop := x = None.

Lemma nan_fold_max (l : list (option Q)) : forall x,
  In None (x :: l) -> fold_left (nmax NaNarith) l x = None.
Proof.
  induction l as [|y l IH]; intros x H.
  - destruct H as [H|[]]. exact H.
  - simpl fold_left. apply IH. destruct H as [->|[->|H]].
    + left; reflexivity.
    + left. destruct x; reflexivity.
    + right; exact H.
Qed.

Lemma nan_search fuel : forall (g : bgraph NaNarith) t u,
  (forall i j, bg_w _ g i j = None) -> u < bg_n _ g ->
  tS t u = true -> (forall v, tT t v = false) -> tstack t = [] ->
  find_path NaNarith fuel g t = Err Timeout.
Proof.
  induction fuel as [|fuel IH]; intros g t u Hw Hu HS HT Hst; [reflexivity|].
  simpl. rewrite Hst. rewrite augment_labels_eq.
  assert (Hs : forall i j, slack NaNarith g i j = None).
  { intros i j. unfold slack. simpl. rewrite Hw.
    destruct (lift2 Qplus _ _); reflexivity. }
  destruct (open_slacks NaNarith g t) as [|x l] eqn:E.
  { assert (Hin : In (slack NaNarith g u u) (open_slacks NaNarith g t)).
    { apply in_open_slacks. exists u, u. auto 10. }
    rewrite E in Hin. destruct Hin. }
  cbn [np_min bind]. set (alpha := fold_left _ l x).
  assert (Hp : argmin_pairs NaNarith g t alpha = []).
  { destruct (argmin_pairs NaNarith g t alpha) as [|[a b] r] eqn:Ep; [reflexivity|].
    assert (Hin : In (a, b) (argmin_pairs NaNarith g t alpha))
      by (rewrite Ep; left; reflexivity).
    apply in_argmin_pairs in Hin as (_ & _ & _ & Hq). rewrite Hs in Hq. discriminate. }
  rewrite Hp. change (attach_all [] t) with t.
  apply (IH _ _ u); auto.
Qed.

Lemma nan_loop fuel inner (g : bgraph NaNarith) :
  (forall i j, bg_w _ g i j = None) -> 0 < bg_n _ g -> mat0 _ g 0 = None ->
  matching_loop NaNarith fuel inner g 0 = Err Timeout.
Proof.
  intros Hw Hn Hm. destruct fuel as [|fuel]; [reflexivity|].
  simpl. destruct (Nat.ltb_spec 0 (bg_n _ g)); [|lia]. rewrite Hm.
  rewrite (nan_search inner g (new_tree NaNarith g 0) 0); auto.
  all: unfold new_tree; rewrite explore_pairs by reflexivity.
  all: assert (Hnb : neighbours NaNarith g 0 = []) by
   (unfold neighbours; induction (seq 0 (bg_n _ g)) as [|v l IHl]; [reflexivity|];
    simpl; unfold slack; simpl; rewrite Hw;
    destruct (lift2 Qplus _ _); simpl; exact IHl).
  all: rewrite Hnb; reflexivity.
Qed.

Lemma nan_square fuel (m : matrix NaNarith) :
  In None (all_entries m) ->
  min_weight_perm_square NaNarith fuel m = Err Timeout.
Proof.
  intros Hin. unfold min_weight_perm_square.
  assert (Hmax : np_max NaNarith (all_entries m) = Ok None).
  { destruct (all_entries m) as [|x l]; [destruct Hin|].
    simpl. f_equal. apply (nan_fold_max l x Hin). }
  rewrite Hmax. cbn [bind]. unfold max_weight_matching.
  destruct (init_labels_ok NaNarith (nrows m)
     (fun i j => nsub NaNarith None (mget m i j))) as (l0 & E & _).
  rewrite E. cbn [bind].
  rewrite nan_loop; [reflexivity|reflexivity| |reflexivity].
  simpl. unfold nrows, all_entries in *.
  destruct (mrows m); simpl in *; [destruct Hin|lia].
Qed.

Lemma transpose_entries (m : matrix NaNarith) x :
  wf_matrix m -> In x (all_entries m) -> In x (all_entries (transpose m)).
Proof.
  unfold all_entries. intros Hw H. apply in_concat in H as (row & Hrow & Hx).
  apply In_nth_error in Hrow as [i Hi]. apply In_nth_error in Hx as [j Hj].
  assert (Hilt : i < nrows m) by (apply nth_error_Some; congruence).
  assert (Hlen : length row = mcols m).
  { unfold wf_matrix in Hw. rewrite Forall_forall in Hw. apply Hw.
    eapply nth_error_In; exact Hi. }
  assert (Hjlt : j < mcols m) by (rewrite <- Hlen; apply nth_error_Some; congruence).
  assert (Hx : mget m i j = x).
  { unfold mget. rewrite (nth_error_nth _ _ _ Hi). apply (nth_error_nth _ _ _ Hj). }
  rewrite <- Hx. apply in_concat.
  exists (map (fun i => mget m i j) (seq 0 (nrows m))). split.
  - unfold transpose. simpl. apply (in_map (fun j => map (fun i => mget m i j) (seq 0 (nrows m)))).
    apply in_seq; lia.
  - apply (in_map (fun i => mget m i j)). apply in_seq; lia.
Qed.

Lemma nan_wide fuel (m : matrix NaNarith) :
  In None (all_entries m) -> min_weight_perm_wide NaNarith fuel m = Err Timeout.
Proof.
  intros Hin. unfold min_weight_perm_wide.
  destruct (nrows m <? mcols m).
  - destruct (np_max_nonempty NaNarith (all_entries m)) as [x Hx].
    { intros E. rewrite E in Hin. destruct Hin. }
    rewrite Hx. cbn [bind]. rewrite nan_square; [reflexivity|].
    unfold all_entries. simpl. rewrite concat_app. apply in_or_app. left. exact Hin.
  - cbn [bind]. rewrite nan_square; [reflexivity|exact Hin].
Qed.

Lemma nan_diverges fuel (m : matrix NaNarith) :
  wf_matrix m -> In None (all_entries m) -> min_weight_perm fuel m = Err Timeout.
Proof.
  intros Hw Hin. unfold min_weight_perm. destruct (mcols m <? nrows m).
  - rewrite nan_wide; [reflexivity|]. apply transpose_entries; assumption.
  - apply nan_wide; exact Hin.
Qed.

(** ** Shape of the result for arbitrary arithmetic. *)

Section Shape.
Context (A : arith).
Hypothesis Hsel : nmin_select A.
Hypothesis Hrefl : neqb_reflexive A.

Lemma wide_shape fuel (m : matrix A) :
  wf_matrix m -> 0 < nrows m -> nrows m <= mcols m -> 2 * mcols m < fuel ->
  exists s, min_weight_perm_wide A fuel m = Ok (map Some s) /\
    is_injection (nrows m) (mcols m) s.
Proof.
  intros Hw Hr Hle Hf. unfold min_weight_perm_wide.
  destruct (Nat.ltb_spec (nrows m) (mcols m)) as [Hlt|Hge].
  - destruct (np_max_entries A m (all_entries_nonempty A m Hw Hr ltac:(lia))) as [x Hx].
    rewrite Hx. cbn [bind].
    set (m' := Matrix _ _).
    assert (Hn' : nrows m' = mcols m).
    { unfold nrows, m'. simpl. rewrite app_length, repeat_length.
      fold (nrows m). lia. }
    assert (Hw' : wf_matrix m').
    { unfold wf_matrix, m'. simpl. apply Forall_app. split; [exact Hw|].
      apply Forall_forall. intros r Hin. apply repeat_spec in Hin. subst r.
      apply repeat_length. }
    destruct (square_structure A Hsel Hrefl fuel m' Hw') as (s & E & Hp);
      rewrite ?Hn'; try lia; [unfold m'; simpl; lia|].
    rewrite E. cbn [bind]. rewrite Hn' in *.
    exists (firstn (nrows m) s). rewrite firstn_map. split; [reflexivity|].
    apply firstn_injection; [exact Hp|lia].
  - cbn [bind]. assert (En : nrows m = mcols m) by lia.
    destruct (square_structure A Hsel Hrefl fuel m Hw) as (s & E & Hp); try lia.
    rewrite E. cbn [bind]. exists s.
    pose proof (is_permutation_length _ _ Hp) as Hl. split.
    + rewrite firstn_all2; [reflexivity|]. rewrite map_length. lia.
    + split; [exact Hl|]. split.
      * eapply Permutation_NoDup; [symmetry; exact Hp|apply seq_NoDup].
      * intros j Hj. rewrite <- En. eapply is_permutation_lt; eassumption.
Qed.

Lemma tall_shape fuel (m : matrix A) :
  wf_matrix m -> 0 < mcols m -> mcols m < nrows m -> 2 * nrows m < fuel ->
  exists r, min_weight_perm fuel m = Ok r /\ covers_columns (nrows m) (mcols m) r.
Proof.
  intros Hw Hc Hlt Hf. unfold min_weight_perm.
  apply Nat.ltb_lt in Hlt as Hb. rewrite Hb.
  destruct (wide_shape fuel (transpose m)) as (s & E & Hi);
    rewrite ?transpose_nrows; simpl; try lia; [apply transpose_wf|].
  rewrite E. cbn [bind]. rewrite mapM_as_index. cbn [bind].
  rewrite transpose_nrows in *. change (mcols (transpose m)) with (nrows m) in *.
  pose proof Hi as (Hs & Hnd & Hsl).
  destruct (reverse_function_ok s (nrows m) Hnd Hsl) as (r & Er & Hr & Hinv & _).
  exists r. split; [exact Er|]. eapply reversed_covers; eauto.
Qed.
End Shape.

(** ** Statements with fuel quantified after the result. *)

Lemma uniform_fuel {A} (m : matrix A) bound (P : list (option nat) -> Prop) :
  (forall fuel, bound < fuel -> exists r, min_weight_perm fuel m = Ok r /\ P r) ->
  exists r, (forall fuel, bound < fuel -> min_weight_perm fuel m = Ok r) /\ P r.
Proof.
  intros H. destruct (H (S bound) ltac:(lia)) as (r & E & HP).
  exists r. split; [|exact HP]. intros fuel Hf.
  eapply min_weight_perm_mono; [exact E|lia].
Qed.

Lemma square_uniform (m : Qmatrix) n :
  wf_matrix m -> nrows m = n -> mcols m = n -> 0 < n ->
  exists s, (forall fuel, 2 * n < fuel -> min_weight_perm fuel m = Ok (map Some s)) /\
    optimal_permutation n (entry (mrows m)) s.
Proof.
  intros Hw Hr Hc Hn.
  destruct (uniform_fuel m (2 * n) (fun r => exists s, r = map Some s /\
     optimal_permutation n (entry (mrows m)) s)) as (r & E & s & -> & Hs).
  - intros fuel Hf.
    destruct (wide_structure_opt fuel m Hw) as (s & E & (Hl & Hnd & Hlt) & Hopt);
      rewrite ?Hr, ?Hc in *; try lia.
    exists (map Some s). split.
    + unfold min_weight_perm. rewrite Hr, Hc, Nat.ltb_irrefl. exact E.
    + exists s. split; [reflexivity|]. split.
      * apply NoDup_Permutation_bis; [exact Hnd|rewrite seq_length; lia|].
        intros j Hj. apply in_seq. specialize (Hlt j Hj). lia.
      * intros s' Hs'. apply Hopt. split; [apply is_permutation_length; exact Hs'|]. split.
        -- eapply Permutation_NoDup; [symmetry; exact Hs'|apply seq_NoDup].
        -- intros j Hj. eapply is_permutation_lt; eassumption.
  - exists s. auto.
Qed.

Lemma wide_uniform (m : Qmatrix) n1 n2 :
  wf_matrix m -> nrows m = n1 -> mcols m = n2 -> 0 < n1 -> n1 <= n2 ->
  exists s, (forall fuel, 2 * n2 < fuel -> min_weight_perm fuel m = Ok (map Some s)) /\
    optimal_injection n1 n2 (entry (mrows m)) s.
Proof.
  intros Hw Hr Hc Hn Hle.
  destruct (uniform_fuel m (2 * n2) (fun r => exists s, r = map Some s /\
     optimal_injection n1 n2 (entry (mrows m)) s)) as (r & E & s & -> & Hs).
  - intros fuel Hf.
    destruct (wide_structure_opt fuel m Hw) as (s & E & Hopt);
      rewrite ?Hr, ?Hc in *; try lia.
    exists (map Some s). split; [|exists s; split; [reflexivity|exact Hopt]].
    unfold min_weight_perm. rewrite Hr, Hc.
    destruct (Nat.ltb_spec n2 n1); [lia|exact E].
  - exists s. auto.
Qed.

Lemma tall_uniform (m : Qmatrix) n1 n2 :
  wf_matrix m -> nrows m = n1 -> mcols m = n2 -> 0 < n2 -> n2 < n1 ->
  exists r, (forall fuel, 2 * n1 < fuel -> min_weight_perm fuel m = Ok r) /\
    optimal_partial n1 n2 (entry (mrows m)) r.
Proof.
  intros Hw Hr Hc Hn Hlt.
  apply (uniform_fuel m (2 * n1)). intros fuel Hf.
  destruct (tall_opt fuel m Hw) as (r & E & Ho); rewrite ?Hr, ?Hc in *; try lia.
  exists r. split; [exact E|exact Ho].
Qed.

Lemma empty_matrix_error fuel (m : Qmatrix) :
  wf_matrix m -> nrows m = 0 \/ mcols m = 0 -> min_weight_perm fuel m = Err ValueError.
Proof.
  intros Hw H.
  assert (Hrow : forall m : Qmatrix, nrows m = 0 -> min_weight_perm_wide Qarith fuel m = Err ValueError).
  { clear. intros m H. unfold nrows in H. apply length_zero_iff_nil in H.
    unfold min_weight_perm_wide, min_weight_perm_square, nrows, all_entries. rewrite H.
    simpl. destruct (mcols m); simpl; [rewrite H|]; reflexivity. }
  unfold min_weight_perm. destruct (Nat.ltb_spec (mcols m) (nrows m)) as [Hlt|Hle].
  - rewrite Hrow; [reflexivity|]. rewrite transpose_nrows. lia.
  - apply Hrow. lia.
Qed.

Lemma min_weight_agree (w : Qmatrix) n fuel :
  wf_matrix w -> nrows w = n -> mcols w = n -> 0 < n -> 2 * n < fuel ->
  exists s b qs qb qm,
    min_weight_perm fuel w = Ok (map Some s) /\
    min_weight_perm_brute_force w = Ok b /\
    weight s w = Ok qs /\ weight b w = Ok qb /\ min_weight fuel w = Ok qm /\
    (qs == qb)%Q /\ (qm == qb)%Q /\
    (qb == cost (entry (mrows w)) b)%Q /\
    optimal_permutation n (entry (mrows w)) b.
Proof.
  intros Hw Hr Hc Hn Hf.
  destruct (square_uniform w n Hw Hr Hc Hn) as (s & Es & Hps & Hos).
  destruct (brute_force_opt w n Hr Hc) as (b & Eb & Hpb & Hob).
  destruct (weight_perm w s n Hr Hc Hps) as (qs & Eqs & Hqs).
  destruct (weight_perm w b n Hr Hc Hpb) as (qb & Eqb & Hqb).
  exists s, b, qs, qb, qs. split; [auto|]. split; [exact Eb|]. split; [exact Eqs|].
  split; [exact Eqb|]. split.
  - unfold min_weight. rewrite Es by exact Hf. cbn [bind].
    assert (mapM (fun o => match o with Some v => Ok v | None => Err IndexError end)
              (map Some s) = Ok s) as ->.
    { clear. induction s as [|x s IH]; simpl; [reflexivity|]. rewrite IH. reflexivity. }
    exact Eqs.
  - assert (H1 : (qs <= qb)%Q).
    { eapply Qle_trans; [apply Qle_lteq; right; exact Hqs|].
      eapply Qle_trans; [exact (Hos b Hpb)|]. apply Qle_lteq; right; symmetry; exact Hqb. }
    assert (H2 : (qb <= qs)%Q).
    { eapply Qle_trans; [apply Qle_lteq; right; exact Hqb|].
      eapply Qle_trans; [exact (Hob s Hps)|]. apply Qle_lteq; right; symmetry; exact Hqs. }
    assert (qs == qb)%Q by lra.
    split; [assumption|]. split; [assumption|]. split; [exact Hqb|].
    split; [exact Hpb|exact Hob].
Qed.

Lemma reverse_function_inverse s size :
  NoDup s -> (forall j, In j s -> j < size) ->
  exists r, reverse_function s (Some size) = Ok r /\ inverse_of s size r.
Proof.
  intros H1 H2. destruct (reverse_function_ok s size H1 H2) as (r & E & H).
  exists r. split; [exact E|exact H].
Qed.

Lemma columns_of_map_Some s : columns_of (map Some s) = s.
Proof. induction s as [|x s IH]; simpl; [reflexivity|]. f_equal; exact IH. Qed.

Lemma any_shape : forall (A : arith),
  (forall a b, nmin A a b = a \/ nmin A a b = b) ->
  (forall a, neqb A a a = true) ->
  forall (m : matrix A) (n1 n2 : nat), wf_matrix m ->
  nrows m = n1 -> mcols m = n2 -> 0 < n1 -> 0 < n2 ->
  exists r,
    (forall fuel, 2 * Nat.max n1 n2 < fuel -> min_weight_perm fuel m = Ok r) /\
    (n1 <= n2 -> exists s, r = map Some s /\ is_injection n1 n2 s) /\
    (n2 <= n1 -> covers_columns n1 n2 r).
Proof.
  intros A Hs Hr m n1 n2 Hw E1 E2 H1 H2.
  apply (uniform_fuel m (2 * Nat.max n1 n2) (fun r =>
    (n1 <= n2 -> exists s, r = map Some s /\ is_injection n1 n2 s) /\
    (n2 <= n1 -> covers_columns n1 n2 r))).
  intros fuel Hf. destruct (Nat.le_gt_cases n1 n2) as [Hle|Hgt].
  - destruct (wide_shape A Hs Hr fuel m Hw) as (s & E & Hi); rewrite ?E1, ?E2 in *; try lia.
    exists (map Some s). split; [|split].
    + unfold min_weight_perm. rewrite E1, E2. destruct (Nat.ltb_spec n2 n1); [lia|exact E].
    + intros _. exists s. auto.
    + intros Hge. destruct Hi as (Hl & Hnd & Hlt). split.
      * rewrite map_length. exact Hl.
      * rewrite columns_of_map_Some.
        apply NoDup_Permutation_bis; [exact Hnd|rewrite seq_length; lia|].
        intros j Hj. apply in_seq. specialize (Hlt j Hj). lia.
  - destruct (tall_shape A Hs Hr fuel m Hw) as (r & E & Hc); rewrite ?E1, ?E2 in *; try lia.
    exists r. split; [exact E|]. split; [lia|]. intros _. exact Hc.
Qed.
