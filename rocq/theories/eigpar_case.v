(** * Answers of eig that are correct and lead astray, and cases. *)

From Coq Require Import List Reals Lia Lra Arith Bool.
Import ListNotations.
From Verif Require Import Py transf_model transf_euler decompose_proof affine_model affine2_model affine_spec affine2_spec affine_proof affine2_proof eigpar_model eigpar_spec eigpar_rank eigpar_proof eigpar_rot.
Local Open Scope R_scope.

Ltac indices := let i := fresh "i" in let H := fresh in intros i H; destruct i as [|[|[|[|i]]]]; try lia.
Ltac pair_ok := unfold eigenvector, product, total, scaled, basis, zeros, transposed, rows4; cbn; split; [indices; cbn; lra|split; [indices; cbn; lra|split; [try ring; try (generalize half_sq; lra)|]]].
Lemma turn_eig3 a : sin a <> 0 -> eigenvectors_of 3 (transposed (turn_matrix a)) (turn_eig a 3%nat (transposed (turn_matrix a))).
Proof.
  intros S. apply (eigenvectors_ext 3 _ (transposed (rows4 [[1; 0; 0; 0]; [0; cos a; - sin a; 0]; [0; sin a; cos a; 0]; [0; 0; 0; 1]]))); [lia|intros i j I J; apply (turn_entries a j i J I)|].
  split; [reflexivity|split].
  - repeat apply Forall_cons; try apply Forall_nil; cbn [re_value im_value re_vector im_vector].
    all: pair_ok; try (intros; lra); intros; reflexivity.
  - intros value v H. assert (H0 := H 0%nat ltac:(lia)). assert (H1 := H 1%nat ltac:(lia)). assert (H2 := H 2%nat ltac:(lia)). clear H.
    unfold product, total, transposed, rows4 in H0, H1, H2. cbn in H0, H1, H2.
    assert (Z : v 1%nat = 0 /\ v 2%nat = 0).
    { assert (K : sin a * (v 1%nat * v 1%nat + v 2%nat * v 2%nat) = 0).
      { replace (sin a * (v 1%nat * v 1%nat + v 2%nat * v 2%nat)) with ((sin a * v 2%nat) * v 2%nat - (- sin a * v 1%nat) * v 1%nat) by ring.
        replace (sin a * v 2%nat) with ((value - cos a) * v 1%nat) by lra. replace (- sin a * v 1%nat) with ((value - cos a) * v 2%nat) by lra. ring. }
      apply Rmult_integral in K. destruct K as [K|K]; [contradiction|]. apply squares_zero, K. }
    destruct Z as (Z1 & Z2). destruct (Req_EM_T value 1) as [->|V].
    + apply (combined_one 3 1 _ (Eigenpair 1 0 (basis 0) zeros) v (v 0%nat)); [left; reflexivity|reflexivity|reflexivity|]. indices; unfold basis; cbn; lra.
    + apply combined_zero. assert (v 0%nat = 0) by (apply (Rmult_eq_reg_l (value - 1)); lra). indices; assumption.
Qed.
Lemma combined_two n value l e e' v t t' : l = e :: e' :: nil \/ (exists r1 r2 r3, l = r1 ++ e :: r2 ++ e' :: r3) -> re_value e = value -> im_value e = 0 -> re_value e' = value -> im_value e' = 0 ->
  (forall i, (i < n)%nat -> v i = t * re_vector e i + t' * re_vector e' i) -> combined n value l v.
Proof.
  intros L R J R' J' V. assert (X : exists r1 r2 r3, l = r1 ++ e :: r2 ++ e' :: r3) by (destruct L as [->|L]; [exists [], [], []; reflexivity|exact L]).
  destruct X as (r1 & r2 & r3 & ->). induction r1 as [|x r1 IH]; [|apply combined_skip, IH; right; exists r1, r2, r3; reflexivity]. cbn [app].
  apply (combined_add n value e _ (fun i => t' * re_vector e' i) v t); [|exact R|exact J|intros i I; rewrite (V i I); ring].
  apply (combined_one n value _ e' _ t'); [apply in_or_app; right; left; reflexivity|exact R'|exact J'|reflexivity].
Qed.
Lemma turn_eig4 a : sin a <> 0 -> eigenvectors_of 4 (turn_matrix a) (turn_eig a 4%nat (turn_matrix a)).
Proof.
  intros S. apply (eigenvectors_ext 4 _ (rows4 [[1; 0; 0; 0]; [0; cos a; - sin a; 0]; [0; sin a; cos a; 0]; [0; 0; 0; 1]])); [lia|apply turn_entries|].
  split; [reflexivity|split].
  - repeat apply Forall_cons; try apply Forall_nil; cbn [re_value im_value re_vector im_vector].
    all: pair_ok; try (intros; lra); intros; reflexivity.
  - intros value v H. assert (H0 := H 0%nat ltac:(lia)). assert (H1 := H 1%nat ltac:(lia)). assert (H2 := H 2%nat ltac:(lia)). assert (H3 := H 3%nat ltac:(lia)). clear H.
    unfold product, total, rows4 in H0, H1, H2, H3. cbn in H0, H1, H2, H3.
    assert (Z : v 1%nat = 0 /\ v 2%nat = 0).
    { assert (K : sin a * (v 1%nat * v 1%nat + v 2%nat * v 2%nat) = 0).
      { replace (sin a * (v 1%nat * v 1%nat + v 2%nat * v 2%nat)) with ((sin a * v 1%nat) * v 1%nat - (- sin a * v 2%nat) * v 2%nat) by ring.
        replace (sin a * v 1%nat) with ((value - cos a) * v 2%nat) by lra. replace (- sin a * v 2%nat) with ((value - cos a) * v 1%nat) by lra. ring. }
      apply Rmult_integral in K. destruct K as [K|K]; [contradiction|]. apply squares_zero, K. }
    destruct Z as (Z1 & Z2). destruct (Req_EM_T value 1) as [->|V].
    + apply (combined_two 4 1 _ (Eigenpair 1 0 (basis 0) zeros) (Eigenpair 1 0 (basis 3) zeros) v (v 0%nat) (v 3%nat)); try reflexivity.
      * right. exists [], [Eigenpair (cos a) (- sin a) (scaled 1 half) (scaled 2 half); Eigenpair (cos a) (sin a) (scaled 1 half) (scaled 2 (- half))], []. reflexivity.
      * indices; unfold basis; cbn; lra.
    + apply combined_zero. assert (v 0%nat = 0) by (apply (Rmult_eq_reg_l (value - 1)); lra). assert (v 3%nat = 0) by (apply (Rmult_eq_reg_l (value - 1)); lra). indices; assumption.
Qed.
Lemma near_yes value tol e : Rabs (re_value e - value) < tol -> near value tol e = true.
Proof. apply near_iff. Qed.
Lemma near_no value tol e : ~ Rabs (re_value e - value) < tol -> near value tol e = false.
Proof. intros H. destruct (near value tol e) eqn:N; [|reflexivity]. apply near_iff in N. contradiction. Qed.
Lemma abs_bounds x b : Rabs x < b <-> - b < x < b.
Proof. split; [apply Rabs_def2|intros; apply Rabs_def1; lra] || (split; [intros H; apply Rabs_def2 in H; lra|intros; apply Rabs_def1; lra]). Qed.
Lemma half_pos : 0 < half.
Proof. unfold half. apply sqrt_lt_R0. lra. Qed.
Lemma small_turn a : 1 - 1 / 10 ^ 8 < cos a -> 1 / 10 ^ 8 < Rabs (sin a) ->
  rotation_from_matrix (turn_eig a) (turn_matrix a) = Ok (0, V3 0 half 0, Some vzero) /\
  is_same_transform (turn_matrix a) (rotation_matrix 0 (V3 0 half 0) (Some vzero)) = false.
Proof.
  intros C S. assert (C1 := COS_bound a). assert (TP := tol_pos 8). assert (HP := half_pos). split.
  - unfold rotation_from_matrix, turn_eig, where_near. cbn [filter].
    rewrite !(near_yes 1 (1 / 10 ^ 8)) by (cbn [re_value]; apply abs_bounds; lra). cbn [last_of rev app bind re_vector im_vector].
    unfold real3, real_point; cbn [re_vector]. unfold scaled, basis; cbn [Nat.eqb]. cbv zeta. cbn [vx vy vz].
    destruct (Rlt_dec (1 / 10 ^ 8) (Rabs 0)) as [Z|_]; [rewrite Rabs_R0 in Z; lra|].
    destruct (Rlt_dec (1 / 10 ^ 8) (Rabs half)) as [_|Z].
    2: { exfalso. apply Z. rewrite Rabs_right by lra. generalize half_sq. intros. assert (1 / 10 ^ 8 < 1 / 2) by (cbn; lra). nra. }
    rewrite (rotation_trace a (V3 1 0 0) (Some vzero) ltac:(intros H; inversion H; lra) : (trace3 (turn_matrix a) - 1) / 2 = cos a).
    rewrite (turn_entries a 0%nat 2%nat ltac:(lia) ltac:(lia)). unfold rows4; cbn [nth].
    replace ((0 + (cos a - 1) * 0 * 0) / half) with 0 by (field; lra).
    destruct (Req_EM_T 1 0) as [Z|_]; [lra|].
    unfold atan2. assert (1 / 10 ^ 8 < 1 / 2) by (cbn; lra). destruct (Rlt_dec 0 (cos a)) as [_|Z]; [|lra].
    replace (0 / cos a) with 0 by (field; lra). rewrite atan_0. unfold vzero. replace (0 / 1) with 0 by field. reflexivity.
  - unfold is_same_transform, allclose. cbn [seq forallb]. apply andb_false_iff. right. apply andb_false_iff. left. apply andb_false_iff. right. apply andb_false_iff. right. apply andb_false_iff. left.
    unfold close. rewrite (turn_entries a 1%nat 2%nat ltac:(lia) ltac:(lia)), (turn_entries a 3%nat 3%nat ltac:(lia) ltac:(lia)). unfold rows4; cbn [nth].
    replace (rotation_matrix 0 (V3 0 half 0) (Some vzero) 1%nat 2%nat / rotation_matrix 0 (V3 0 half 0) (Some vzero) 3%nat 3%nat) with 0.
    2: { unfold rotation_matrix. rewrite sin_0, cos_0. generalize (unit_vector (V3 0 half 0)). intros u. unfold set_column, add33, identity4, cross_matrix, vouter, rows4, vscale; cbn. field. }
    destruct (Rle_dec _ _) as [L|_]; [|reflexivity]. exfalso. rewrite Rabs_R0 in L. replace (- sin a / 1 - 0) with (- sin a) in L by field. rewrite Rabs_Ropp in L. lra.
Qed.
Lemma wrong_axis a : 1 - 1 / 10 ^ 8 < cos a -> 1 / 10 ^ 8 < Rabs (sin a) -> let m := rotation_matrix a (V3 1 0 0) (Some vzero) in
  exists eig, eigenvectors_of 3 (transposed m) (eig 3%nat (transposed m)) /\ eigenvectors_of 4 m (eig 4%nat m) /\
    exists a' d' q', rotation_from_matrix eig m = Ok (a', d', Some q') /\ is_same_transform m (rotation_matrix a' d' (Some q')) = false.
Proof.
  intros C S m. assert (SN : sin a <> 0) by (intros Z; rewrite Z, Rabs_R0 in S; generalize (tol_pos 8); lra).
  exists (turn_eig a). split; [exact (turn_eig3 a SN)|split; [exact (turn_eig4 a SN)|]].
  destruct (small_turn a C S) as (A & B). exists 0, (V3 0 half 0), vzero. split; [exact A|exact B].
Qed.

(** ** A point at infinity *)
Definition mirror_eig : eig_fun := fun n m =>
  match n with
  | 3%nat => [Eigenpair (-1) 0 (basis 0) zeros; Eigenpair 1 0 (basis 1) zeros; Eigenpair 1 0 (basis 2) zeros]
  | _ => [Eigenpair (-1) 0 (basis 0) zeros; Eigenpair 1 0 (basis 3) zeros; Eigenpair 1 0 (basis 1) zeros; Eigenpair 1 0 (basis 2) zeros]
  end.
Definition mirror_good : eig_fun := fun n m =>
  match n with
  | 3%nat => [Eigenpair (-1) 0 (basis 0) zeros; Eigenpair 1 0 (basis 1) zeros; Eigenpair 1 0 (basis 2) zeros]
  | _ => [Eigenpair (-1) 0 (basis 0) zeros; Eigenpair 1 0 (basis 1) zeros; Eigenpair 1 0 (basis 2) zeros; Eigenpair 1 0 (basis 3) zeros]
  end.
Definition mirror_matrix : mat4 := reflection_matrix vzero (V3 1 0 0).
Lemma mirror_entries : same4 mirror_matrix (rows4 [[-1; 0; 0; 0]; [0; 1; 0; 0]; [0; 0; 1; 0]; [0; 0; 0; 1]]).
Proof. unfold mirror_matrix, reflection_matrix. rewrite unit_x. entries; try lia; unfold set_column, add33, identity4, vouter, vdot, rows4; cbn; ring. Qed.
(** Sums of listed vectors, from the coefficients. *)
Fixpoint mix (l : list eigenpair) (cs : list R) (i : nat) : R :=
  match l, cs with e :: l', c :: cs' => c * re_vector e i + mix l' cs' i | _, _ => 0 end.
Lemma mixed n value l cs v : length cs = length l -> Forall2 (fun e c => c = 0 \/ re_value e = value /\ im_value e = 0) l cs -> (forall i, (i < n)%nat -> v i = mix l cs i) -> combined n value l v.
Proof.
  intros _ F. revert v. induction F as [|e c l cs H F IH]; intros v V.
  - apply combined_nil. exact V.
  - destruct H as [->|(R & J)].
    + apply combined_skip, IH. intros i I. rewrite (V i I). cbn. ring.
    + apply (combined_add n value e l (mix l cs) v c); [apply IH; reflexivity|exact R|exact J|]. intros i I. rewrite (V i I). cbn. ring.
Qed.
Lemma mirror_ok3 : eigenvectors_of 3 mirror_matrix (mirror_eig 3%nat mirror_matrix).
Proof.
  apply (eigenvectors_ext 3 _ _ _ ltac:(lia) mirror_entries). split; [reflexivity|split].
  - repeat apply Forall_cons; try apply Forall_nil; cbn [re_value im_value re_vector im_vector]. all: pair_ok; intros; reflexivity.
  - intros value v H. assert (H0 := H 0%nat ltac:(lia)). assert (H1 := H 1%nat ltac:(lia)). assert (H2 := H 2%nat ltac:(lia)). clear H.
    unfold product, total, rows4 in H0, H1, H2. cbn in H0, H1, H2.
    apply (mixed 3 value _ [v 0%nat; v 1%nat; v 2%nat]); [reflexivity| |indices; unfold basis; cbn; ring].
    assert (A : (-1 - value) * v 0%nat = 0) by lra. assert (B : (1 - value) * v 1%nat = 0) by lra. assert (C : (1 - value) * v 2%nat = 0) by lra.
    apply Rmult_integral in A, B, C. repeat apply Forall2_cons; try apply Forall2_nil; cbn [re_value im_value]; [destruct A|destruct B|destruct C]; solve [left; assumption|right; split; [lra|reflexivity]].
Qed.
Lemma mirror_ok4 : eigenvectors_of 4 mirror_matrix (mirror_eig 4%nat mirror_matrix).
Proof.
  apply (eigenvectors_ext 4 _ _ _ ltac:(lia) mirror_entries). split; [reflexivity|split].
  - repeat apply Forall_cons; try apply Forall_nil; cbn [re_value im_value re_vector im_vector]. all: pair_ok; intros; reflexivity.
  - intros value v H. assert (H0 := H 0%nat ltac:(lia)). assert (H1 := H 1%nat ltac:(lia)). assert (H2 := H 2%nat ltac:(lia)). assert (H3 := H 3%nat ltac:(lia)). clear H.
    unfold product, total, rows4 in H0, H1, H2, H3. cbn in H0, H1, H2, H3.
    apply (mixed 4 value _ [v 0%nat; v 3%nat; v 1%nat; v 2%nat]); [reflexivity| |indices; unfold basis; cbn; ring].
    assert (A : (-1 - value) * v 0%nat = 0) by lra. assert (B : (1 - value) * v 1%nat = 0) by lra. assert (C : (1 - value) * v 2%nat = 0) by lra. assert (D : (1 - value) * v 3%nat = 0) by lra.
    apply Rmult_integral in A, B, C, D. repeat apply Forall2_cons; try apply Forall2_nil; cbn [re_value im_value]; [destruct A|destruct D|destruct B|destruct C]; solve [left; assumption|right; split; [lra|reflexivity]].
Qed.
Lemma good_ok4 : eigenvectors_of 4 mirror_matrix (mirror_good 4%nat mirror_matrix).
Proof.
  apply (eigenvectors_ext 4 _ _ _ ltac:(lia) mirror_entries). split; [reflexivity|split].
  - repeat apply Forall_cons; try apply Forall_nil; cbn [re_value im_value re_vector im_vector]. all: pair_ok; intros; reflexivity.
  - intros value v H. assert (H0 := H 0%nat ltac:(lia)). assert (H1 := H 1%nat ltac:(lia)). assert (H2 := H 2%nat ltac:(lia)). assert (H3 := H 3%nat ltac:(lia)). clear H.
    unfold product, total, rows4 in H0, H1, H2, H3. cbn in H0, H1, H2, H3.
    apply (mixed 4 value _ [v 0%nat; v 1%nat; v 2%nat; v 3%nat]); [reflexivity| |indices; unfold basis; cbn; ring].
    assert (A : (-1 - value) * v 0%nat = 0) by lra. assert (B : (1 - value) * v 1%nat = 0) by lra. assert (C : (1 - value) * v 2%nat = 0) by lra. assert (D : (1 - value) * v 3%nat = 0) by lra.
    apply Rmult_integral in A, B, C, D. repeat apply Forall2_cons; try apply Forall2_nil; cbn [re_value im_value]; [destruct A|destruct B|destruct C|destruct D]; solve [left; assumption|right; split; [lra|reflexivity]].
Qed.
Lemma point_at_infinity : let m := reflection_matrix vzero (V3 1 0 0) in
  exists eig n', eigenvectors_of 3 m (eig 3%nat m) /\ eigenvectors_of 4 m (eig 4%nat m) /\ reflection_from_matrix eig m = Ok (None, n').
Proof.
  exists mirror_eig, (V3 1 0 0). split; [exact mirror_ok3|split; [exact mirror_ok4|]].
  unfold reflection_from_matrix, mirror_eig, where_near. cbn [filter]. assert (TP := tol_pos 8). assert (TL : 1 / 10 ^ 8 < 1) by (cbn; lra).
  rewrite (near_yes (-1)) by (cbn [re_value]; apply abs_bounds; lra).
  rewrite !(near_no (-1)) by (cbn [re_value]; rewrite abs_bounds; lra).
  rewrite (near_no 1) by (cbn [re_value]; rewrite abs_bounds; lra). rewrite !(near_yes 1) by (cbn [re_value]; apply abs_bounds; lra).
  cbn [first_of last_of rev app bind]. unfold real_point, real3, basis; cbn [re_vector Nat.eqb]. destruct (Req_EM_T 0 0) as [_|Z]; [reflexivity|lra].
Qed.
