(** * Answers of eig for some matrices. *)

From Coq Require Import List Reals Lia Lra Arith Bool.
Import ListNotations.
From Verif Require Import Py transf_model affine_model affine2_model affine_spec affine2_spec affine_proof affine2_proof eigpar_model eigpar_spec eigpar_rank eigpar_proof eigpar_rot eigpar_case eigproj_proof eigproj_shear.
Local Open Scope R_scope.

Definition dual (n : nat) (w v : nat -> R) : R := total n (fun j => w j * v j).
(** Eigenvectors with the coefficients of a vector. *)
Lemma real_ok n m l ws : length l = n -> Forall (eigenvector n m) l ->
  Forall2 (fun e w => im_value e = 0 /\ forall v, dual n w (product n m v) = re_value e * dual n w v) l ws ->
  (forall v i, (i < n)%nat -> v i = mix l (map (fun w => dual n w v) ws) i) -> eigenvectors_of n m l.
Proof.
  intros L F D M. split; [exact L|split; [exact F|]]. intros value v H. apply (mixed n value l (map (fun w => dual n w v) ws)); [| |apply M].
  - rewrite map_length. clear -D. induction D; cbn; congruence.
  - clear -D H. induction D as [|e w l ws (J & K) D IH]; cbn [map]; constructor; [|exact IH].
    assert (Z : dual n w (product n m v) = value * dual n w v).
    { unfold dual. transitivity (total n (fun j => value * (w j * v j))).
      - apply total_ext. intros i I. rewrite (H i I). ring.
      - clear. induction n as [|n IH]; cbn; [ring|]. rewrite IH. ring. }
    rewrite K in Z. assert (Y : (re_value e - value) * dual n w v = 0) by lra. apply Rmult_integral in Y. destruct Y as [Y|Y]; [right; split; [lra|exact J]|left; exact Y].
Qed.
Definition coords (l : list R) : nat -> R := fun i => nth i l 0.
Definition real_pair (value : R) (l : list R) : eigenpair := Eigenpair value 0 (coords l) zeros.
Ltac eig_pairs := repeat apply Forall_cons; try apply Forall_nil; (split; [indices; unfold real_pair, product, total, rows4, transposed, coords; cbn; try lra|split; [indices; unfold real_pair, product, total, rows4, transposed, coords, zeros; cbn; lra|split; [unfold real_pair, total, coords, zeros; cbn; try lra; try (generalize half_sq; lra)|intros _; reflexivity]]]).
Ltac eig_duals := repeat apply Forall2_cons; try apply Forall2_nil; (split; [reflexivity|intros v; unfold dual, product, total, rows4, transposed, coords; cbn; ring]).
Lemma half_inv x : half * (2 * half * x) = x.
Proof. replace (half * (2 * half * x)) with (2 * (half * half) * x) by ring. rewrite half_sq. field. Qed.
Ltac eig_mix := let v := fresh "v" in intros v; indices; unfold dual, total, coords; cbn; generalize half_sq; generalize half; intros h Hh; try nra.
Lemma diagonal_ok3 x y z m : same4 m (rows4 [[x; 0; 0; m 0%nat 3%nat]; [0; y; 0; m 1%nat 3%nat]; [0; 0; z; m 2%nat 3%nat]; [m 3%nat 0%nat; m 3%nat 1%nat; m 3%nat 2%nat; m 3%nat 3%nat]]) ->
  eigenvectors_of 3 m [real_pair x [1; 0; 0]; real_pair y [0; 1; 0]; real_pair z [0; 0; 1]].
Proof.
  intros S. apply (eigenvectors_ext 3 _ _ _ ltac:(lia) S). apply (real_ok 3 _ _ [coords [1; 0; 0]; coords [0; 1; 0]; coords [0; 0; 1]]); [reflexivity|eig_pairs|eig_duals|].
  intros v. indices; unfold dual, total, coords; cbn; ring.
Qed.
Lemma diagonal_ok4 x y z w m : same4 m (rows4 [[x; 0; 0; 0]; [0; y; 0; 0]; [0; 0; z; 0]; [0; 0; 0; w]]) ->
  eigenvectors_of 4 m [real_pair x [1; 0; 0; 0]; real_pair y [0; 1; 0; 0]; real_pair z [0; 0; 1; 0]; real_pair w [0; 0; 0; 1]].
Proof.
  intros S. apply (eigenvectors_ext 4 _ _ _ ltac:(lia) S). apply (real_ok 4 _ _ [coords [1; 0; 0; 0]; coords [0; 1; 0; 0]; coords [0; 0; 1; 0]; coords [0; 0; 0; 1]]); [reflexivity|eig_pairs|eig_duals|].
  intros v. indices; unfold dual, total, coords; cbn; ring.
Qed.
Lemma unit_z : unit_vector (V3 0 0 1) = V3 0 0 1.
Proof. apply unit_same. unfold inner; cbn. ring. Qed.
(** Both values of a block of the last two rows, with vectors (0, 0, s, s) and (0, 0, r c, c). *)
Definition block_list (k z r c : R) : list eigenpair :=
  [real_pair k [1; 0; 0; 0]; real_pair k [0; 1; 0; 0]; real_pair k [0; 0; half; half]; real_pair z [0; 0; r * c; c]].
Lemma block_ok k z r c a b a' b' m l : r <> 1 -> (r * r + 1) * (c * c) = 1 -> a + b = k -> a' + b' = k -> a * r + b = z * r -> a' * r + b' = z ->
  same4 m (rows4 [[k; 0; 0; 0]; [0; k; 0; 0]; [0; 0; a; b]; [0; 0; a'; b']]) -> l = block_list k z r c \/ l = rev (block_list k z r c) -> eigenvectors_of 4 m l.
Proof.
  intros R C K K' Z Z' S L. apply (eigenvectors_ext 4 _ _ _ ltac:(lia) S). assert (HP := half_pos). assert (HS := half_sq).
  assert (CN : c <> 0) by (intros ->; lra). assert (RN : r - 1 <> 0) by lra.
  set (w2 := coords [0; 0; - / ((r - 1) * half); r / ((r - 1) * half)]). set (w3 := coords [0; 0; / ((r - 1) * c); - / ((r - 1) * c)]).
  assert (AB : b = k - a) by lra. assert (AB' : b' = k - a') by lra. subst b b'.
  assert (P2 : half * a + half * (k - a) = k * half) by ring. assert (P2' : half * a' + half * (k - a') = k * half) by ring.
  assert (D2 : forall v, dual 4 w2 (product 4 (rows4 [[k; 0; 0; 0]; [0; k; 0; 0]; [0; 0; a; k - a]; [0; 0; a'; k - a']]) v) = k * dual 4 w2 v).
  { intros v. unfold w2, dual, product, total, rows4, coords; cbn. apply (Rmult_eq_reg_l ((r - 1) * half)); [|apply Rmult_integral_contrapositive; split; lra].
    transitivity ((r * a' - a) * v 2%nat + (r * (k - a') - (k - a)) * v 3%nat); [field; split; lra|]. 
    replace (r * a' - a) with (- k) by (assert (E : (r - 1) * (r * a' - a + k) = 0) by nra; apply Rmult_integral in E; destruct E; lra).
    replace (r * (k - a') - (k - a)) with (r * k) by (assert (E : (r - 1) * (r * a' - a + k) = 0) by nra; apply Rmult_integral in E; destruct E; lra). field; split; lra. }
  assert (D3 : forall v, dual 4 w3 (product 4 (rows4 [[k; 0; 0; 0]; [0; k; 0; 0]; [0; 0; a; k - a]; [0; 0; a'; k - a']]) v) = z * dual 4 w3 v).
  { intros v. unfold w3, dual, product, total, rows4, coords; cbn. apply (Rmult_eq_reg_l ((r - 1) * c)); [|apply Rmult_integral_contrapositive; split; assumption].
    transitivity ((a - a') * v 2%nat - (a - a') * v 3%nat); [field; split; assumption|].
    replace (a - a') with z by (apply (Rmult_eq_reg_l (r - 1)); lra). field; split; assumption. }
  assert (F : forall e, In e (block_list k z r c) -> eigenvector 4 (rows4 [[k; 0; 0; 0]; [0; k; 0; 0]; [0; 0; a; k - a]; [0; 0; a'; k - a']]) e).
  { apply Forall_forall. unfold block_list. repeat apply Forall_cons; try apply Forall_nil; (split; [indices; unfold real_pair, product, total, rows4, coords; cbn; try nra|split; [indices; unfold real_pair, product, total, rows4, coords, zeros; cbn; lra|split; [unfold real_pair, total, coords, zeros; cbn; nra|intros _; reflexivity]]]). }
  assert (MX : forall v i, (i < 4)%nat -> v i = mix (block_list k z r c) (map (fun w => dual 4 w v) [coords [1; 0; 0; 0]; coords [0; 1; 0; 0]; w2; w3]) i).
  { intros v. unfold block_list, w2, w3. indices; unfold dual, total, coords; cbn; field; repeat split; lra || assumption. }
  destruct L as [->| ->].
  - apply (real_ok 4 _ _ [coords [1; 0; 0; 0]; coords [0; 1; 0; 0]; w2; w3]); [reflexivity|apply Forall_forall; exact F| |exact MX].
    unfold block_list. repeat apply Forall2_cons; try apply Forall2_nil; (split; [reflexivity|cbn [re_value real_pair]]); [| |exact D2|exact D3]; intros v; unfold dual, product, total, rows4, coords; cbn; ring.
  - apply (real_ok 4 _ _ [w3; w2; coords [0; 1; 0; 0]; coords [1; 0; 0; 0]]); [reflexivity|apply Forall_forall; intros e I; apply F, in_rev, I| |].
    + unfold block_list. cbn [rev app]. repeat apply Forall2_cons; try apply Forall2_nil; (split; [reflexivity|cbn [re_value real_pair]]); [exact D3|exact D2| |]; intros v; unfold dual, product, total, rows4, coords; cbn; ring.
    + intros v i I. rewrite (MX v i I). unfold block_list. cbn [rev app map mix]. ring.
Qed.

(** ** Projections seen from a point of the third axis *)
Definition z_axis : vec3 := V3 0 0 1.
Definition eye_matrix (g : R) (pseudo : bool) : mat4 := projection_matrix z_axis z_axis None (Some (V3 0 0 g)) pseudo.
Lemma eye_entries g : same4 (eye_matrix g false) (rows4 [[g - 1; 0; 0; 0]; [0; g - 1; 0; 0]; [0; 0; -1; g]; [0; 0; -1; g]]).
Proof.
  unfold eye_matrix, projection_matrix, z_axis. rewrite unit_z. entries; try lia; unfold set_column, set_last_row, set_diagonal, set4, add33, identity4, vouter, vdot, rows4; cbn; ring.
Qed.
Lemma eye_entries_pseudo g : same4 (eye_matrix g true) (rows4 [[g - 1; 0; 0; 0]; [0; g - 1; 0; 0]; [0; 0; -2; g + 1]; [0; 0; -1; g]]).
Proof.
  unfold eye_matrix, projection_matrix, z_axis. rewrite unit_z. entries; try lia; unfold set_column, set_last_row, set_diagonal, set4, add33, identity4, vouter, vdot, rows4; cbn; ring.
Qed.
Definition root (x : R) : R := sqrt (1 / x).
Lemma root_sq x : 0 < x -> x * (root x * root x) = 1.
Proof. intros H. unfold root. rewrite sqrt_sqrt; [field; lra|]. apply Rlt_le. unfold Rdiv. rewrite Rmult_1_l. apply Rinv_0_lt_compat, H. Qed.
Definition eye_eig (g : R) : eig_fun := fun n m =>
  match n with
  | 3%nat => [real_pair (g - 1) [1; 0; 0]; real_pair (g - 1) [0; 1; 0]; real_pair (-1) [0; 0; 1]]
  | _ => rev (block_list (g - 1) 0 g (root (g * g + 1)))
  end.
Lemma eye_ok3 g : eigenvectors_of 3 (eye_matrix g false) (eye_eig g 3%nat (eye_matrix g false)).
Proof.
  apply diagonal_ok3. intros i j I J. destruct i as [|[|[|[|i]]]]; try lia; destruct j as [|[|[|[|j]]]]; try lia; try reflexivity; rewrite (eye_entries g _ _ I J); reflexivity.
Qed.
Lemma eye_ok4 g : g <> 1 -> eigenvectors_of 4 (eye_matrix g false) (eye_eig g 4%nat (eye_matrix g false)).
Proof.
  intros G. apply (block_ok (g - 1) 0 g (root (g * g + 1)) (-1) g (-1) g); [exact G|apply root_sq; nra|ring|ring|ring|ring|apply eye_entries|right; reflexivity].
Qed.
Definition pseudo_list : list eigenpair := block_list 2 (-1) 4 (root 17).
Lemma pseudo_ok l : l = pseudo_list \/ l = rev pseudo_list -> eigenvectors_of 4 (eye_matrix 3 true) l.
Proof.
  intros L. apply (block_ok 2 (-1) 4 (root 17) (-2) 4 (-1) 3); [lra|replace (4 * 4 + 1) with 17 by ring; apply root_sq; lra|ring|ring|ring|ring| |exact L].
  intros i j I J. rewrite (eye_entries_pseudo 3 i j I J). destruct i as [|[|[|[|i]]]]; try lia; destruct j as [|[|[|[|j]]]]; try lia; unfold rows4; cbn; ring.
Qed.
Lemma pseudo_wrong : let m := projection_matrix (V3 0 0 1) (V3 0 0 1) None (Some (V3 0 0 3)) true in
  exists eig, eigenvectors_of 4 m (eig 4%nat m) /\
    exists q s, projection_from_matrix eig m true = Ok (Some q, V3 0 0 1, None, Some (Some s), true) /\
      forall t, ~ same4 (projection_matrix q (V3 0 0 1) None (Some s) true) (fun i j => t * m i j).
Proof.
  intros m. exists (fun _ _ => pseudo_list). split; [apply pseudo_ok; left; reflexivity|]. exists (V3 0 0 4), (V3 0 0 0).
  assert (RP : root 17 <> 0) by (intros H; generalize (root_sq 17 ltac:(lra)); rewrite H; lra). split.
  - unfold projection_from_matrix, pseudo_list, block_list. assert (TL : 1 / 10 ^ 8 < 1) by (cbn; lra).
    assert (A : forall x, 1 <= Rabs x -> (if Rlt_dec (1 / 10 ^ 8) (Rabs x) then true else false) = true) by (intros x H; destruct (Rlt_dec _ _); [reflexivity|lra]).
    unfold where_away. cbn [filter re_value real_pair]. rewrite !A by (unfold Rabs; destruct (Rcase_abs _); lra). cbn [last_of rev app bind]. cbv zeta.
    unfold real_point, real_pair. cbn [re_vector]. unfold coords; cbn [nth]. destruct (Req_EM_T (root 17) 0) as [Z|_]; [contradiction|].
    assert (E := eye_entries_pseudo 3). fold m in E. change (eye_matrix 3 true) with m in E.
    rewrite (E 3%nat 0%nat), (E 3%nat 1%nat), (E 3%nat 2%nat), (E 0%nat 3%nat), (E 1%nat 3%nat), (E 2%nat 3%nat) by lia. unfold rows4, vdot; cbn [nth vx vy vz].
    replace (0 / root 17) with 0 by (field; exact RP). replace (4 * root 17 / root 17) with 4 by (field; exact RP).
    destruct (Req_EM_T (0 * - 0 + 0 * - 0 + 4 * - -1) 0) as [Z|_]; [lra|].
    repeat f_equal; try ring; try (field; lra).
  - intros t S. assert (E := eye_entries_pseudo 3). change (eye_matrix 3 true) with m in E.
    assert (S0 := S 3%nat 3%nat ltac:(lia) ltac:(lia)). assert (S1 := S 3%nat 2%nat ltac:(lia) ltac:(lia)). cbv beta in S0, S1. rewrite (E 3%nat 3%nat) in S0 by lia. rewrite (E 3%nat 2%nat) in S1 by lia.
    revert S0 S1. unfold projection_matrix. rewrite unit_z. unfold set_column, set_last_row, set_diagonal, set4, add33, identity4, vouter, vdot, rows4; cbn. lra.
Qed.

(** ** An oblique projection, a shear, scalings *)
Definition slant : vec3 := V3 1 0 1.
Definition slant_matrix : mat4 := projection_matrix vzero z_axis (Some slant) None false.
Lemma slant_entries : same4 slant_matrix (rows4 [[1; 0; -1; 0]; [0; 1; 0; 0]; [0; 0; 0; 0]; [0; 0; 0; 1]]).
Proof.
  unfold slant_matrix, projection_matrix, z_axis. rewrite unit_z. entries; try lia; unfold set_column, add33, identity4, vouter, vdot, rows4; cbn; field.
Qed.
Definition slant_eig : eig_fun := fun n m =>
  match n with
  | 3%nat => if Req_EM_T (m 0%nat 2%nat) 0 then [real_pair 1 [half; 0; - half]; real_pair 1 [0; 1; 0]; real_pair 0 [0; 0; 1]]
             else [real_pair 1 [1; 0; 0]; real_pair 1 [0; 1; 0]; real_pair 0 [half; 0; half]]
  | _ => [real_pair 1 [1; 0; 0; 0]; real_pair 1 [0; 1; 0; 0]; real_pair 0 [half; 0; half; 0]; real_pair 1 [0; 0; 0; 1]]
  end.
Lemma slant_ok3 : eigenvectors_of 3 slant_matrix (slant_eig 3%nat slant_matrix).
Proof.
  unfold slant_eig. destruct (Req_EM_T (slant_matrix 0%nat 2%nat) 0) as [Z|_]; [exfalso; rewrite (slant_entries 0%nat 2%nat) in Z by lia; unfold rows4 in Z; cbn in Z; lra|].
  apply (eigenvectors_ext 3 _ _ _ ltac:(lia) slant_entries). assert (HP := half_pos).
  apply (real_ok 3 _ _ [coords [1; 0; -1]; coords [0; 1; 0]; coords [0; 0; / half]]); [reflexivity|eig_pairs|eig_duals|].
  intros v. indices; unfold dual, total, coords; cbn; field; lra.
Qed.
Lemma slant_ok3t : eigenvectors_of 3 (transposed slant_matrix) (slant_eig 3%nat (transposed slant_matrix)).
Proof.
  unfold slant_eig. destruct (Req_EM_T (transposed slant_matrix 0%nat 2%nat) 0) as [_|Z]; [|exfalso; apply Z; unfold transposed; rewrite (slant_entries 2%nat 0%nat) by lia; reflexivity].
  apply (eigenvectors_ext 3 _ (transposed (rows4 [[1; 0; -1; 0]; [0; 1; 0; 0]; [0; 0; 0; 0]; [0; 0; 0; 1]])) _ ltac:(lia)); [intros i j I J; apply slant_entries; assumption|]. assert (HP := half_pos).
  apply (real_ok 3 _ _ [coords [/ half; 0; 0]; coords [0; 1; 0]; coords [1; 0; 1]]); [reflexivity|eig_pairs|eig_duals|].
  intros v. indices; unfold dual, total, coords; cbn; field; lra.
Qed.
Lemma slant_ok4 : eigenvectors_of 4 slant_matrix (slant_eig 4%nat slant_matrix).
Proof.
  apply (eigenvectors_ext 4 _ _ _ ltac:(lia) slant_entries). assert (HP := half_pos).
  apply (real_ok 4 _ _ [coords [1; 0; -1; 0]; coords [0; 1; 0; 0]; coords [0; 0; / half; 0]; coords [0; 0; 0; 1]]); [reflexivity|eig_pairs|eig_duals|].
  intros v. indices; unfold dual, total, coords; cbn; field; lra.
Qed.
Definition bent_matrix : mat4 := rows4 [[1; 0; 1; 0]; [0; 1; 0; 0]; [0; 0; 1; 0]; [0; 0; 0; 1]].
Definition bent_eig : eig_fun := fun n m =>
  match n with
  | 3%nat => [real_pair 1 [1; 0; 0]; real_pair 1 [-1; 0; 0]; real_pair 1 [0; 1; 0]]
  | _ => [real_pair 1 [1; 0; 0; 0]; real_pair 1 [0; 1; 0; 0]; real_pair 1 [-1; 0; 0; 0]; real_pair 1 [0; 0; 0; 1]]
  end.
Lemma bent_built : exists m, shear_matrix (PI / 4) (V3 1 0 0) vzero z_axis = Ok m /\ same4 m bent_matrix.
Proof.
  unfold shear_matrix, z_axis. rewrite unit_z, unit_x, tan_PI4. replace (vdot (V3 0 0 1) (V3 1 0 0)) with 0 by (unfold vdot; cbn; ring). rewrite Rabs_R0.
  destruct (Rlt_dec (1 / 10 ^ 6) 0) as [Z|_]; [generalize (tol_pos 6); lra|]. eexists. split; [reflexivity|].
  entries; try lia; unfold set_column, add33, identity4, vouter, vdot, bent_matrix, rows4; cbn; ring.
Qed.
Lemma bent_ok3 m : same4 m bent_matrix -> eigenvectors_of 3 m (bent_eig 3%nat m).
Proof.
  intros S. apply (eigenvectors_ext 3 _ _ _ ltac:(lia) S). unfold bent_matrix, bent_eig. split; [reflexivity|split; [eig_pairs|]].
  intros value v H. assert (H0 := H 0%nat ltac:(lia)). assert (H1 := H 1%nat ltac:(lia)). assert (H2 := H 2%nat ltac:(lia)). clear H. unfold product, total, rows4 in H0, H1, H2. cbn in H0, H1, H2.
  destruct (Req_EM_T value 1) as [->|V].
  - apply (mixed 3 1 _ [v 0%nat; 0; v 1%nat]); [reflexivity| |indices; unfold coords; cbn; lra]. repeat apply Forall2_cons; try apply Forall2_nil; right; split; reflexivity.
  - assert (A : v 2%nat = 0) by (apply (Rmult_eq_reg_l (value - 1)); lra). assert (B : v 1%nat = 0) by (apply (Rmult_eq_reg_l (value - 1)); lra).
    assert (C : v 0%nat = 0) by (apply (Rmult_eq_reg_l (value - 1)); lra). apply combined_zero. indices; assumption.
Qed.
Lemma bent_ok4 m : same4 m bent_matrix -> eigenvectors_of 4 m (bent_eig 4%nat m).
Proof.
  intros S. apply (eigenvectors_ext 4 _ _ _ ltac:(lia) S). unfold bent_matrix, bent_eig. split; [reflexivity|split; [eig_pairs|]].
  intros value v H. assert (H0 := H 0%nat ltac:(lia)). assert (H1 := H 1%nat ltac:(lia)). assert (H2 := H 2%nat ltac:(lia)). assert (H3 := H 3%nat ltac:(lia)). clear H. unfold product, total, rows4 in H0, H1, H2, H3. cbn in H0, H1, H2, H3.
  destruct (Req_EM_T value 1) as [->|V].
  - apply (mixed 4 1 _ [v 0%nat; v 1%nat; 0; v 3%nat]); [reflexivity| |indices; unfold coords; cbn; lra]. repeat apply Forall2_cons; try apply Forall2_nil; right; split; reflexivity.
  - assert (A : v 2%nat = 0) by (apply (Rmult_eq_reg_l (value - 1)); lra). assert (B : v 1%nat = 0) by (apply (Rmult_eq_reg_l (value - 1)); lra).
    assert (C : v 0%nat = 0) by (apply (Rmult_eq_reg_l (value - 1)); lra). assert (D : v 3%nat = 0) by (apply (Rmult_eq_reg_l (value - 1)); lra). apply combined_zero. indices; assumption.
Qed.
Definition diagonal_eig (x y z : R) : eig_fun := fun n m =>
  match n with
  | 3%nat => [real_pair x [1; 0; 0]; real_pair y [0; 1; 0]; real_pair z [0; 0; 1]]
  | _ => [real_pair x [1; 0; 0; 0]; real_pair y [0; 1; 0; 0]; real_pair z [0; 0; 1; 0]; real_pair 1 [0; 0; 0; 1]]
  end.
Lemma enlarge_entries f : same4 (scale_matrix f (Some vzero) None) (rows4 [[f; 0; 0; 0]; [0; f; 0; 0]; [0; 0; f; 0]; [0; 0; 0; 1]]).
Proof. entries; try lia; unfold scale_matrix, set_column, rows4; cbn; ring. Qed.
Lemma stretch_entries f : same4 (scale_matrix f (Some vzero) (Some (V3 1 0 0))) (rows4 [[f; 0; 0; 0]; [0; 1; 0; 0]; [0; 0; 1; 0]; [0; 0; 0; 1]]).
Proof. unfold scale_matrix. rewrite unit_x. entries; try lia; unfold set_column, add33, identity4, vouter, vdot, rows4; cbn; ring. Qed.
Lemma diagonal_eig3 x y z m : same4 m (rows4 [[x; 0; 0; 0]; [0; y; 0; 0]; [0; 0; z; 0]; [0; 0; 0; 1]]) -> eigenvectors_of 3 m (diagonal_eig x y z 3%nat m).
Proof.
  intros S. apply diagonal_ok3. intros i j I J. destruct i as [|[|[|[|i]]]]; try lia; destruct j as [|[|[|[|j]]]]; try lia; try reflexivity; rewrite (S _ _ I J); reflexivity.
Qed.
Lemma diagonal_eig4 x y z m : same4 m (rows4 [[x; 0; 0; 0]; [0; y; 0; 0]; [0; 0; z; 0]; [0; 0; 0; 1]]) -> eigenvectors_of 4 m (diagonal_eig x y z 4%nat m).
Proof. intros S. apply diagonal_ok4. exact S. Qed.
