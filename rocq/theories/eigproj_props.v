(** * The parameters of projections and shears (C115). *)

From Coq Require Import List Reals Lia Lra.
Import ListNotations.
From Verif Require Import Py transf_model affine_model affine2_model affine_spec affine2_spec affine_proof affine2_proof eigpar_model eigpar_spec eigpar_rank eigpar_proof eigpar_rot eigpar_case eigproj_proof eigproj_shear eigproj_case.
Local Open Scope R_scope.

(** projection_from_matrix of a parallel projection: unit normal and direction, and a point
    of the plane if there is one, which build the matrix again. *)
Theorem C115_parallel : forall eig p n d, n <> vzero -> inner d n <> 0 -> let m := projection_matrix p n (Some d) None false in
  eigenvectors_of 3 m (eig 3%nat m) -> eigenvectors_of 3 (transposed m) (eig 3%nat (transposed m)) -> eigenvectors_of 4 m (eig 4%nat m) ->
  exists q n' d', projection_from_matrix eig m false = Ok (q, n', Some d', None, false) /\ unit_length n' /\ unit_length d' /\ parallel n' n /\ parallel d' d /\
    forall q', q = Some q' -> on_plane p n q' /\ same4 (projection_matrix q' n' (Some d') None false) m.
Proof. intros eig p n d NZ ND m. apply (parallel_back m p n d NZ ND). intros i j _ _. reflexivity. Qed.

(** An orthogonal projection is given back with its normal as direction. *)
Theorem C115_orthogonal : forall eig p n, n <> vzero -> let m := projection_matrix p n None None false in
  eigenvectors_of 3 m (eig 3%nat m) -> eigenvectors_of 3 (transposed m) (eig 3%nat (transposed m)) -> eigenvectors_of 4 m (eig 4%nat m) ->
  exists q n' d', projection_from_matrix eig m false = Ok (q, n', Some d', None, false) /\ unit_length n' /\ unit_length d' /\ parallel n' n /\ parallel d' n /\
    forall q', q = Some q' -> on_plane p n q' /\ same4 (projection_matrix q' n' (Some d') None false) m.
Proof.
  intros eig p n NZ m. apply (parallel_back m p n n NZ); [|exact (orthogonal_is_parallel p n NZ)]. generalize (inner_pos n NZ). lra.
Qed.

(** A perspective projection: normal and eye themselves, if the plane does not pass through
    the origin and the eye is not at distance 1. *)
Theorem C115_perspective : forall eig p n d e, n <> vzero -> let k := inner (vsub e p) (unit_vector n) in let m := projection_matrix p n d (Some e) false in
  1 / 10 ^ 8 < Rabs k -> 1 / 10 ^ 8 <= Rabs (k - 1) -> eigenvectors_of 4 m (eig 4%nat m) ->
  exists q s, projection_from_matrix eig m false = Ok (q, unit_vector n, None, Some s, false) /\ (inner p n = 0 -> s = None) /\
    forall q', q = Some q' -> on_plane p n q' /\ (inner p n <> 0 -> s = Some e /\ same4 (projection_matrix q' (unit_vector n) None (Some e) false) m).
Proof. exact perspective_back. Qed.

(** At distance 1 of the plane, whatever eig answers: ValueError. *)
Theorem C115_distance_refuted : forall eig p n d e, n <> vzero -> let u := unit_vector n in let m := projection_matrix p n d (Some e) false in
  inner (vsub e p) u = 1 -> 1 / 10 ^ 8 <= Rabs (inner p u) -> eigenvectors_of 3 m (eig 3%nat m) -> eigenvectors_of 4 m (eig 4%nat m) ->
  projection_from_matrix eig m false = Err ValueError.
Proof. exact distance_one. Qed.

(** With pseudo depth, provided that the last eigenvalue is not the one of the eye. *)
Theorem C115_pseudo : forall eig p n d e, n <> vzero -> let k := inner (vsub e p) (unit_vector n) in let m := projection_matrix p n d (Some e) true in
  1 / 10 ^ 8 < Rabs k -> eigenvectors_of 4 m (eig 4%nat m) -> (forall l x, eig 4%nat m = l ++ [x] -> k = -1 \/ re_value x <> -1) ->
  exists q s, projection_from_matrix eig m true = Ok (q, unit_vector n, None, Some s, true) /\
    forall q', q = Some q' -> on_plane p n q' /\ (inner p n <> 0 -> s = Some e /\ same4 (projection_matrix q' (unit_vector n) None (Some e) true) m).
Proof. exact pseudo_back. Qed.

(** If it is, another eye is found, and its matrix is no multiple of the first. *)
Theorem C115_pseudo_refuted : let m := projection_matrix (V3 0 0 1) (V3 0 0 1) None (Some (V3 0 0 3)) true in
  exists eig, eigenvectors_of 4 m (eig 4%nat m) /\
    exists q s, projection_from_matrix eig m true = Ok (Some q, V3 0 0 1, None, Some (Some s), true) /\
      forall t, ~ same4 (projection_matrix q (V3 0 0 1) None (Some s) true) (fun i j => t * m i j).
Proof. exact pseudo_wrong. Qed.

(** shear_from_matrix: an angle between 0 and a quarter turn with the tangent of the given
    one up to sign, unit direction and normal, which build the matrix again. *)
Theorem C115_shear : forall eig a d p n m, d <> vzero -> n <> vzero -> inner d n = 0 -> tan a <> 0 -> shear_matrix a d p n = Ok m ->
  eigenvectors_of 3 m (eig 3%nat m) -> eigenvectors_of 4 m (eig 4%nat m) ->
  exists a' d' q n', shear_from_matrix eig m = Ok (a', d', q, n') /\ 0 < a' < PI / 2 /\ tan a' = Rabs (tan a) /\ unit_length d' /\ unit_length n' /\ parallel d' d /\ parallel n' n /\
    forall q', q = Some q' -> on_plane p n q' /\ exists m', shear_matrix a' d' q' n' = Ok m' /\ same4 m' m.
Proof. intros eig a d p n m ND NN O B H. exact (shear_back a d p n m ND NN O B H eig). Qed.

Print Assumptions C115_parallel.
Print Assumptions C115_orthogonal.
Print Assumptions C115_perspective.
Print Assumptions C115_distance_refuted.
Print Assumptions C115_pseudo.
Print Assumptions C115_pseudo_refuted.
Print Assumptions C115_shear.

(** ** Cases *)
Lemma nonzero_z : z_axis <> vzero.
Proof. intros H. apply (f_equal vz) in H. cbn in H. lra. Qed.
Example C115_ex_parallel : z_axis <> vzero /\ inner slant z_axis <> 0 /\ eigenvectors_of 3 slant_matrix (slant_eig 3%nat slant_matrix) /\
  eigenvectors_of 3 (transposed slant_matrix) (slant_eig 3%nat (transposed slant_matrix)) /\ eigenvectors_of 4 slant_matrix (slant_eig 4%nat slant_matrix).
Proof.
  split; [exact nonzero_z|]. split; [unfold inner, slant, z_axis; cbn; lra|]. split; [exact slant_ok3|split; [exact slant_ok3t|exact slant_ok4]].
Qed.
Definition flat_matrix : mat4 := projection_matrix vzero z_axis None None false.
Lemma flat_entries : same4 flat_matrix (rows4 [[1; 0; 0; 0]; [0; 1; 0; 0]; [0; 0; 0; 0]; [0; 0; 0; 1]]).
Proof. unfold flat_matrix, projection_matrix, z_axis. rewrite unit_z. entries; try lia; unfold set_column, add33, identity4, vouter, vdot, rows4; cbn; ring. Qed.
Example C115_ex_orthogonal : eigenvectors_of 3 flat_matrix (diagonal_eig 1 1 0 3%nat flat_matrix) /\
  eigenvectors_of 3 (transposed flat_matrix) (diagonal_eig 1 1 0 3%nat (transposed flat_matrix)) /\ eigenvectors_of 4 flat_matrix (diagonal_eig 1 1 0 4%nat flat_matrix).
Proof.
  split; [apply diagonal_eig3, flat_entries|]. split; [apply diagonal_eig3|apply diagonal_eig4, flat_entries].
  intros i j I J. unfold transposed. rewrite (flat_entries j i J I). destruct i as [|[|[|[|i]]]]; try lia; destruct j as [|[|[|[|j]]]]; try lia; reflexivity.
Qed.
Example C115_ex_perspective : let k := inner (vsub (V3 0 0 3) z_axis) (unit_vector z_axis) in 1 / 10 ^ 8 < Rabs k /\ 1 / 10 ^ 8 <= Rabs (k - 1) /\ inner z_axis z_axis <> 0 /\
  eigenvectors_of 4 (eye_matrix 3 false) (eye_eig 3 4%nat (eye_matrix 3 false)).
Proof.
  intros k. assert (K : k = 2) by (unfold k, z_axis; rewrite unit_z; unfold inner, vsub; cbn; ring). rewrite K.
  split; [rewrite Rabs_right by lra; cbn; lra|]. split; [rewrite Rabs_right by lra; cbn; lra|]. split; [unfold inner, z_axis; cbn; lra|]. apply eye_ok4. lra.
Qed.
Example C115_ex_distance : let u := unit_vector z_axis in inner (vsub (V3 0 0 2) z_axis) u = 1 /\ 1 / 10 ^ 8 <= Rabs (inner z_axis u) /\
  eigenvectors_of 3 (eye_matrix 2 false) (eye_eig 2 3%nat (eye_matrix 2 false)) /\ eigenvectors_of 4 (eye_matrix 2 false) (eye_eig 2 4%nat (eye_matrix 2 false)).
Proof.
  intros u. unfold u, z_axis. rewrite unit_z. split; [unfold inner, vsub; cbn; ring|]. split; [replace (inner (V3 0 0 1) (V3 0 0 1)) with 1 by (unfold inner; cbn; ring); rewrite Rabs_R1; cbn; lra|].
  split; [apply eye_ok3|apply eye_ok4; lra].
Qed.
Example C115_ex_pseudo : let eig : eig_fun := fun _ _ => rev pseudo_list in 1 / 10 ^ 8 < Rabs (inner (vsub (V3 0 0 3) z_axis) (unit_vector z_axis)) /\ eigenvectors_of 4 (eye_matrix 3 true) (eig 4%nat (eye_matrix 3 true)) /\
  forall l x, eig 4%nat (eye_matrix 3 true) = l ++ [x] -> re_value x <> -1.
Proof.
  intros eig. split; [unfold z_axis; rewrite unit_z; replace (inner (vsub (V3 0 0 3) (V3 0 0 1)) (V3 0 0 1)) with 2 by (unfold inner, vsub; cbn; ring); rewrite Rabs_right by lra; cbn; lra|].
  split; [apply pseudo_ok; right; reflexivity|]. intros l x H. unfold eig, pseudo_list, block_list in H. cbn [rev app] in H.
  change [real_pair (-1) [0; 0; 4 * root 17; root 17]; real_pair 2 [0; 0; half; half]; real_pair 2 [0; 1; 0; 0]; real_pair 2 [1; 0; 0; 0]]
    with ([real_pair (-1) [0; 0; 4 * root 17; root 17]; real_pair 2 [0; 0; half; half]; real_pair 2 [0; 1; 0; 0]] ++ [real_pair 2 [1; 0; 0; 0]]) in H.
  apply app_inj_tail in H. destruct H as (_ & <-). cbn. lra.
Qed.
Example C115_ex_shear : exists m, shear_matrix (PI / 4) (V3 1 0 0) vzero z_axis = Ok m /\ inner (V3 1 0 0) z_axis = 0 /\ tan (PI / 4) <> 0 /\ eigenvectors_of 3 m (bent_eig 3%nat m) /\ eigenvectors_of 4 m (bent_eig 4%nat m).
Proof.
  destruct bent_built as (m & H & S). exists m. split; [exact H|]. split; [unfold inner, z_axis; cbn; ring|]. split; [rewrite tan_PI4; lra|]. split; [apply bent_ok3, S|apply bent_ok4, S].
Qed.
