(** * Theorems about superimposition_matrix (C113). *)

From Coq Require Import List Reals Lra Lia Arith Bool ClassicalEpsilon.
Import ListNotations.
From Verif Require Import Py transf_model affine_model affine_spec affine_proof affine2_proof decompose_model decompose_spec decompose_gs superpose_model superpose_spec superpose_frame superpose_proof superpose_end superpose_exist superpose_exist2.
Local Open Scope R_scope.

(** Sets of different sizes, or of fewer than three points, are refused; nothing else is. *)
Theorem C113_rejects svd eig v0 v1 scaling usesvd :
  superimposition_matrix svd eig v0 v1 scaling usesvd = Err ValueError <-> length v0 <> length v1 \/ (length v0 < 3)%nat.
Proof. apply super_rejects. Qed.
Theorem C113_accepts svd eig v0 v1 scaling usesvd : length v0 = length v1 -> (3 <= length v0)%nat ->
  exists m, superimposition_matrix svd eig v0 v1 scaling usesvd = Ok m.
Proof. apply super_accepts. Qed.
(** With either method, the matrix is a right-handed frame, a factor and a translation; the
    factor is 1 unless a scaling is asked for, then it makes the spreads equal; the centre
    goes to the centre; and no other frame or translation with this factor comes nearer. *)
Theorem C113_best svd eig v0 v1 scaling usesvd m : decomposes svd -> eigenvectors eig -> (scaling = true -> two_points v0) ->
  superimposition_matrix svd eig v0 v1 scaling usesvd = Ok m ->
  exists c e1 e2 e3 t, 0 <= c /\ frame3 e1 e2 e3 /\ (scaling = false -> c = 1) /\
    (scaling = true -> forall c0 c1, centre v0 c0 -> centre v1 c1 -> c * c * spread c0 v0 = spread c1 v1) /\
    (forall p p', image m p p' <-> p' = similar c e1 e2 e3 t p) /\
    (forall c0 c1, centre v0 c0 -> centre v1 c1 -> similar c e1 e2 e3 t c0 = c1) /\
    forall f1 f2 f3 t', frame3 f1 f2 f3 -> deviation (similar c e1 e2 e3 t) v0 v1 <= deviation (similar c f1 f2 f3 t') v0 v1.
Proof. apply super_best. Qed.
(** Without scaling no rigid motion at all comes nearer. *)
Theorem C113_rigid svd eig v0 v1 usesvd m f1 f2 f3 t' : decomposes svd -> eigenvectors eig ->
  superimposition_matrix svd eig v0 v1 false usesvd = Ok m -> frame3 f1 f2 f3 ->
  exists e1 e2 e3 t, frame3 e1 e2 e3 /\ (forall p p', image m p p' <-> p' = rigid e1 e2 e3 t p) /\
    deviation (rigid e1 e2 e3 t) v0 v1 <= deviation (rigid f1 f2 f3 t') v0 v1.
Proof. apply super_rigid. Qed.
(** Points that were moved, and scaled if a scaling is asked for, are found again. *)
Theorem C113_exact svd eig v0 scaling usesvd m c f1 f2 f3 t' : decomposes svd -> eigenvectors eig -> 0 < c -> frame3 f1 f2 f3 ->
  (scaling = true -> two_points v0) -> (scaling = false -> c = 1) ->
  superimposition_matrix svd eig v0 (map (similar c f1 f2 f3 t') v0) scaling usesvd = Ok m ->
  forall p p', In p v0 -> (image m p p' <-> p' = similar c f1 f2 f3 t' p).
Proof. apply super_points. Qed.
(** The motion itself is found again, for every point, if the points are not on a line. *)
Theorem C113_motion svd eig v0 scaling usesvd m c f1 f2 f3 t' : decomposes svd -> eigenvectors eig -> 0 < c -> frame3 f1 f2 f3 ->
  off_line v0 -> (scaling = false -> c = 1) ->
  superimposition_matrix svd eig v0 (map (similar c f1 f2 f3 t') v0) scaling usesvd = Ok m ->
  forall p p', image m p p' <-> p' = similar c f1 f2 f3 t' p.
Proof. apply super_motion. Qed.
(** The two methods agree as to how near the points come. *)
Theorem C113_methods svd eig v0 v1 scaling m m' : decomposes svd -> eigenvectors eig -> (scaling = true -> two_points v0) ->
  superimposition_matrix svd eig v0 v1 scaling true = Ok m -> superimposition_matrix svd eig v0 v1 scaling false = Ok m' ->
  exists f g, (forall p p', image m p p' <-> p' = f p) /\ (forall p p', image m' p p' <-> p' = g p) /\ deviation f v0 v1 = deviation g v0 v1.
Proof. apply super_methods. Qed.
(** The factor is not the best one: with half of it the same frame can come nearer. *)
Theorem C113_factor_refuted svd eig usesvd : decomposes svd -> eigenvectors eig ->
  exists v0 v1 m, two_points v0 /\ superimposition_matrix svd eig v0 v1 true usesvd = Ok m /\
  forall c e1 e2 e3 t, frame3 e1 e2 e3 -> 0 <= c -> (forall p p', image m p p' <-> p' = similar c e1 e2 e3 t p) ->
    deviation (similar (1 / 2) e1 e2 e3 t) v0 v1 < deviation (similar c e1 e2 e3 t) v0 v1.
Proof. apply super_factor. Qed.
(** Every matrix has the decomposition that is asked of svd, every symmetric one that of eig. *)
Theorem C113_decompositions : (forall h, exists d, decomposition h d) /\ (forall h, symmetric4 h -> exists d, eigenbasis h d).
Proof. split; [exact svd_exists|exact eig_exists]. Qed.

Print Assumptions C113_rejects.
Print Assumptions C113_accepts.
Print Assumptions C113_best.
Print Assumptions C113_rigid.
Print Assumptions C113_exact.
Print Assumptions C113_motion.
Print Assumptions C113_methods.
Print Assumptions C113_factor_refuted.
Print Assumptions C113_decompositions.

(** ** Cases *)
(** There are functions that decompose (by a choice function of the standard library). *)
Example case_svd : exists svd, decomposes svd.
Proof.
  exists (fun h => proj1_sig (constructive_indefinite_description _ (svd_exists h))). intros h.
  destruct (constructive_indefinite_description _ (svd_exists h)) as (d & D). exact D.
Qed.
Example case_eig : exists eig, eigenvectors eig.
Proof.
  assert (E : forall h, exists d, symmetric4 h -> eigenbasis h d).
  { intros h. destruct (classic (symmetric4 h)) as [S|S]; [destruct (eig_exists h S) as (d & D); exists d; auto|exists (fun _ => 0, identity4); intros; contradiction]. }
  exists (fun h => proj1_sig (constructive_indefinite_description _ (E h))). intros h.
  destruct (constructive_indefinite_description _ (E h)) as (d & D). exact D.
Qed.
(** Points that are not on a line, turned by a right angle, made twice as large and moved. *)
Example case_points : frame3 (V3 0 1 0) (V3 (-1) 0 0) (V3 0 0 1) /\ off_line [vzero; V3 1 0 0; V3 0 1 0] /\
  map (similar 2 (V3 0 1 0) (V3 (-1) 0 0) (V3 0 0 1) (V3 0 0 5)) [vzero; V3 1 0 0; V3 0 1 0] = [V3 0 0 5; V3 0 2 5; V3 (-2) 0 5].
Proof.
  split; [unfold frame3, inner, vcross; cbn; repeat split; try ring; f_equal; ring|]. split.
  - exists vzero, (V3 1 0 0), (V3 0 1 0). split; [left; reflexivity|]. split; [right; left; reflexivity|]. split; [right; right; left; reflexivity|].
    intros E. apply (f_equal vz) in E. cbn in E. lra.
  - unfold similar, vadd, times, vzero. cbn. repeat f_equal; ring.
Qed.
Example case_motion : exists svd eig m, superimposition_matrix svd eig [vzero; V3 1 0 0; V3 0 1 0] [V3 0 0 5; V3 0 2 5; V3 (-2) 0 5] true false = Ok m /\ image m (V3 0 0 7) (V3 0 0 19).
Proof.
  destruct case_svd as (svd & D). destruct case_eig as (eig & G). destruct case_points as (F & L & E).
  destruct (C113_accepts svd eig [vzero; V3 1 0 0; V3 0 1 0] [V3 0 0 5; V3 0 2 5; V3 (-2) 0 5] true false eq_refl ltac:(cbn; lia)) as (m & M).
  exists svd, eig, m. split; [exact M|]. rewrite <- E in M. apply (C113_motion svd eig _ true false m 2 _ _ _ _ D G ltac:(lra) F L ltac:(discriminate) M).
  unfold similar, vadd, times. cbn. f_equal; ring.
Qed.
