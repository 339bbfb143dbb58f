(** * The matrix that is returned (C113). *)

From Coq Require Import List Reals Lra Lia Nsatz Arith Bool.
Import ListNotations.
From Verif Require Import Py transf_model transf_spec transf_proof affine_model affine_spec affine_proof affine2_proof decompose_model decompose_spec decompose_gs superpose_model superpose_spec superpose_frame superpose_proof.
Local Open Scope R_scope.

Definition factor (scaling : bool) (v0 v1 : list vec3) : R :=
  if scaling then sqrt (squares (centred v1 (mean3 v1)) / squares (centred v0 (mean3 v0))) else 1.
Definition turn_of svd eig (usesvd : bool) (v0 v1 : list vec3) : mat4 :=
  if usesvd then svd_matrix svd (centred v0 (mean3 v0)) (centred v1 (mean3 v1)) else eig_matrix eig (centred v0 (mean3 v0)) (centred v1 (mean3 v1)).

Lemma last_row_id svd eig usesvd v0 v1 j : (j < 4)%nat -> turn_of svd eig usesvd v0 v1 3%nat j = identity4 3%nat j.
Proof.
  intros J. unfold turn_of. destruct usesvd.
  - unfold svd_matrix. destruct (svd _) as [[u s] vh]. reflexivity.
  - unfold eig_matrix. destruct (eig _) as [l v]. set (q := Quat _ _ _ _). destruct (qm_rotation q) as (_ & N). destruct (N j J) as (_ & H). rewrite H. unfold delta, identity4. reflexivity.
Qed.

Lemma super_rejects svd eig v0 v1 scaling usesvd : superimposition_matrix svd eig v0 v1 scaling usesvd = Err ValueError <-> length v0 <> length v1 \/ (length v0 < 3)%nat.
Proof.
  unfold superimposition_matrix. destruct (Nat.eqb_spec (length v0) (length v1)) as [E|E]; cbn [negb orb].
  - destruct (Nat.ltb_spec (length v0) 3) as [L|L]; cbn [orb]; split; try discriminate; auto; intros [?|?]; [contradiction|lia].
  - split; auto.
Qed.
Lemma super_ok svd eig v0 v1 scaling usesvd m : superimposition_matrix svd eig v0 v1 scaling usesvd = Ok m ->
  length v0 = length v1 /\ v0 <> [] /\ v1 <> [] /\
  let r := turn_of svd eig usesvd v0 v1 in let c := factor scaling v0 v1 in
  let t := vsub (mean3 v1) (times c (lin (col r 0) (col r 1) (col r 2) (mean3 v0))) in
  forall p p', image m p p' <-> p' = similar c (col r 0) (col r 1) (col r 2) t p.
Proof.
  intros H. unfold superimposition_matrix in H. destruct (Nat.eqb_spec (length v0) (length v1)) as [E|E]; cbn [negb orb] in H; [|discriminate].
  destruct (Nat.ltb_spec (length v0) 3) as [L|L]; [discriminate|]. cbn [orb] in H.
  split; [exact E|]. split; [intros ->; cbn in L; lia|]. split; [intros ->; rewrite E in L; cbn in L; lia|].
  fold (turn_of svd eig usesvd v0 v1) in H. intros r c t p p'. fold r in H.
  pose proof (last_row_id svd eig usesvd v0 v1) as R3. fold r in R3. clearbody r.
  set (b := fun i j => if ((i <? 3)%nat && (j <? 3)%nat)%bool then r i j * c else r i j).
  assert (X : forall i j, (i < 4)%nat -> (j < 4)%nat -> m i j = mdot (set_column b (coord (mean3 v1))) (set_column identity4 (fun i => - coord (mean3 v0) i)) i j).
  { injection H as <-. intros i j I J. unfold b, c, factor, squares. destruct scaling; [reflexivity|].
    unfold mdot, set_column. destruct i as [|[|[|[|i]]]]; try lia; destruct j as [|[|[|[|j]]]]; try lia; cbn; ring. }
  assert (R : forall i, (i < 4)%nat -> row_at m i p = row_at (mdot (set_column b (coord (mean3 v1))) (set_column identity4 (fun i => - coord (mean3 v0) i))) i p) by (intros i I; unfold row_at; rewrite !X by lia; reflexivity).
  clear H X. rewrite image_value. rewrite !R by lia. clear R.
  set (n := mdot _ _).
  assert (W : row_at n 3 p = 1).
  { unfold n, row_at, mdot, set_column, b. cbn. rewrite !R3 by lia. unfold identity4. cbn. ring. }
  rewrite W.
  assert (V : times (/ 1) (V3 (row_at n 0 p) (row_at n 1 p) (row_at n 2 p)) = similar c (col r 0) (col r 1) (col r 2) t p).
  { unfold n, t, similar, lin, col. clear. destruct (mean3 v0), (mean3 v1). apply vec_eq; unfold times, vadd, vsub, row_at, mdot, set_column, b, identity4, coord; cbn; field. }
  rewrite V. split; [intros (_ & Q); exact Q|]. intros Q. split; [exact R1_neq_R0|exact Q].
Qed.

Lemma turn_best svd eig usesvd v0 v1 : decomposes svd -> eigenvectors eig -> best (turn_of svd eig usesvd v0 v1) (centred v0 (mean3 v0)) (centred v1 (mean3 v1)).
Proof. intros D G. unfold turn_of. destruct usesvd; [apply svd_matrix_best; exact D|apply eig_matrix_best; exact G]. Qed.

(** ** Spreads *)
Lemma spread_squares v c : spread c v = squares (centred v c).
Proof. unfold squares, rsum. induction v as [|p v IH]; [reflexivity|]. cbn [spread centred map fold_right]. rewrite IH. reflexivity. Qed.
Lemma squares_zero v : squares v = 0 -> forall p, In p v -> p = vzero.
Proof.
  induction v as [|q v IH]; intros Z p I; [destruct I|].
  assert (E : squares (q :: v) = inner q q + squares v) by reflexivity. pose proof (squares_pos v) as P. pose proof (inner_nonneg q) as P2.
  destruct I as [<-|I]; [|apply IH; [lra|exact I]]. destruct (zero_dec q) as [Q|Q]; [exact Q|]. apply inner_pos in Q. lra.
Qed.
Lemma two_spread v t : two_points v -> 0 < squares (centred v t).
Proof.
  intros (p & q & P & Q & N). destruct (Rle_lt_or_eq_dec _ _ (squares_pos (centred v t))) as [L|E]; [exact L|]. exfalso. apply N. symmetry in E.
  assert (K : forall x, In x v -> x = t).
  { intros x X. assert (I : In (V3 (vx x - vx t) (vy x - vy t) (vz x - vz t)) (centred v t)) by (unfold centred; apply in_map_iff; exists x; auto).
    pose proof (squares_zero _ E _ I) as Z. apply vec_eq; [apply (f_equal vx) in Z|apply (f_equal vy) in Z|apply (f_equal vz) in Z]; cbn in Z; lra. }
  rewrite (K p P), (K q Q). reflexivity.
Qed.

Lemma factor_value scaling v0 v1 : (scaling = true -> two_points v0) ->
  0 <= factor scaling v0 v1 /\ (scaling = false -> factor scaling v0 v1 = 1) /\
  (scaling = true -> factor scaling v0 v1 * factor scaling v0 v1 * squares (centred v0 (mean3 v0)) = squares (centred v1 (mean3 v1))).
Proof.
  intros T. unfold factor. destruct scaling.
  - pose proof (two_spread v0 (mean3 v0) (T eq_refl)) as P. pose proof (squares_pos (centred v1 (mean3 v1))) as Q.
    split; [apply sqrt_pos|]. split; [discriminate|]. intros _. rewrite sqrt_sqrt; [field; lra|]. unfold Rdiv. apply Rmult_le_pos; [exact Q|]. apply Rlt_le, Rinv_0_lt_compat, P.
  - split; [lra|]. split; [reflexivity|discriminate].
Qed.

(** ** The best *)
Lemma super_best svd eig v0 v1 scaling usesvd m : decomposes svd -> eigenvectors eig -> (scaling = true -> two_points v0) ->
  superimposition_matrix svd eig v0 v1 scaling usesvd = Ok m ->
  exists c e1 e2 e3 t, 0 <= c /\ frame3 e1 e2 e3 /\ (scaling = false -> c = 1) /\
    (scaling = true -> forall c0 c1, centre v0 c0 -> centre v1 c1 -> c * c * spread c0 v0 = spread c1 v1) /\
    (forall p p', image m p p' <-> p' = similar c e1 e2 e3 t p) /\
    (forall c0 c1, centre v0 c0 -> centre v1 c1 -> similar c e1 e2 e3 t c0 = c1) /\
    forall f1 f2 f3 t', frame3 f1 f2 f3 -> deviation (similar c e1 e2 e3 t) v0 v1 <= deviation (similar c f1 f2 f3 t') v0 v1.
Proof.
  intros D G T H. destruct (super_ok _ _ _ _ _ _ _ H) as (L & N0 & N1 & I). set (r := turn_of svd eig usesvd v0 v1) in *. set (c := factor scaling v0 v1) in *.
  destruct (turn_best svd eig usesvd v0 v1 D G) as (F & B). fold r in F, B.
  destruct (factor_value scaling v0 v1 T) as (P & C1 & CS). fold c in P, C1, CS.
  set (t := vsub (mean3 v1) (times c (lin (col r 0) (col r 1) (col r 2) (mean3 v0)))) in *.
  exists c, (col r 0), (col r 1), (col r 2), t. do 3 (split; [assumption|]). split; [|split; [exact I|split]].
  - intros S c0 c1 Z0 Z1. rewrite (centre_unique v0 c0 N0 Z0), (centre_unique v1 c1 N1 Z1), !spread_squares. apply CS. exact S.
  - intros c0 c1 Z0 Z1. rewrite (centre_unique v0 c0 N0 Z0), (centre_unique v1 c1 N1 Z1). unfold similar, t, lin. apply vec_eq; unfold vadd, vsub, times; cbn; ring.
  - intros f1 f2 f3 t' F'. destruct (frame_ortho _ _ _ F) as (O & _). destruct (frame_ortho _ _ _ F') as (O' & _).
    rewrite (deviation_centred c _ _ _ t v0 v1 O L N0), (deviation_centred c f1 f2 f3 t' v0 v1 O' L N0). cbv zeta.
    assert (Z : vsub (vadd (times c (lin (col r 0) (col r 1) (col r 2) (mean3 v0))) t) (mean3 v1) = vzero) by (unfold t; apply vec_eq; unfold vadd, vsub, times, vzero; cbn; ring).
    rewrite Z. assert (Z2 : inner vzero vzero = 0) by (unfold inner, vzero; cbn; ring). rewrite Z2.
    pose proof (B f1 f2 f3 F') as A. pose proof (inner_nonneg (vsub (vadd (times c (lin f1 f2 f3 (mean3 v0))) t') (mean3 v1))) as Q.
    pose proof (pos_INR (length v0)) as Q2. assert (Q3 : c * agree f1 f2 f3 (centred v0 (mean3 v0)) (centred v1 (mean3 v1)) <= c * agree (col r 0) (col r 1) (col r 2) (centred v0 (mean3 v0)) (centred v1 (mean3 v1))) by (apply Rmult_le_compat_l; assumption).
    assert (Q4 : 0 <= INR (length v0) * inner (vsub (vadd (times c (lin f1 f2 f3 (mean3 v0))) t') (mean3 v1)) (vsub (vadd (times c (lin f1 f2 f3 (mean3 v0))) t') (mean3 v1))) by (apply Rmult_le_pos; assumption).
    lra.
Qed.

(** ** Exact superpositions *)
Lemma deviation_nonneg f v0 v1 : 0 <= deviation f v0 v1.
Proof. revert v1. induction v0 as [|p v0 IH]; intros [|q v1]; cbn [deviation]; try lra. pose proof (inner_nonneg (vsub (f p) q)). pose proof (IH v1). lra. Qed.
Lemma deviation_self f g v : deviation f v (map g v) = 0 -> forall p, In p v -> f p = g p.
Proof.
  induction v as [|q v IH]; intros Z p I; [destruct I|]. cbn [map deviation] in Z. pose proof (inner_nonneg (vsub (f q) (g q))) as A. pose proof (deviation_nonneg f v (map g v)) as B.
  destruct I as [<-|I]; [|apply IH; [lra|exact I]]. destruct (zero_dec (vsub (f q) (g q))) as [Q|Q]; [|apply inner_pos in Q; lra].
  apply vec_eq; [apply (f_equal vx) in Q|apply (f_equal vy) in Q|apply (f_equal vz) in Q]; unfold vsub in Q; cbn in Q; lra.
Qed.
Lemma deviation_zero g v : deviation g v (map g v) = 0.
Proof.
  induction v as [|q v IH]; [reflexivity|]. cbn [map deviation]. rewrite IH. assert (E : vsub (g q) (g q) = vzero) by (apply vec_eq; unfold vsub, vzero; cbn; ring).
  rewrite E. unfold inner, vzero. cbn. ring.
Qed.

Lemma centre_similar c e1 e2 e3 t v : centre (map (similar c e1 e2 e3 t) v) (similar c e1 e2 e3 t (mean3 v)) \/ v = [].
Proof.
  destruct v as [|p0 v0]; [right; reflexivity|left]. set (v := p0 :: v0). assert (N : v <> []) by discriminate. clearbody v.
  assert (E : total (map (similar c e1 e2 e3 t) v) = vadd (times c (lin e1 e2 e3 (total v))) (times (INR (length v)) t)).
  { clear N. induction v as [|p v IH]; [apply vec_eq; unfold lin; cbn; ring|]. cbn [map total length]. rewrite IH, S_INR. clear.
    unfold similar, lin. apply vec_eq; unfold vadd, times; cbn [vx vy vz]; ring. }
  unfold centre. rewrite E, map_length, (mean_centre v N). unfold similar, lin. clear. apply vec_eq; unfold vadd, times; cbn [vx vy vz]; ring.
Qed.
Lemma squares_similar c e1 e2 e3 t t0 v : ortho3 e1 e2 e3 ->
  squares (centred (map (similar c e1 e2 e3 t) v) (similar c e1 e2 e3 t t0)) = c * c * squares (centred v t0).
Proof.
  intros O. unfold squares, rsum. induction v as [|p v IH]; [cbn; ring|]. cbn [map centred fold_right]. unfold centred in IH. rewrite IH. clear IH.
  set (a := V3 (vx p - vx t0) (vy p - vy t0) (vz p - vz t0)).
  assert (E : V3 (vx (similar c e1 e2 e3 t p) - vx (similar c e1 e2 e3 t t0)) (vy (similar c e1 e2 e3 t p) - vy (similar c e1 e2 e3 t t0)) (vz (similar c e1 e2 e3 t p) - vz (similar c e1 e2 e3 t t0)) = times c (lin e1 e2 e3 a)).
  { unfold similar, lin, a. apply vec_eq; unfold vadd, times; cbn; ring. }
  rewrite E. change (vx (times c (lin e1 e2 e3 a)) * vx (times c (lin e1 e2 e3 a)) + vy (times c (lin e1 e2 e3 a)) * vy (times c (lin e1 e2 e3 a)) + vz (times c (lin e1 e2 e3 a)) * vz (times c (lin e1 e2 e3 a)))
    with (inner (times c (lin e1 e2 e3 a)) (times c (lin e1 e2 e3 a))). rewrite inner_times, inner_times_r, (lin_inner e1 e2 e3 a a O). unfold inner. ring.
Qed.

Lemma super_exact svd eig v0 scaling usesvd m c f1 f2 f3 t' : decomposes svd -> eigenvectors eig -> 0 < c -> frame3 f1 f2 f3 ->
  (scaling = true -> two_points v0) -> (scaling = false -> c = 1) ->
  superimposition_matrix svd eig v0 (map (similar c f1 f2 f3 t') v0) scaling usesvd = Ok m ->
  exists e1 e2 e3 t, frame3 e1 e2 e3 /\ (forall p p', image m p p' <-> p' = similar c e1 e2 e3 t p) /\ forall p, In p v0 -> similar c e1 e2 e3 t p = similar c f1 f2 f3 t' p.
Proof.
  intros D G P F T C H. pose proof (super_ok _ _ _ _ _ _ _ H) as (L & N0 & N1 & _).
  destruct (super_best _ _ _ _ _ _ _ D G T H) as (c' & e1 & e2 & e3 & t & P' & F' & C1 & CS & I & _ & B).
  assert (E : c' = c).
  { destruct scaling; [|rewrite C, C1 by reflexivity; reflexivity].
    destruct (centre_similar c f1 f2 f3 t' v0) as [Z|Z]; [|contradiction].
    specialize (CS eq_refl _ _ (mean_centre v0 N0) Z). rewrite !spread_squares, squares_similar in CS by (apply frame_ortho; exact F).
    pose proof (two_spread v0 (mean3 v0) (T eq_refl)) as S. apply Rmult_eq_reg_r in CS; [|lra]. destruct (Rtotal_order c' c) as [X|[X|X]]; [exfalso; nra|exact X|exfalso; nra]. }
  subst c'. exists e1, e2, e3, t. split; [exact F'|]. split; [exact I|].
  apply deviation_self. apply Rle_antisym; [|apply deviation_nonneg].
  eapply Rle_trans; [apply (B f1 f2 f3 t' F)|]. rewrite deviation_zero. lra.
Qed.

Lemma lin_cross e1 e2 e3 x y : frame3 e1 e2 e3 -> lin e1 e2 e3 (vcross x y) = vcross (lin e1 e2 e3 x) (lin e1 e2 e3 y).
Proof.
  intros F. destruct (frame_facts _ _ _ F) as (_ & _ & _ & X1 & X0). destruct F as (_ & _ & _ & X2).
  transitivity (vadd (times (vx (vcross x y)) (vcross e2 e3)) (vadd (times (vy (vcross x y)) (vcross e3 e1)) (times (vz (vcross x y)) (vcross e1 e2)))).
  - rewrite X0, X1, X2. reflexivity.
  - unfold lin. clear. apply vec_eq; flatten; ring.
Qed.
(** Two rigid motions that agree off a line are the same. *)
Lemma same_motion c e1 e2 e3 t f1 f2 f3 t' v : 0 < c -> frame3 e1 e2 e3 -> frame3 f1 f2 f3 -> off_line v ->
  (forall p, In p v -> similar c e1 e2 e3 t p = similar c f1 f2 f3 t' p) -> forall p, similar c e1 e2 e3 t p = similar c f1 f2 f3 t' p.
Proof.
  intros P E F (p & q & r & Ip & Iq & Ir & N) H z. pose proof (H p Ip) as Hp. pose proof (H q Iq) as Hq. pose proof (H r Ir) as Hr. clear H Ip Iq Ir.
  set (x := vsub q p) in *. set (y := vsub r p) in *. set (n := vcross x y) in *.
  assert (S : forall a b, similar c e1 e2 e3 t a = similar c f1 f2 f3 t' a -> similar c e1 e2 e3 t b = similar c f1 f2 f3 t' b -> lin e1 e2 e3 (vsub a b) = lin f1 f2 f3 (vsub a b)).
  { intros a b A B. assert (Q : times c (lin e1 e2 e3 (vsub a b)) = times c (lin f1 f2 f3 (vsub a b))).
    { transitivity (vsub (similar c e1 e2 e3 t a) (similar c e1 e2 e3 t b)); [unfold similar, lin; apply vec_eq; unfold vsub, vadd, times; cbn; ring|].
      rewrite A, B. unfold similar, lin; apply vec_eq; unfold vsub, vadd, times; cbn; ring. }
    apply vec_eq; [apply (f_equal vx) in Q|apply (f_equal vy) in Q|apply (f_equal vz) in Q]; unfold times in Q; cbn [vx vy vz] in Q; (eapply Rmult_eq_reg_l; [exact Q|lra]). }
  pose proof (S q p Hq Hp) as X. pose proof (S r p Hr Hp) as Y. fold x in X. fold y in Y.
  assert (NN : lin e1 e2 e3 n = lin f1 f2 f3 n) by (unfold n; rewrite !lin_cross by assumption; rewrite X, Y; reflexivity).
  set (d := vsub z p). set (D := inner n n). assert (DP : 0 < D) by (apply inner_pos; exact N).
  assert (K : forall g1 g2 g3, times D (lin g1 g2 g3 d) = vadd (times (triple d y n) (lin g1 g2 g3 x)) (vadd (times (triple x d n) (lin g1 g2 g3 y)) (times (triple x y d) (lin g1 g2 g3 n)))).
  { intros g1 g2 g3. assert (Q : times D d = vadd (times (triple d y n) x) (vadd (times (triple x d n) y) (times (triple x y d) n))).
    { unfold D, n. clearbody x y d. clear. apply vec_eq; flatten; ring. }
    transitivity (lin g1 g2 g3 (times D d)); [clear; unfold lin; apply vec_eq; unfold vadd, times; cbn; ring|]. rewrite Q. generalize (triple d y n) (triple x d n) (triple x y d). intros. clear. unfold lin. apply vec_eq; unfold vadd, times; cbn; ring. }
  assert (LD : lin e1 e2 e3 d = lin f1 f2 f3 d).
  { pose proof (K e1 e2 e3) as A. pose proof (K f1 f2 f3) as B. rewrite X, Y, NN, <- B in A.
    apply vec_eq; [apply (f_equal vx) in A|apply (f_equal vy) in A|apply (f_equal vz) in A]; unfold times in A; cbn [vx vy vz] in A; (eapply Rmult_eq_reg_l; [exact A|lra]). }
  transitivity (vadd (similar c e1 e2 e3 t p) (times c (lin e1 e2 e3 d))); [unfold d, similar, lin; apply vec_eq; unfold vsub, vadd, times; cbn; ring|].
  rewrite Hp, LD. unfold d, similar, lin; apply vec_eq; unfold vsub, vadd, times; cbn; ring.
Qed.

(** ** The factor is not the best one *)
Definition left_points : list vec3 := [V3 1 0 0; V3 (-1) 0 0; vzero; vzero].
Definition right_points : list vec3 := [vzero; vzero; V3 1 0 0; V3 (-1) 0 0].
Lemma mean_zero v : length v = 4%nat -> total v = vzero -> mean3 v = vzero.
Proof.
  intros L T. symmetry. apply centre_unique; [intros ->; discriminate|]. unfold centre. rewrite T. apply vec_eq; unfold times, vzero; cbn [vx vy vz]; ring.
Qed.
Lemma not_best svd eig usesvd : decomposes svd -> eigenvectors eig -> exists m, superimposition_matrix svd eig left_points right_points true usesvd = Ok m /\
  forall c e1 e2 e3 t, frame3 e1 e2 e3 -> 0 <= c -> (forall p p', image m p p' <-> p' = similar c e1 e2 e3 t p) ->
    deviation (similar (1 / 2) e1 e2 e3 t) left_points right_points < deviation (similar c e1 e2 e3 t) left_points right_points.
Proof.
  intros D G. destruct (superimposition_matrix svd eig left_points right_points true usesvd) as [m|x] eqn:H; [|unfold superimposition_matrix in H; cbn in H; discriminate].
  exists m. split; [reflexivity|]. intros c e1 e2 e3 t F P I.
  assert (T : true = true -> two_points left_points).
  { intros _. exists (V3 1 0 0), vzero. split; [left; reflexivity|]. split; [right; right; left; reflexivity|]. intros E. apply (f_equal vx) in E. cbn in E. lra. }
  destruct (super_best _ _ _ _ _ _ _ D G T H) as (c' & g1 & g2 & g3 & t' & P' & F' & _ & CS & I' & CC & _).
  assert (M0 : mean3 left_points = vzero) by (apply mean_zero; [reflexivity|apply vec_eq; unfold left_points; cbn; ring]).
  assert (M1 : mean3 right_points = vzero) by (apply mean_zero; [reflexivity|apply vec_eq; unfold right_points; cbn; ring]).
  assert (Z0 : centre left_points vzero) by (rewrite <- M0 at 1; apply mean_centre; discriminate).
  assert (Z1 : centre right_points vzero) by (rewrite <- M1 at 1; apply mean_centre; discriminate).
  specialize (CS eq_refl _ _ Z0 Z1). specialize (CC _ _ Z0 Z1).
  assert (EQ : forall p, similar c e1 e2 e3 t p = similar c' g1 g2 g3 t' p) by (intros p; apply I'; apply I; reflexivity).
  assert (TZ : t = vzero).
  { rewrite <- CC, <- EQ. unfold similar, vzero. apply vec_eq; unfold vadd, times; cbn; ring. }
  assert (C'1 : c' = 1).
  { unfold left_points, right_points, spread, inner, vsub, vzero in CS. cbn in CS. nra. }
  destruct (frame_ortho _ _ _ F) as (O & _). destruct (frame_ortho _ _ _ F') as (O' & _).
  assert (CE : c = 1).
  { assert (Q : times c e1 = times c' g1).
    { pose proof (EQ (V3 1 0 0)) as A. pose proof (EQ vzero) as B. 
      transitivity (vsub (similar c e1 e2 e3 t (V3 1 0 0)) (similar c e1 e2 e3 t vzero)); [unfold similar, vzero; apply vec_eq; unfold vsub, vadd, times; cbn; ring|].
      rewrite A, B. unfold similar, vzero; apply vec_eq; unfold vsub, vadd, times; cbn; ring. }
    assert (Q2 : c * c = c' * c').
    { destruct O as (O & _). destruct O' as (O' & _). transitivity (inner (times c e1) (times c e1)); [rewrite inner_times, inner_times_r, O; ring|]. rewrite Q, inner_times, inner_times_r, O'. ring. }
    subst c'. nra. }
  subst c t. destruct O as (O & _). destruct e1 as [a b d]. unfold inner in O. cbn in O.
  unfold left_points, right_points, deviation, similar, inner, vsub, vadd, times, vzero. cbn. nra.
Qed.

(** ** As stated *)
Lemma super_accepts svd eig v0 v1 scaling usesvd : length v0 = length v1 -> (3 <= length v0)%nat -> exists m, superimposition_matrix svd eig v0 v1 scaling usesvd = Ok m.
Proof.
  intros E L. unfold superimposition_matrix. rewrite (proj2 (Nat.eqb_eq _ _) E), (proj2 (Nat.ltb_ge _ _) L). cbn [negb orb]. eexists. reflexivity.
Qed.
Lemma super_rigid svd eig v0 v1 usesvd m f1 f2 f3 t' : decomposes svd -> eigenvectors eig -> superimposition_matrix svd eig v0 v1 false usesvd = Ok m -> frame3 f1 f2 f3 ->
  exists e1 e2 e3 t, frame3 e1 e2 e3 /\ (forall p p', image m p p' <-> p' = rigid e1 e2 e3 t p) /\ deviation (rigid e1 e2 e3 t) v0 v1 <= deviation (rigid f1 f2 f3 t') v0 v1.
Proof.
  intros D G H F. assert (T : false = true -> two_points v0) by discriminate. destruct (super_best _ _ _ _ _ _ _ D G T H) as (c & e1 & e2 & e3 & t & _ & F' & C & _ & I & _ & B). rewrite (C eq_refl) in I, B.
  exists e1, e2, e3, t. split; [exact F'|]. split; [exact I|apply B; exact F].
Qed.
Lemma super_points svd eig v0 scaling usesvd m c f1 f2 f3 t' : decomposes svd -> eigenvectors eig -> 0 < c -> frame3 f1 f2 f3 ->
  (scaling = true -> two_points v0) -> (scaling = false -> c = 1) -> superimposition_matrix svd eig v0 (map (similar c f1 f2 f3 t') v0) scaling usesvd = Ok m ->
  forall p p', In p v0 -> (image m p p' <-> p' = similar c f1 f2 f3 t' p).
Proof.
  intros D G P F T C H p p' I. destruct (super_exact _ _ _ _ _ _ _ _ _ _ _ D G P F T C H) as (e1 & e2 & e3 & t & _ & M & E). rewrite M, (E p I). reflexivity.
Qed.
Lemma super_motion svd eig v0 scaling usesvd m c f1 f2 f3 t' : decomposes svd -> eigenvectors eig -> 0 < c -> frame3 f1 f2 f3 ->
  off_line v0 -> (scaling = false -> c = 1) -> superimposition_matrix svd eig v0 (map (similar c f1 f2 f3 t') v0) scaling usesvd = Ok m ->
  forall p p', image m p p' <-> p' = similar c f1 f2 f3 t' p.
Proof.
  intros D G P F O C H p p'. assert (T : scaling = true -> two_points v0).
  { intros _. destruct O as (x & y & z & X & Y & _ & N). exists x, y. split; [exact X|]. split; [exact Y|]. intros E. apply N. rewrite E. apply vec_eq; unfold vcross, vsub, vzero; cbn; ring. }
  destruct (super_exact _ _ _ _ _ _ _ _ _ _ _ D G P F T C H) as (e1 & e2 & e3 & t & F' & M & E). rewrite M, (same_motion c e1 e2 e3 t f1 f2 f3 t' v0 P F' F O E p). reflexivity.
Qed.
Lemma super_methods svd eig v0 v1 scaling m m' : decomposes svd -> eigenvectors eig -> (scaling = true -> two_points v0) ->
  superimposition_matrix svd eig v0 v1 scaling true = Ok m -> superimposition_matrix svd eig v0 v1 scaling false = Ok m' ->
  exists f g, (forall p p', image m p p' <-> p' = f p) /\ (forall p p', image m' p p' <-> p' = g p) /\ deviation f v0 v1 = deviation g v0 v1.
Proof.
  intros D G T H H'. destruct (super_ok _ _ _ _ _ _ _ H) as (L & N0 & N1 & _).
  destruct (super_best _ _ _ _ _ _ _ D G T H) as (c & e1 & e2 & e3 & t & P & F & C & CS & I & _ & B).
  destruct (super_best _ _ _ _ _ _ _ D G T H') as (c' & e1' & e2' & e3' & t' & P' & F' & C' & CS' & I' & _ & B').
  assert (E : c = c').
  { destruct scaling; [|rewrite C, C' by reflexivity; reflexivity].
    pose proof (CS eq_refl _ _ (mean_centre v0 N0) (mean_centre v1 N1)) as X. pose proof (CS' eq_refl _ _ (mean_centre v0 N0) (mean_centre v1 N1)) as X'. rewrite <- X', spread_squares in X.
    pose proof (two_spread v0 (mean3 v0) (T eq_refl)) as S. apply Rmult_eq_reg_r in X; [|lra]. destruct (Rtotal_order c c') as [Y|[Y|Y]]; [exfalso; nra|exact Y|exfalso; nra]. }
  subst c'. exists (similar c e1 e2 e3 t), (similar c e1' e2' e3' t'). split; [exact I|]. split; [exact I'|]. apply Rle_antisym; [apply B; exact F'|apply B'; exact F].
Qed.
Lemma super_factor svd eig usesvd : decomposes svd -> eigenvectors eig -> exists v0 v1 m, two_points v0 /\ superimposition_matrix svd eig v0 v1 true usesvd = Ok m /\
  forall c e1 e2 e3 t, frame3 e1 e2 e3 -> 0 <= c -> (forall p p', image m p p' <-> p' = similar c e1 e2 e3 t p) ->
    deviation (similar (1 / 2) e1 e2 e3 t) v0 v1 < deviation (similar c e1 e2 e3 t) v0 v1.
Proof.
  intros D G. destruct (not_best svd eig usesvd D G) as (m & M & Q). exists left_points, right_points, m. split; [|split; [exact M|exact Q]].
  exists (V3 1 0 0), vzero. split; [left; reflexivity|]. split; [right; right; left; reflexivity|]. intros E. apply (f_equal vx) in E. cbn in E. lra.
Qed.
