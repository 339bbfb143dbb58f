(** * Lemmas on the parameters of reflections, scalings and rotations. *)

From Coq Require Import List Reals Lia Lra Arith Bool.
Import ListNotations.
From Verif Require Import Py transf_model affine_model affine2_model affine_spec affine2_spec affine_proof affine2_proof eigpar_model eigpar_spec eigpar_rank.
Local Open Scope R_scope.

Definition as3 (v : nat -> R) : vec3 := V3 (v 0%nat) (v 1%nat) (v 2%nat).
Lemma linear_inner k s t x y w : (3 <= k)%nat -> (forall i, (i < k)%nat -> w i = s * x i + t * y i) -> forall d, inner d (as3 w) = s * inner d (as3 x) + t * inner d (as3 y).
Proof. intros L H d. unfold inner, as3; cbn [vx vy vz]. rewrite !H by lia. ring. Qed.
Lemma unit_pm u v : inner u u = 1 -> inner v v = 1 -> parallel v u -> v = u \/ v = times (-1) u.
Proof.
  intros U V (t & ->). rewrite inner_times, inner_times_r, U in V. assert (T : (t - 1) * (t + 1) = 0) by lra.
  apply Rmult_integral in T. destruct T as [T|T].
  - left. replace t with 1 by lra. destruct u. unfold times; cbn. f_equal; ring.
  - right. f_equal. lra.
Qed.
Lemma unit_same v : inner v v = 1 -> unit_vector v = v.
Proof.
  intros H. unfold unit_vector. change (vdot v v) with (inner v v). rewrite H, sqrt_1. destruct v; cbn. f_equal; field.
Qed.
Lemma unit_nonzero v : inner v v = 1 -> v <> vzero.
Proof. intros H ->. unfold inner, vzero in H; cbn in H. lra. Qed.
Lemma opp_unit v : inner v v = 1 -> inner (times (-1) v) (times (-1) v) = 1.
Proof. rewrite inner_times, inner_times_r. lra. Qed.
Lemma unit_parallel v : v <> vzero -> parallel (unit_vector v) v.
Proof. intros NZ. destruct (unit_ok v NZ) as (t & T & E & _). exists (/ t). rewrite E at 2. unfold times; destruct (unit_vector v); cbn. f_equal; field; lra. Qed.
Lemma parallel_unit u v : v <> vzero -> parallel u (unit_vector v) -> parallel u v.
Proof. intros NZ (t & ->). destruct (unit_parallel v NZ) as (s & ->). exists (t * s). unfold times; cbn. f_equal; ring. Qed.
Lemma real3_unit m e : eigenvector 3 m e -> im_value e = 0 -> inner (real3 e) (real3 e) = 1.
Proof. intros E Z. apply eigenvector_facts in E. destruct E as (_ & _ & _ & H). destruct (H Z) as (_ & U). unfold total in U. unfold inner, real3; cbn. lra. Qed.
Lemma normalized_unit v : inner v v = 1 -> normalized v = v.
Proof. exact (unit_same v). Qed.

(** ** A direction that is the only one to change *)
Section Stretch.
Variables (m : mat4) (u : vec3) (c : R).
Hypothesis U : inner u u = 1.
Hypothesis shape : forall v i, (i < 3)%nat -> product 3 m v i = 1 * v i - (c * inner u (as3 v)) * coord u i.
Lemma stretch_vector e : eigenvector 3 m e ->
  (re_value e = 1 /\ im_value e = 0) \/ (re_value e = 1 - c /\ im_value e = 0 /\ parallel (real3 e) u).
Proof.
  intros E. assert (H := rank_one 3 m 1 (fun v => c * inner u (as3 v)) (coord u) shape). cbv beta in H.
  assert (AS : as3 (coord u) = u) by (destruct u; reflexivity).
  specialize (H ltac:(intros s t x y w W; rewrite (linear_inner 3 s t x y w (le_n _) W); ring) e E). rewrite AS, U, Rmult_1_r in H.
  destruct H as [(A & B & _)|(A & B & C & D)]; [left; tauto|right]. split; [exact A|split; [exact B|]].
  exists (inner u (as3 (re_vector e))). unfold times, real3.
  f_equal; apply (Rmult_eq_reg_l c); try exact C; [rewrite (D 0%nat) by lia|rewrite (D 1%nat) by lia|rewrite (D 2%nat) by lia]; cbn [coord]; ring.
Qed.
Lemma stretch_listed l : eigenvectors_of 3 m l -> exists e, In e l /\ re_value e = 1 - c /\ im_value e = 0.
Proof.
  intros E. assert (NZ : exists i, (i < 3)%nat /\ coord u i <> 0).
  { destruct (Req_EM_T (vx u) 0) as [X|X]; [|exists 0%nat; split; [lia|exact X]].
    destruct (Req_EM_T (vy u) 0) as [Y|Y]; [|exists 1%nat; split; [lia|exact Y]].
    exists 2%nat. split; [lia|]. intros Z. cbn in Z. unfold inner in U. rewrite X, Y, Z in U. lra. }
  destruct NZ as (i & L & NZ). apply (listed 3 m l (1 - c) (coord u) i E); [|exact L|exact NZ].
  intros j J. rewrite shape by exact J. replace (as3 (coord u)) with u by (destruct u; reflexivity). rewrite U. ring.
Qed.
End Stretch.

(** ** Reflections *)
Ltac three := let i := fresh "i" in let H := fresh in intros ? i H; destruct i as [|[|[|i]]]; [..|lia].
Lemma reflection_affine p n : affine_rows (reflection_matrix p n).
Proof. unfold affine_rows. repeat split; reflexivity. Qed.
Lemma reflection_shape p n : let u := unit_vector n in forall v i, (i < 3)%nat -> product 3 (reflection_matrix p n) v i = 1 * v i - (2 * inner u (as3 v)) * coord u i.
Proof.
  intros u. unfold reflection_matrix. fold u. clearbody u.
  three; unfold product, total, set_column, add33, identity4, vouter, inner, as3; cbn; ring.
Qed.
Lemma reflection_same p q n n' : n <> vzero -> inner n' n' = 1 -> parallel n' (unit_vector n) -> on_plane p n q -> same4 (reflection_matrix q n') (reflection_matrix p n).
Proof.
  intros NZ U' P O. unfold reflection_matrix. rewrite (unit_same n' U'). assert (U := unit_one n NZ).
  unfold on_plane in O. rewrite unit_inner in O by exact NZ. apply Rmult_integral in O. destruct O as [O|O]; [generalize (length_pos n NZ); lra|].
  set (u := unit_vector n) in *. clearbody u. rewrite inner_sub in O. change (vdot q) with (inner q). change (vdot p) with (inner p).
  destruct (unit_pm u n' U U' P) as [->| ->]; [|rewrite inner_times_r]; replace (inner q u) with (inner p u) by lra; generalize (inner p u); intros k; clear;
    entries; unfold set_column, add33, identity4, vouter, times; cbn; try reflexivity; try lia; ring.
Qed.
Lemma fixed_plane p n q : n <> vzero -> image (reflection_matrix p n) q q <-> on_plane p n q.
Proof.
  intros NZ. rewrite reflection_image by exact NZ. unfold mirrored, on_plane.
  replace (times (1 / 2) (vadd q q)) with q by (unfold times, vadd; destruct q; cbn; f_equal; field).
  split; [tauto|]. intros H. split; [exact H|]. exists 0. unfold vsub, times; cbn. f_equal; ring.
Qed.
Lemma on_itself p n : on_plane p n p.
Proof. unfold on_plane. rewrite inner_sub. ring. Qed.
Lemma reflection_back eig p n : n <> vzero -> let m := reflection_matrix p n in
  eigenvectors_of 3 m (eig 3%nat m) -> eigenvectors_of 4 m (eig 4%nat m) ->
  exists q n', reflection_from_matrix eig m = Ok (q, n') /\ unit_length n' /\ parallel n' n /\
    forall q', q = Some q' -> on_plane p n q' /\ same4 (reflection_matrix q' n') m.
Proof.
  intros NZ m E3 E4. assert (U := unit_one n NZ).
  destruct (stretch_listed m (unit_vector n) 2 U (reflection_shape p n) _ E3) as (e0 & I0 & V0 & _).
  destruct (choose_first (-1) (1 / 10 ^ 8) _ e0 I0 ltac:(lra) (tol_pos 8)) as (e & F & I & N).
  destruct (fixed_point m _ p (reflection_affine p n) E4 (proj2 (fixed_plane p n p NZ) (on_itself p n))) as (e' & L & _ & Q).
  exists (real_point e'), (real3 e). unfold reflection_from_matrix. rewrite F. cbn [bind]. rewrite L. cbn [bind]. split; [reflexivity|].
  assert (EV := listed_ok _ _ _ _ E3 I).
  destruct (stretch_vector m (unit_vector n) 2 U (reflection_shape p n) e EV) as [(A & _)|(A & B & C)].
  { exfalso. rewrite A in N. replace (1 - -1) with 2 in N by lra. rewrite Rabs_right in N by lra. lra. }
  assert (U' := real3_unit m e EV B). split; [exact U'|split; [apply parallel_unit; assumption|]].
  intros q' H. assert (O := proj1 (fixed_plane p n q' NZ) (Q q' H)). split; [exact O|]. exact (reflection_same p q' n _ NZ U' C O).
Qed.

(** ** Scalings *)
Lemma scale_affine f o d : affine_rows (scale_matrix f o d).
Proof. unfold affine_rows. destruct d, o; repeat split; reflexivity. Qed.
Lemma scale_fixed f o d : image (scale_matrix f (Some o) d) o o.
Proof.
  pose proof (scale_affine f (Some o) d) as (A & B & C & D). apply image_affine; [assumption..|].
  destruct d as [d|].
  - unfold scale_matrix. set (u := unit_vector d). clearbody u. destruct o, u.
    apply vec_eq; unfold row_at, set_column, add33, identity4, vouter, vdot; cbn; ring.
  - destruct o. apply vec_eq; unfold row_at, scale_matrix, set_column, rows4; cbn; ring.
Qed.
Lemma stretch_shape f o d : let u := unit_vector d in forall v i, (i < 3)%nat -> product 3 (scale_matrix f (Some o) (Some d)) v i = 1 * v i - ((1 - f) * inner u (as3 v)) * coord u i.
Proof.
  intros u. unfold scale_matrix. fold u. clearbody u.
  three; unfold product, total, set_column, add33, identity4, vouter, inner, as3; cbn; ring.
Qed.
Lemma stretch_trace f o d : d <> vzero -> trace3 (scale_matrix f (Some o) (Some d)) - 2 = f.
Proof.
  intros NZ. assert (U := unit_one d NZ). unfold scale_matrix. set (u := unit_vector d) in *. clearbody u. unfold inner in U.
  unfold trace3, set_column, add33, identity4, vouter; cbn. replace (1 + - ((1 - f) * (vx u * vx u)) + (1 + - ((1 - f) * (vy u * vy u))) + (1 + - ((1 - f) * (vz u * vz u))) - 2) with (1 - (1 - f) * (vx u * vx u + vy u * vy u + vz u * vz u)) by ring. rewrite U. ring.
Qed.
Lemma scale_same f o o' d d' : d <> vzero -> inner d' d' = 1 -> parallel d' (unit_vector d) -> image (scale_matrix f (Some o) (Some d)) o' o' ->
  same4 (scale_matrix f (Some o') (Some d')) (scale_matrix f (Some o) (Some d)).
Proof.
  intros NZ U' P O. assert (U := unit_one d NZ). apply stretch_image in O; [|exact NZ]. destruct O as (_ & O). rewrite unit_inner in O by exact NZ.
  assert (K : (1 - f) * inner o' (unit_vector d) = (1 - f) * inner o (unit_vector d)).
  { rewrite inner_sub in O. generalize (length_pos d NZ). intros L. apply (Rmult_eq_reg_l (vlength d)); [|lra]. lra. }
  unfold scale_matrix. rewrite (unit_same d' U'). set (u := unit_vector d) in *. clearbody u. change (vdot o') with (inner o'). change (vdot o) with (inner o).
  destruct (unit_pm u d' U U' P) as [->| ->]; [|rewrite inner_times_r, <- (Rmult_assoc (1 - f)), (Rmult_comm (1 - f) (-1)), Rmult_assoc]; rewrite K; generalize ((1 - f) * inner o u); intros k; clear;
    entries; unfold set_column, add33, identity4, vouter, times; cbn; try reflexivity; try lia; ring.
Qed.
Lemma scale_one o d : same4 (scale_matrix 1 (Some o) (Some d)) identity_matrix.
Proof.
  unfold scale_matrix. generalize (unit_vector d). intros u. change identity_matrix with identity4.
  entries; unfold set_column, add33, identity4, vouter; cbn; try reflexivity; try lia; ring.
Qed.
Lemma stretch_back eig f o d : d <> vzero -> f = 1 \/ 1 / 10 ^ 8 <= Rabs (f - 1) -> let m := scale_matrix f (Some o) (Some d) in
  eigenvectors_of 3 m (eig 3%nat m) -> eigenvectors_of 4 m (eig 4%nat m) ->
  exists q d', scale_from_matrix eig m = Ok (f, q, Some d') /\ unit_length d' /\ (f <> 1 -> parallel d' d) /\
    forall q', q = Some q' -> image m q' q' /\ same4 (scale_matrix f (Some q') (Some d')) m.
Proof.
  intros NZ F m E3 E4. assert (U := unit_one d NZ).
  destruct (stretch_listed m (unit_vector d) (1 - f) U (stretch_shape f o d) _ E3) as (e0 & I0 & V0 & _).
  destruct (choose_first f (1 / 10 ^ 8) _ e0 I0 ltac:(lra) (tol_pos 8)) as (e & FI & I & N).
  destruct (fixed_point m _ o (scale_affine f (Some o) (Some d)) E4 (scale_fixed f o (Some d))) as (e' & L & _ & Q).
  assert (EV := listed_ok _ _ _ _ E3 I).
  assert (R : im_value e = 0 /\ (f <> 1 -> parallel (real3 e) (unit_vector d))).
  { destruct (stretch_vector m (unit_vector d) (1 - f) U (stretch_shape f o d) e EV) as [(A & B)|(A & B & C)]; [|tauto].
    split; [exact B|]. intros F1. exfalso. destruct F as [F|F]; [contradiction|]. rewrite A, Rabs_minus_sym in N. lra. }
  destruct R as (B & C). assert (U' := real3_unit m e EV B).
  exists (real_point e'), (real3 e). unfold scale_from_matrix. cbv zeta. assert (T : trace3 m - 2 = f) by exact (stretch_trace f o d NZ). rewrite !T.
  unfold first_of in FI. destruct (where_near f (1 / 10 ^ 8) (eig 3%nat m)) as [|x rest]; [discriminate|]. inversion FI; subst x; clear FI.
  cbv zeta iota beta. rewrite L. cbn [bind]. rewrite (normalized_unit _ U'). split; [reflexivity|split; [exact U'|split]].
  { intros F1. apply parallel_unit; [exact NZ|tauto]. }
  intros q' H. split; [exact (Q q' H)|]. destruct (Req_EM_T f 1) as [F1|F1].
  - unfold m. rewrite F1. intros i j HI HJ. rewrite (scale_one q' _ i j HI HJ). symmetry. exact (scale_one o d i j HI HJ).
  - exact (scale_same f o q' d _ NZ U' (C F1) (Q q' H)).
Qed.
Lemma enlarge_shape f o v i : (i < 3)%nat -> product 3 (scale_matrix f (Some o) None) v i = f * v i - 0 * 0.
Proof. intros H. destruct i as [|[|[|i]]]; [..|lia]; unfold product, total, scale_matrix, set_column, rows4; cbn; ring. Qed.
Lemma enlarge_value f o e : eigenvector 3 (scale_matrix f (Some o) None) e -> re_value e = f /\ im_value e = 0.
Proof.
  intros E. destruct (rank_one 3 (scale_matrix f (Some o) None) f (fun _ => 0) (fun _ => 0) (enlarge_shape f o) ltac:(intros; cbv beta; ring) e E) as [H|H]; [tauto|].
  destruct H as (_ & _ & H & _). lra.
Qed.
Lemma enlarge_trace f o : trace3 (scale_matrix f (Some o) None) - 2 = 3 * f - 2.
Proof. unfold trace3, scale_matrix, set_column, rows4; cbn. ring. Qed.
Lemma enlarge_shape4 f o : let u := fun i => match i with 3%nat => 1 | _ => coord o i end in
  forall v i, (i < 4)%nat -> product 4 (scale_matrix f (Some o) None) v i = f * v i - ((f - 1) * v 3%nat) * u i.
Proof.
  intros u v i H. destruct i as [|[|[|[|i]]]]; [..|lia]; unfold product, total, scale_matrix, set_column, rows4, u; cbn; ring.
Qed.
Lemma enlarge_point f o e : f <> 1 -> let m := scale_matrix f (Some o) None in eigenvector 4 m e -> re_value e <> f -> real_point e = Some o.
Proof.
  intros F m E NF. set (u := fun i => match i with 3%nat => 1 | _ => coord o i end).
  destruct (rank_one 4 m f (fun v => (f - 1) * v 3%nat) u (enlarge_shape4 f o) ltac:(intros s t x y w W; cbv beta; rewrite W by lia; ring) e E) as [(A & _)|(A & B & C & D)].
  { contradiction. }
  assert (V : forall i, (i < 4)%nat -> re_vector e i = re_vector e 3%nat * u i).
  { intros i H. generalize (D i H). change (u 3%nat) with 1. intros K. apply (Rmult_eq_reg_l (f - 1)); lra. }
  assert (W : re_vector e 3%nat <> 0).
  { intros W. apply eigenvector_facts in E. destruct E as (_ & _ & _ & E). destruct (E B) as (_ & T). unfold total in T. rewrite (V 0%nat), (V 1%nat), (V 2%nat), W in T by lia. lra. }
  unfold real_point. destruct (Req_EM_T (re_vector e 3%nat) 0) as [Z|_]; [contradiction|]. f_equal.
  rewrite (V 0%nat), (V 1%nat), (V 2%nat) by lia. destruct o; cbn. f_equal; field; exact W.
Qed.
Lemma enlarge_back eig f o : 1 / 10 ^ 8 <= Rabs (f - 1) -> let m := scale_matrix f (Some o) None in
  eigenvectors_of 3 m (eig 3%nat m) -> eigenvectors_of 4 m (eig 4%nat m) -> scale_from_matrix eig m = Ok (f, Some o, None).
Proof.
  intros F m E3 E4. assert (F1 : f <> 1) by (intros ->; rewrite Rminus_diag_eq, Rabs_R0 in F by reflexivity; generalize (tol_pos 8); lra).
  unfold scale_from_matrix. cbv zeta. assert (T : trace3 m - 2 = 3 * f - 2) by apply enlarge_trace. rewrite !T.
  destruct (where_near (3 * f - 2) (1 / 10 ^ 8) (eig 3%nat m)) as [|e r] eqn:W.
  - cbv zeta iota beta. destruct (fixed_listed m _ o (scale_affine f (Some o) None) E4 (scale_fixed f o None)) as (e0 & I0 & V0 & _).
    destruct (choose_last 1 (1 / 10 ^ 8) _ e0 I0 V0 (tol_pos 8)) as (e & H & IE & N). rewrite H. cbn [bind].
    rewrite (enlarge_point f o e F1 (listed_ok _ _ _ _ E4 IE)). { replace ((3 * f - 2 + 2) / 3) with f by field. reflexivity. } intros V. rewrite V in N. lra.
  - exfalso. assert (I : In e (where_near (3 * f - 2) (1 / 10 ^ 8) (eig 3%nat m))) by (rewrite W; left; reflexivity). apply in_near in I. destruct I as (I & N).
    destruct (enlarge_value f o e (listed_ok _ _ _ _ E3 I)) as (V & _). rewrite V in N. replace (f - (3 * f - 2)) with (- 2 * (f - 1)) in N by ring.
    rewrite Rabs_mult, (Rabs_left (-2)) in N by lra. generalize (Rabs_pos (f - 1)). lra.
Qed.
(** So close to 1 that the factor is taken for one in a direction. *)
Lemma enlarge_wrong eig f o : 0 < Rabs (f - 1) < 1 / 10 ^ 8 / 2 -> let m := scale_matrix f (Some o) None in
  eigenvectors_of 3 m (eig 3%nat m) -> eigenvectors_of 4 m (eig 4%nat m) ->
  exists q d, scale_from_matrix eig m = Ok (3 * f - 2, q, Some d) /\ forall o', ~ same4 (scale_matrix (3 * f - 2) o' (Some d)) m.
Proof.
  intros F m E3 E4. unfold scale_from_matrix. cbv zeta. assert (T : trace3 m - 2 = 3 * f - 2) by apply enlarge_trace. rewrite !T.
  assert (X : exists e, In e (eig 3%nat m)).
  { destruct E3 as (L & _). destruct (eig 3%nat m) as [|e r]; [discriminate|]. exists e. left; reflexivity. }
  destruct X as (e0 & I0). destruct (enlarge_value f o e0 (listed_ok _ _ _ _ E3 I0)) as (V0 & B0).
  destruct (where_near (3 * f - 2) (1 / 10 ^ 8) (eig 3%nat m)) as [|e r] eqn:W.
  { exfalso. assert (I : In e0 (where_near (3 * f - 2) (1 / 10 ^ 8) (eig 3%nat m))); [|rewrite W in I; destruct I].
    apply in_near. split; [exact I0|]. rewrite V0. replace (f - (3 * f - 2)) with (- 2 * (f - 1)) by ring. rewrite Rabs_mult, (Rabs_left (-2)) by lra. lra. }
  cbv zeta iota beta. destruct (fixed_listed m _ o (scale_affine f (Some o) None) E4 (scale_fixed f o None)) as (e1 & I1 & V1 & _).
  destruct (choose_last 1 (1 / 10 ^ 8) _ e1 I1 V1 (tol_pos 8)) as (e2 & H & _). rewrite H. cbn [bind].
  exists (real_point e2), (normalized (real3 e)). split; [reflexivity|]. intros o' S. generalize (normalized (real3 e)) S. clear -F. intros d S.
  assert (G : f - 1 <> 0) by (intros G; rewrite G, Rabs_R0 in F; lra).
  assert (S00 := S 0%nat 0%nat ltac:(lia) ltac:(lia)). assert (S11 := S 1%nat 1%nat ltac:(lia) ltac:(lia)). assert (S01 := S 0%nat 1%nat ltac:(lia) ltac:(lia)). clear S.
  revert S00 S11 S01. unfold m, scale_matrix. generalize (unit_vector d). intros u. destruct o'; unfold set_column, add33, identity4, vouter, rows4; cbn; intros S00 S11 S01;
  assert (A : (f - 1) * (3 * (vx u * vx u) - 1) = 0) by lra; assert (B : (f - 1) * (3 * (vy u * vy u) - 1) = 0) by lra; assert (C : (f - 1) * (vx u * vy u) = 0) by lra;
  apply Rmult_integral in A, B, C; destruct A as [A|A]; [contradiction| |contradiction|]; destruct B as [B|B]; try contradiction; destruct C as [C|C]; try contradiction;
  apply Rmult_integral in C; destruct C as [C|C]; rewrite C in *; lra.
Qed.
