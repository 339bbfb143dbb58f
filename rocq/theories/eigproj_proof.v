(** * Lemmas on the parameters of projections and shears. *)

From Coq Require Import List Reals Lia Lra Arith Bool.
Import ListNotations.
From Verif Require Import Py transf_model affine_model affine2_model affine_spec affine2_spec affine_proof affine2_proof eigpar_model eigpar_spec eigpar_rank eigpar_proof eigpar_rot.
Local Open Scope R_scope.

(** ** A multiple of the identity, but for one direction *)
Section Line.
Variables (m : mat4) (a : R) (f g : vec3).
Hypothesis shape : forall v i, (i < 3)%nat -> product 3 m v i = a * v i - inner f (as3 v) * coord g i.
Lemma line_vector e : eigenvector 3 m e ->
  (re_value e = a /\ im_value e = 0 /\ forall i, (i < 3)%nat -> inner f (real3 e) * coord g i = 0) \/
  (re_value e = a - inner f g /\ im_value e = 0 /\ parallel (real3 e) g).
Proof.
  intros E. assert (H := rank_one 3 m a (fun v => inner f (as3 v)) (coord g) shape). cbv beta in H.
  assert (AS : as3 (coord g) = g) by (destruct g; reflexivity).
  specialize (H ltac:(intros s t x y w W; rewrite (linear_inner 3 s t x y w (le_n _) W); ring) e E). rewrite AS in H.
  destruct H as [(A & B & C)|(A & B & C & D)]; [left; split; [exact A|split; [exact B|exact C]]|right]. split; [exact A|split; [exact B|]].
  exists (inner f (as3 (re_vector e)) / inner f g). unfold times, real3.
  f_equal; apply (Rmult_eq_reg_l (inner f g)); try exact C; [rewrite (D 0%nat) by lia|rewrite (D 1%nat) by lia|rewrite (D 2%nat) by lia]; cbn [coord]; field; exact C.
Qed.
Lemma line_listed l : g <> vzero -> eigenvectors_of 3 m l -> exists e, In e l /\ re_value e = a - inner f g /\ im_value e = 0.
Proof.
  intros NZ E. assert (Z : exists i, (i < 3)%nat /\ coord g i <> 0).
  { destruct (Req_EM_T (vx g) 0) as [X|X]; [|exists 0%nat; split; [lia|exact X]].
    destruct (Req_EM_T (vy g) 0) as [Y|Y]; [|exists 1%nat; split; [lia|exact Y]].
    exists 2%nat. split; [lia|]. intros Z. apply NZ. apply vec_eq; assumption. }
  destruct Z as (i & L & Z). apply (listed 3 m l (a - inner f g) (coord g) i E); [|exact L|exact Z].
  intros j J. rewrite shape by exact J. replace (as3 (coord g)) with g by (destruct g; reflexivity). ring.
Qed.
End Line.
Lemma image_ext m m' p q : same4 m m' -> image m' p q -> image m p q.
Proof. intros S. unfold image, row_at. rewrite !(S _ _) by lia. trivial. Qed.
Lemma affine_ext m m' : same4 m m' -> affine_rows m' -> affine_rows m.
Proof. intros S. unfold affine_rows. rewrite !(S _ _) by lia. trivial. Qed.

(** ** Parallel projections *)
Definition slide (d n : vec3) : vec3 := times (/ inner d n) d.
Section Parallel.
Variables (m : mat4) (p n d : vec3).
Hypothesis NZ : n <> vzero.
Hypothesis ND : inner d n <> 0.
Hypothesis same : same4 m (projection_matrix p n (Some d) None false).
Let u := unit_vector n.
Lemma unit_cut : inner d u <> 0.
Proof. intros H. apply ND. rewrite (unit_inner n NZ d). fold u. rewrite H. ring. Qed.
Lemma parallel_shape v i : (i < 3)%nat -> product 3 m v i = 1 * v i - inner u (as3 v) * coord (slide d u) i.
Proof.
  intros H. assert (K := unit_cut). rewrite (product_ext 3 m _ v i ltac:(lia) H same). unfold projection_matrix. fold u. clearbody u. unfold slide, inner in *.
  destruct i as [|[|[|i]]]; [..|lia]; unfold product, total, set_column, add33, identity4, vouter, vdot, as3, times; cbn; field; exact K.
Qed.
Lemma parallel_shape_t v i : (i < 3)%nat -> product 3 (transposed m) v i = 1 * v i - inner (slide d u) (as3 v) * coord u i.
Proof.
  intros H. assert (K := unit_cut). rewrite (product_ext 3 (transposed m) (transposed (projection_matrix p n (Some d) None false)) v i ltac:(lia) H).
  2: { intros i' j' I J. apply same; assumption. }
  unfold projection_matrix. fold u. clearbody u. unfold slide, inner in *.
  destruct i as [|[|[|i]]]; [..|lia]; unfold product, total, transposed, set_column, add33, identity4, vouter, vdot, as3, times; cbn; field; exact K.
Qed.
Lemma slide_one : inner u (slide d u) = 1.
Proof. unfold slide. rewrite inner_times_r, (inner_comm u d). field. exact unit_cut. Qed.
Lemma slide_nonzero : slide d u <> vzero.
Proof. intros H. generalize slide_one. rewrite H. unfold inner, vzero; cbn. lra. Qed.
Lemma parallel_fixed q : image m q q <-> on_plane p n q.
Proof.
  assert (I : image m q q <-> image (projection_matrix p n (Some d) None false) q q) by (split; apply image_ext; [intros i j I J; symmetry; apply same; assumption|exact same]).
  rewrite I, parallel_image by assumption. unfold projected. split; [tauto|]. intros H. split; [exact H|]. exists 0. unfold vsub, times; cbn. f_equal; ring.
Qed.
Lemma parallel_same q n' d' : inner n' n' = 1 -> inner d' d' = 1 -> parallel n' u -> parallel d' (slide d u) -> on_plane p n q ->
  same4 (projection_matrix q n' (Some d') None false) m.
Proof.
  intros U' D' PN (t & PD) O. assert (K := unit_cut). assert (U := unit_one n NZ).
  assert (T : t <> 0) by (intros Z; rewrite PD, Z in D'; unfold inner, times in D'; cbn in D'; lra).
  assert (OU : inner q u = inner p u).
  { unfold on_plane in O. rewrite (unit_inner n NZ), inner_sub in O. apply Rmult_integral in O. destruct O as [O|O]; [generalize (length_pos n NZ); lra|]. fold u in O. lra. }
  intros i j I J. rewrite (same i j I J). revert i j I J. fold (same4 (projection_matrix q n' (Some d') None false) (projection_matrix p n (Some d) None false)).
  unfold projection_matrix. rewrite (unit_same n' U'). fold u in U |- *. clearbody u. change (vdot q) with (inner q). change (vdot p) with (inner p). change (vdot d') with (inner d'). change (vdot d) with (inner d).
  set (x := t * / inner d u). assert (X : x <> 0) by (unfold x; apply Rmult_integral_contrapositive; split; [exact T|apply Rinv_neq_0_compat, K]).
  assert (DX : d' = times x d) by (rewrite PD; unfold slide, times, x; cbn; f_equal; ring). clearbody x. clear PD. subst d'.
  destruct (unit_pm u n' U U' PN) as [->| ->]; rewrite ?inner_times_r, ?inner_times, ?inner_times_r, OU; generalize (inner p u); intros k; generalize (inner d u) K; intros s Ks; clear -X Ks;
    entries; try lia; unfold set_column, add33, identity4, vouter, times; cbn; try reflexivity; field; repeat split; lra.
Qed.
Lemma parallel_back eig : eigenvectors_of 3 m (eig 3%nat m) -> eigenvectors_of 3 (transposed m) (eig 3%nat (transposed m)) -> eigenvectors_of 4 m (eig 4%nat m) ->
  exists q n' d', projection_from_matrix eig m false = Ok (q, n', Some d', None, false) /\ unit_length n' /\ unit_length d' /\ parallel n' n /\ parallel d' d /\
    forall q', q = Some q' -> on_plane p n q' /\ same4 (projection_matrix q' n' (Some d') None false) m.
Proof.
  intros E3 ET E4. assert (U := unit_one n NZ). assert (T := tol_pos 8). assert (T2 : 1 / 10 ^ 8 < 1) by lra.
  destruct (line_listed m 1 u (slide d u) parallel_shape _ slide_nonzero E3) as (e0 & I0 & V0 & _). rewrite slide_one in V0.
  destruct (choose_first 0 (1 / 10 ^ 8) _ e0 I0 ltac:(lra) T) as (e & F & I & N).
  assert (SO : inner (slide d u) u = 1) by (rewrite inner_comm; exact slide_one).
  destruct (line_listed (transposed m) 1 (slide d u) u parallel_shape_t _ (unit_nonzero u U) ET) as (e1 & I1 & V1 & _). rewrite SO in V1.
  destruct (choose_first 0 (1 / 10 ^ 8) _ e1 I1 ltac:(lra) T) as (e' & F' & I' & N').
  assert (A : affine_rows m) by (apply (affine_ext _ _ same); unfold affine_rows; repeat split; reflexivity).
  destruct (fixed_point m _ p A E4 (proj2 (parallel_fixed p) (on_itself p n))) as (e2 & L & _ & Q).
  exists (real_point e2), (real3 e'), (real3 e). unfold projection_from_matrix. rewrite L, F. cbn [bind]. rewrite F'.
  assert (EV := listed_ok _ _ _ _ E3 I). assert (EV' := listed_ok _ _ _ _ ET I').
  destruct (line_vector m 1 u (slide d u) parallel_shape e EV) as [(B & _)|(_ & B & C)].
  { exfalso. rewrite B, Rminus_0_r, Rabs_R1 in N. lra. }
  destruct (line_vector (transposed m) 1 (slide d u) u parallel_shape_t e' EV') as [(B' & _)|(_ & B' & C')].
  { exfalso. rewrite B', Rminus_0_r, Rabs_R1 in N'. lra. }
  assert (U1 := real3_unit _ e EV B). assert (U2 := real3_unit _ e' EV' B'). rewrite !normalized_unit by assumption.
  split; [reflexivity|split; [exact U2|split; [exact U1|split; [apply parallel_unit; assumption|split]]]].
  - destruct C as (t & ->). exists (t * / inner d u). unfold slide, times; cbn. f_equal; ring.
  - intros q' H. assert (O := proj1 (parallel_fixed q') (Q q' H)). split; [exact O|]. exact (parallel_same q' _ _ U2 U1 C' C O).
Qed.
End Parallel.
Lemma orthogonal_is_parallel p n : n <> vzero -> same4 (projection_matrix p n None None false) (projection_matrix p n (Some n) None false).
Proof.
  intros NZ. assert (U := unit_one n NZ). assert (L := length_pos n NZ). unfold projection_matrix. assert (H := length_times n NZ). set (u := unit_vector n) in *. clearbody u. 
  set (t := vlength n) in *. clearbody t. subst n. change (vdot (times t u) u) with (inner (times t u) u). rewrite inner_times, U, Rmult_1_r. change (vdot p u) with (inner p u). generalize (inner p u). intros k. clear -L.
  entries; try lia; unfold set_column, add33, identity4, vouter, times; cbn; try reflexivity; field; lra.
Qed.

(** ** Perspective projections *)
Definition point4 (v : vec3) (i : nat) : R := match i with 3%nat => 1 | _ => coord v i end.
Definition above (p u : vec3) (v : nat -> R) : R := inner u (as3 v) - v 3%nat * inner p u.
Section Perspective.
Variables (m : mat4) (p u c : vec3) (k : R).
Hypothesis shape : forall v i, (i < 4)%nat -> product 4 m v i = k * v i - above p u v * point4 c i.
Lemma above_point q : above p u (point4 q) = inner (vsub q p) u.
Proof. unfold above. replace (as3 (point4 q)) with q by (destruct q; reflexivity). cbn [point4]. rewrite inner_sub, (inner_comm u q). ring. Qed.
Lemma persp_vector e : eigenvector 4 m e ->
  (re_value e = k /\ above p u (re_vector e) = 0) \/ (re_value e = k - inner (vsub c p) u /\ inner (vsub c p) u <> 0).
Proof.
  intros E. assert (H := rank_one 4 m k (above p u) (point4 c) shape).
  specialize (H ltac:(intros s t x y w W; unfold above; rewrite (linear_inner 4 s t x y w ltac:(lia) W), (W 3%nat) by lia; ring) e E). rewrite above_point in H.
  destruct H as [(A & _ & C)|(A & _ & C & _)]; [left|right; split; assumption]. split; [exact A|]. generalize (C 3%nat ltac:(lia)). cbn [point4]. lra.
Qed.
Lemma persp_listed l : eigenvectors_of 4 m l -> exists e, In e l /\ re_value e = k /\ im_value e = 0.
Proof.
  intros E. apply (listed 4 m l k (point4 p) 3%nat E); [|lia|cbn; lra]. intros j J. rewrite shape by exact J. rewrite above_point, inner_sub. ring.
Qed.
Lemma above_real e q : above p u (re_vector e) = 0 -> real_point e = Some q -> inner q u = inner p u.
Proof.
  unfold real_point. destruct (Req_EM_T (re_vector e 3%nat) 0) as [Z|Z]; [discriminate|]. intros A H. inversion H; subst q; clear H.
  unfold above, inner, as3 in *; cbn in *. apply (Rmult_eq_reg_l (re_vector e 3%nat)); [|exact Z]. field_simplify; [lra|exact Z].
Qed.
End Perspective.
Lemma persp_shape p n d e : let u := unit_vector n in forall v i, (i < 4)%nat ->
  product 4 (projection_matrix p n d (Some e) false) v i = inner (vsub e p) u * v i - above p u v * point4 e i.
Proof.
  intros u v i H. unfold projection_matrix. fold u. clearbody u.
  destruct i as [|[|[|[|i]]]]; [..|lia]; unfold product, total, set_column, set_last_row, set_diagonal, set4, add33, identity4, vouter, vdot, above, inner, vsub, as3, point4; cbn; ring.
Qed.
Lemma pseudo_shape p n d e : n <> vzero -> let u := unit_vector n in forall v i, (i < 4)%nat ->
  product 4 (projection_matrix p n d (Some e) true) v i = inner (vsub e p) u * v i - above p u v * point4 (vadd e u) i.
Proof.
  intros _ u v i H. unfold projection_matrix. fold u. clearbody u.
  destruct i as [|[|[|[|i]]]]; [..|lia]; unfold product, total, set_column, set_last_row, set_diagonal, set4, add33, identity4, vouter, vdot, above, inner, vsub, vadd, as3, point4; cbn; ring.
Qed.
Lemma persp_row p n d e pseudo : let m := projection_matrix p n d (Some e) pseudo in let u := unit_vector n in
  V3 (- m 3%nat 0%nat) (- m 3%nat 1%nat) (- m 3%nat 2%nat) = u.
Proof.
  intros m u. unfold m, projection_matrix. fold u. clearbody u.
  destruct pseudo; unfold set_column, set_last_row, set_diagonal, set4, add33, identity4; cbn; destruct u; cbn; f_equal; ring.
Qed.
Lemma persp_column p n d e pseudo : let m := projection_matrix p n d (Some e) pseudo in let u := unit_vector n in
  V3 (m 0%nat 3%nat) (m 1%nat 3%nat) (m 2%nat 3%nat) = times (inner p u) (if pseudo then vadd e u else e).
Proof.
  intros m u. unfold m, projection_matrix. fold u. clearbody u.
  destruct pseudo; unfold set_column, set_last_row, set_diagonal, set4, add33, identity4, times, vadd; cbn; reflexivity.
Qed.
Lemma persp_same p q n d e pseudo : n <> vzero -> inner q (unit_vector n) = inner p (unit_vector n) ->
  same4 (projection_matrix q (unit_vector n) None (Some e) pseudo) (projection_matrix p n d (Some e) pseudo).
Proof.
  intros NZ H. assert (U := unit_one n NZ). unfold projection_matrix. rewrite (unit_same _ U). set (u := unit_vector n) in *. clearbody u.
  change (vdot q u) with (inner q u). change (vdot p u) with (inner p u).
  replace (vdot (V3 (vx e - vx q) (vy e - vy q) (vz e - vz q)) u) with (vdot (V3 (vx e - vx p) (vy e - vy p) (vz e - vz p)) u); [rewrite H; intros i j _ _; reflexivity|].
  unfold inner, vdot in *; cbn. lra.
Qed.
Lemma plane_unit p n q : n <> vzero -> on_plane p n q <-> inner q (unit_vector n) = inner p (unit_vector n).
Proof.
  intros NZ. unfold on_plane. rewrite (unit_inner n NZ), inner_sub. assert (L := length_pos n NZ). split; intros H.
  - apply Rmult_integral in H. destruct H; lra.
  - rewrite H. ring.
Qed.
(** What is returned for a chosen eigenvector. *)
Definition eye_of (m : mat4) (pseudo : bool) (point : eigenpair) : option vec3 :=
  match real_point point with
  | None => None
  | Some q =>
      let normal := V3 (- m 3%nat 0%nat) (- m 3%nat 1%nat) (- m 3%nat 2%nat) in
      let t := vdot q normal in
      if Req_EM_T t 0 then None
      else let e := V3 (m 0%nat 3%nat / t) (m 1%nat 3%nat / t) (m 2%nat 3%nat / t) in
        Some (if pseudo then V3 (vx e - vx normal) (vy e - vy normal) (vz e - vz normal) else e)
  end.
Lemma eye_value p n d e pseudo x : let m := projection_matrix p n d (Some e) pseudo in let u := unit_vector n in
  (forall q, real_point x = Some q -> inner q u = inner p u) ->
  eye_of m pseudo x = match real_point x with None => None | Some _ => if Req_EM_T (inner p u) 0 then None else Some e end.
Proof.
  intros m u H. unfold eye_of. destruct (real_point x) as [q|]; [|reflexivity]. cbv zeta. specialize (H q eq_refl).
  rewrite (persp_row p n d e pseudo : V3 (- m 3%nat 0%nat) (- m 3%nat 1%nat) (- m 3%nat 2%nat) = u). change (vdot q u) with (inner q u). rewrite H.
  destruct (Req_EM_T (inner p u) 0) as [Z|Z]; [reflexivity|]. f_equal.
  assert (C := persp_column p n d e pseudo). cbv zeta in C. fold m u in C. assert (C0 := f_equal vx C). assert (C1 := f_equal vy C). assert (C2 := f_equal vz C). cbn [vx vy vz times] in C0, C1, C2.
  rewrite C0, C1, C2. clear - Z. clearbody u. destruct pseudo; destruct e; cbn; f_equal; field; exact Z.
Qed.
Lemma perspective_back eig p n d e : n <> vzero -> let k := inner (vsub e p) (unit_vector n) in let m := projection_matrix p n d (Some e) false in
  1 / 10 ^ 8 < Rabs k -> 1 / 10 ^ 8 <= Rabs (k - 1) -> eigenvectors_of 4 m (eig 4%nat m) ->
  exists q s, projection_from_matrix eig m false = Ok (q, unit_vector n, None, Some s, false) /\ (inner p n = 0 -> s = None) /\
    forall q', q = Some q' -> on_plane p n q' /\ (inner p n <> 0 -> s = Some e /\ same4 (projection_matrix q' (unit_vector n) None (Some e) false) m).
Proof.
  intros NZ k m K K1 E4. set (u := unit_vector n). assert (T := tol_pos 8). assert (T2 : 1 / 10 ^ 8 < 1) by lra.
  assert (VAL : forall x, In x (eig 4%nat m) -> (re_value x = k /\ above p u (re_vector x) = 0) \/ re_value x = 0).
  { intros x I. destruct (persp_vector m p u e k (persp_shape p n d e) x (listed_ok _ _ _ _ E4 I)) as [H|(H & _)]; [left; exact H|right]. rewrite H. unfold k, u. ring. }
  unfold projection_from_matrix. rewrite (last_none (where_near 1 (1 / 10 ^ 8) (eig 4%nat m))).
  2: { intros x I. apply in_near in I. destruct I as (I & N). destruct (VAL x I) as [(V & _)|V]; rewrite V in N; [lra|]. rewrite Rabs_left in N by lra. lra. }
  destruct (persp_listed m p u e k (persp_shape p n d e) _ E4) as (x0 & I0 & V0 & _).
  assert (A0 : In x0 (where_away (1 / 10 ^ 8) (eig 4%nat m))) by (apply in_away; rewrite V0; tauto).
  destruct (last_some _ x0 A0) as (x & L). rewrite L. cbn [bind]. cbv zeta. assert (I := last_in _ _ L). apply in_away in I. destruct I as (I & AW).
  destruct (VAL x I) as [(V & AB)|V]; [|rewrite V, Rabs_R0 in AW; lra].
  assert (Q : forall q, real_point x = Some q -> inner q u = inner p u) by (intros q; exact (above_real p u x q AB)).
  exists (real_point x), (eye_of m false x). split; [unfold eye_of; rewrite (persp_row p n d e false : V3 (- m 3%nat 0%nat) (- m 3%nat 1%nat) (- m 3%nat 2%nat) = u); reflexivity|].
  assert (EY := eye_value p n d e false x Q). cbv zeta in EY. fold m u in EY. rewrite EY. assert (LN := length_pos n NZ).
  assert (PN : inner p n = vlength n * inner p u) by apply (unit_inner n NZ p).
  destruct (Req_EM_T (inner p u) 0) as [Z|Z].
  - split; [intros _; destruct (real_point x); reflexivity|]. intros q' H. split; [apply plane_unit; [exact NZ|apply Q, H]|]. intros B. exfalso. apply B. rewrite PN, Z. ring.
  - split; [intros B; exfalso; rewrite PN in B; apply Rmult_integral in B; destruct B; lra|]. intros q' H. split; [apply plane_unit; [exact NZ|apply Q, H]|]. intros _. rewrite H.
    split; [reflexivity|]. apply persp_same; [exact NZ|apply Q, H].
Qed.
Lemma pseudo_back eig p n d e : n <> vzero -> let k := inner (vsub e p) (unit_vector n) in let m := projection_matrix p n d (Some e) true in
  1 / 10 ^ 8 < Rabs k -> eigenvectors_of 4 m (eig 4%nat m) -> (forall l x, eig 4%nat m = l ++ [x] -> k = -1 \/ re_value x <> -1) ->
  exists q s, projection_from_matrix eig m true = Ok (q, unit_vector n, None, Some s, true) /\
    forall q', q = Some q' -> on_plane p n q' /\ (inner p n <> 0 -> s = Some e /\ same4 (projection_matrix q' (unit_vector n) None (Some e) true) m).
Proof.
  intros NZ k m K E4 LAST. set (u := unit_vector n). assert (T := tol_pos 8). assert (T2 : 1 / 10 ^ 8 < 1) by lra. assert (U : inner u u = 1) by exact (unit_one n NZ).
  assert (CP : inner (vsub (vadd e u) p) u = k + 1) by (unfold k; rewrite !inner_sub, inner_add; fold u; rewrite U; ring).
  assert (VAL : forall x, In x (eig 4%nat m) -> (re_value x = k /\ above p u (re_vector x) = 0) \/ re_value x = -1 /\ k <> -1).
  { intros x I. destruct (persp_vector m p u (vadd e u) k (pseudo_shape p n d e NZ) x (listed_ok _ _ _ _ E4 I)) as [H|(H & G)]; [left; exact H|right]. rewrite CP in H, G. split; lra. }
  assert (ALL : where_away (1 / 10 ^ 8) (eig 4%nat m) = eig 4%nat m).
  { unfold where_away. assert (G : forall l, (forall x, In x l -> 1 / 10 ^ 8 < Rabs (re_value x)) -> filter (fun e => if Rlt_dec (1 / 10 ^ 8) (Rabs (re_value e)) then true else false) l = l).
    { induction l as [|y l IH]; [reflexivity|]. intros H. cbn [filter]. destruct (Rlt_dec _ _) as [_|B]; [|exfalso; apply B, H; left; reflexivity]. f_equal. apply IH. intros z Hz. apply H. right; exact Hz. }
    apply G. intros x I. destruct (VAL x I) as [(V & _)|(V & _)]; rewrite V; [exact K|]. rewrite Rabs_left by lra. lra. }
  unfold projection_from_matrix. rewrite ALL.
  destruct (eig 4%nat m) as [|y0 l0] eqn:EG; [destruct E4 as (B & _); discriminate|].
  destruct (exists_last (l := y0 :: l0) ltac:(discriminate)) as (l & x & EL). rewrite EL in *. 
  assert (L : last_of (l ++ [x]) = Ok x) by (unfold last_of; rewrite rev_app_distr; reflexivity).
  cbv zeta. rewrite L. cbn [bind].
  assert (I : In x (l ++ [x])) by (apply in_or_app; right; left; reflexivity).
  destruct (VAL x I) as [(V & AB)|(V & KN)]; [|destruct (LAST l x eq_refl); contradiction].
  assert (Q : forall q, real_point x = Some q -> inner q u = inner p u) by (intros q; exact (above_real p u x q AB)).
  exists (real_point x), (eye_of m true x). split; [unfold eye_of; rewrite (persp_row p n d e true : V3 (- m 3%nat 0%nat) (- m 3%nat 1%nat) (- m 3%nat 2%nat) = u); reflexivity|].
  assert (EY := eye_value p n d e true x Q). cbv zeta in EY. fold m u in EY. rewrite EY. assert (LN := length_pos n NZ).
  assert (PN : inner p n = vlength n * inner p u) by apply (unit_inner n NZ p).
  intros q' H. split; [apply plane_unit; [exact NZ|apply Q, H]|]. intros B. rewrite H. destruct (Req_EM_T (inner p u) 0) as [Z|Z]; [exfalso; apply B; rewrite PN, Z; ring|].
  split; [reflexivity|]. apply persp_same; [exact NZ|apply Q, H].
Qed.
Lemma persp_shape3 p n d e : let u := unit_vector n in forall v i, (i < 3)%nat ->
  product 3 (projection_matrix p n d (Some e) false) v i = inner (vsub e p) u * v i - inner u (as3 v) * coord e i.
Proof.
  intros u v i H. unfold projection_matrix. fold u. clearbody u.
  destruct i as [|[|[|i]]]; [..|lia]; unfold product, total, set_column, set_last_row, set_diagonal, set4, add33, identity4, vouter, vdot, inner, vsub, as3; cbn; ring.
Qed.
Lemma distance_one eig p n d e : n <> vzero -> let u := unit_vector n in let m := projection_matrix p n d (Some e) false in
  inner (vsub e p) u = 1 -> 1 / 10 ^ 8 <= Rabs (inner p u) -> eigenvectors_of 3 m (eig 3%nat m) -> eigenvectors_of 4 m (eig 4%nat m) ->
  projection_from_matrix eig m false = Err ValueError.
Proof.
  intros NZ u m K P E3 E4. assert (T := tol_pos 8). assert (T2 : 1 / 10 ^ 8 < 1) by lra.
  destruct (persp_listed m p u e _ (persp_shape p n d e) _ E4) as (x0 & I0 & V0 & _). fold u in V0. rewrite K in V0.
  destruct (choose_last 1 (1 / 10 ^ 8) _ x0 I0 V0 T) as (x & L & _). unfold projection_from_matrix. rewrite L.
  rewrite first_none; [reflexivity|]. intros y I. apply in_near in I. destruct I as (I & N). rewrite Rminus_0_r in N.
  destruct (line_vector m _ u e (persp_shape3 p n d e) y (listed_ok _ _ _ _ E3 I)) as [(V & _)|(V & _)]; fold u in V; rewrite V in N.
  - rewrite K, Rabs_R1 in N. lra.
  - replace (inner (vsub e p) u - inner u e) with (- inner p u) in N by (rewrite inner_sub, (inner_comm u e); ring). rewrite Rabs_Ropp in N. lra.
Qed.
