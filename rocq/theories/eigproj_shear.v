(** * Lemmas on the parameters of shears. *)

From Coq Require Import List Reals Lia Lra Arith Bool.
Import ListNotations.
From Verif Require Import Py transf_model affine_model affine2_model affine_spec affine2_spec affine_proof affine2_proof eigpar_model eigpar_spec eigpar_rank eigpar_proof eigpar_rot eigproj_proof.
Local Open Scope R_scope.

Lemma cross_lagrange x y : inner (vcross x y) (vcross x y) = inner x x * inner y y - inner x y * inner x y.
Proof. unfold inner, vcross; cbn. ring. Qed.
Lemma cross3_is x y : cross3 x y = vcross x y.
Proof. reflexivity. Qed.
(** The product of two vectors of a plane is along its normal. *)
Lemma cross_normal u x y : inner u u = 1 -> inner u x = 0 -> inner u y = 0 -> parallel (vcross x y) u.
Proof.
  intros U X Y. apply along; [exact U|].
  assert (L := cross_lagrange x y). rewrite L. clear L.
  assert (G : inner u u * (inner x x * inner y y - inner x y * inner x y) - inner u x * (inner u x * inner y y - inner x y * inner u y) + inner u y * (inner u x * inner x y - inner x x * inner u y)
    = inner u (vcross x y) * inner u (vcross x y)) by (unfold inner, vcross; cbn; ring).
  rewrite U, X, Y in G. lra.
Qed.
Lemma norm_inner v : vector_norm v = vlength v.
Proof. reflexivity. Qed.
Lemma norm_sq v : vector_norm v * vector_norm v = inner v v.
Proof. unfold vector_norm. apply sqrt_sqrt. apply inner_nonneg. Qed.
Lemma norm_nonneg v : 0 <= vector_norm v.
Proof. apply sqrt_pos. Qed.
(** The loop keeps the longest product. *)
Lemma longest_three a b c : exists i j, In i [a; b; c] /\ In j [a; b; c] /\
  longest_cross [a; b; c] [(0%nat, 1%nat); (0%nat, 2%nat); (1%nat, 2%nat)] (-1) (V3 0 0 0) = Ok (vector_norm (vcross i j), vcross i j) /\
  vector_norm (vcross a b) <= vector_norm (vcross i j) /\ vector_norm (vcross a c) <= vector_norm (vcross i j) /\ vector_norm (vcross b c) <= vector_norm (vcross i j).
Proof.
  cbn [longest_cross nth_error]. rewrite (cross3_is a b), (cross3_is a c), (cross3_is b c). assert (N := norm_nonneg (vcross a b)).
  destruct (Rlt_dec (-1) (vector_norm (vcross a b))) as [_|H]; [|lra].
  destruct (Rlt_dec (vector_norm (vcross a b)) (vector_norm (vcross a c))) as [H|H]; [destruct (Rlt_dec (vector_norm (vcross a c)) (vector_norm (vcross b c))) as [G|G]|destruct (Rlt_dec (vector_norm (vcross a b)) (vector_norm (vcross b c))) as [G|G]].
  - exists b, c. cbn [In]. repeat (split; [first [reflexivity|tauto|lra]|]). lra.
  - exists a, c. cbn [In]. repeat (split; [first [reflexivity|tauto|lra]|]). lra.
  - exists b, c. cbn [In]. repeat (split; [first [reflexivity|tauto|lra]|]). lra.
  - exists a, b. cbn [In]. repeat (split; [first [reflexivity|tauto|lra]|]). lra.
Qed.
Lemma combined_parallel value l x v : (forall e, In e l -> im_value e = 0 -> parallel (real3 e) x) -> combined 3 value l v -> parallel (as3 v) x.
Proof.
  intros H C. induction C as [v Z|e l v C IH|e l v w t C IH RV IV W].
  - exists 0. unfold as3, times. rewrite !Z by lia. f_equal; ring.
  - apply IH. intros e' I. apply H. right; exact I.
  - destruct IH as (s & S); [intros e' I; apply H; right; exact I|]. destruct (H e (or_introl eq_refl) IV) as (r & R). exists (s + t * r).
    assert (S0 := f_equal vx S). assert (S1 := f_equal vy S). assert (S2 := f_equal vz S). assert (R0 := f_equal vx R). assert (R1 := f_equal vy R). assert (R2 := f_equal vz R).
    cbn [vx vy vz as3 times real3] in *. unfold as3, times. rewrite !W by lia. rewrite S0, S1, S2, R0, R1, R2. f_equal; ring.
Qed.
Section Shear.
Variables (a : R) (d p n : vec3) (m : mat4).
Hypothesis ND : d <> vzero.
Hypothesis NN : n <> vzero.
Hypothesis ORTHO : inner d n = 0.
Hypothesis BENT : tan a <> 0.
Hypothesis built : shear_matrix a d p n = Ok m.
Let u := unit_vector n.
Let w := unit_vector d.
Let t := tan a.
Lemma ortho_unit : inner w u = 0 /\ inner u w = 0.
Proof.
  assert (H : inner w u = 0).
  { assert (L := length_pos n NN). assert (L' := length_pos d ND). generalize ORTHO. rewrite (unit_inner n NN), (length_times d ND), inner_times. fold w u. intros H.
    apply Rmult_integral in H. destruct H as [H|H]; [lra|]. apply Rmult_integral in H. destruct H; lra. }
  split; [exact H|rewrite inner_comm; exact H].
Qed.
Lemma shear_shape v i : (i < 3)%nat -> product 3 m v i = 1 * v i - inner (times (- t) u) (as3 v) * coord w i.
Proof.
  intros H. revert built. unfold shear_matrix. destruct (Rlt_dec _ _); [discriminate|]. intros B. injection B as <-. fold u w t. clearbody u w t.
  destruct i as [|[|[|i]]]; [..|lia]; unfold product, total, set_column, add33, identity4, vouter, as3, inner, times; cbn; ring.
Qed.
Lemma shear_affine : affine_rows m.
Proof. destruct (shear_value a d p n m p built) as (_ & H). exact H. Qed.
Lemma shear_vector e : eigenvector 3 m e -> re_value e = 1 /\ im_value e = 0 /\ inner u (real3 e) = 0.
Proof.
  intros E. assert (U : inner w w = 1) by exact (unit_one d ND). assert (BB : t <> 0) by exact BENT.
  destruct (line_vector m 1 (times (- t) u) w shear_shape e E) as [(A & B & C)|(A & B & C)].
  - split; [exact A|split; [exact B|]]. destruct (unit_coord w U) as (i & I & W). assert (K := C i I). rewrite inner_times in K. apply Rmult_integral in K. destruct K as [K|K]; [|contradiction].
    apply Rmult_integral in K. destruct K as [K|K]; [lra|exact K].
  - rewrite inner_times, (proj2 ortho_unit) in A. split; [lra|split; [exact B|]]. destruct C as (s & ->). rewrite inner_times_r, (proj2 ortho_unit). ring.
Qed.
Lemma shear_fixed q : image m q q <-> on_plane p n q.
Proof.
  pose proof shear_affine as (A0 & A1 & A2 & A3). rewrite image_affine by assumption. destruct (shear_value a d p n m q built) as (V & _). rewrite V. fold u w t.
  rewrite (plane_unit p n q NN). fold u. assert (U : inner w w = 1) by exact (unit_one d ND). assert (BB : t <> 0) by exact BENT. rewrite inner_sub. split; intros H.
  - assert (K : inner q w = inner (vadd q (times (t * (inner q u - inner p u)) w)) w) by (rewrite <- H; reflexivity). rewrite inner_add, inner_times, U, Rmult_1_r in K.
    assert (Z : t * (inner q u - inner p u) = 0) by lra. apply Rmult_integral in Z. destruct Z as [Z|Z]; [contradiction|lra].
  - rewrite H. destruct q. unfold vadd, times; cbn. apply vec_eq; cbn; ring.
Qed.
Lemma shear_span l : eigenvectors_of 3 m l -> forall x, inner u x = 0 -> (forall e, In e l -> parallel (real3 e) x) -> x = vzero.
Proof.
  intros E x X H. assert (U : inner u u = 1) by exact (unit_one n NN). destruct E as (_ & _ & C).
  assert (O : inner u (vcross u x) = 0) by apply inner_cross_self.
  assert (V : combined 3 1 l (coord (vcross u x))).
  { apply C. intros i I. rewrite shear_shape by exact I. replace (as3 (coord (vcross u x))) with (vcross u x) by reflexivity. rewrite inner_times, O. ring. }
  apply (combined_parallel 1 l x) in V; [|intros e I _; apply H, I]. replace (as3 (coord (vcross u x))) with (vcross u x) in V by reflexivity.
  destruct V as (s & S). assert (L := cross_lagrange u x). rewrite U, X in L.
  assert (Z : inner (vcross u x) (vcross u x) = 0) by (rewrite S at 2; rewrite inner_times_r, (inner_comm (vcross u x) x), (proj1 (inner_cross_self u x)); ring).
  assert (Q : inner x x = 0) by lra. apply vec_eq; unfold inner in Q; apply three_squares in Q; tauto.
Qed.
Lemma parallel_units x y : inner x x = 1 -> inner y y = 1 -> vcross x y = vzero -> parallel y x.
Proof.
  intros X Y Z. apply along; [exact X|]. assert (L := cross_lagrange x y). rewrite Z, X, Y in L. unfold inner at 1 in L; cbn in L. rewrite Y. lra.
Qed.
Lemma zero_norm v : vector_norm v <= 0 -> v = vzero.
Proof.
  intros H. assert (N := norm_nonneg v). assert (Z : vector_norm v = 0) by lra. assert (Q := norm_sq v). rewrite Z in Q. unfold inner in Q. symmetry in Q. rewrite Rmult_0_l in Q. apply three_squares in Q. apply vec_eq; tauto.
Qed.
Lemma shear_normal e0 e1 e2 : eigenvectors_of 3 m [e0; e1; e2] ->
  exists l v, longest_cross (map real3 [e0; e1; e2]) [(0%nat, 1%nat); (0%nat, 2%nat); (1%nat, 2%nat)] (-1) (V3 0 0 0) = Ok (l, v) /\ 0 < l /\
    (V3 (vx v / l) (vy v / l) (vz v / l) = u \/ V3 (vx v / l) (vy v / l) (vz v / l) = times (-1) u).
Proof.
  intros E. assert (U : inner u u = 1) by exact (unit_one n NN).
  assert (F : forall e, In e [e0; e1; e2] -> inner (real3 e) (real3 e) = 1 /\ inner u (real3 e) = 0).
  { intros e I. assert (EV := listed_ok _ _ _ _ E I). destruct (shear_vector e EV) as (_ & B & C). split; [exact (real3_unit _ e EV B)|exact C]. }
  destruct (longest_three (real3 e0) (real3 e1) (real3 e2)) as (i & j & Ii & Ij & L & L0 & L1 & L2). cbn [map]. exists (vector_norm (vcross i j)), (vcross i j). split; [exact L|].
  assert (P : 0 < vector_norm (vcross i j)).
  { destruct (Rle_lt_or_eq_dec 0 (vector_norm (vcross i j)) (norm_nonneg _)) as [H|H]; [exact H|]. exfalso.
    assert (Z0 := zero_norm _ ltac:(rewrite H; exact L0)). assert (Z1 := zero_norm _ ltac:(rewrite H; exact L1)).
    assert (X : real3 e0 = vzero).
    { apply (shear_span _ E); [apply F; left; reflexivity|]. intros e [<-|[<-|[<-|[]]]].
      - exists 1. unfold times. destruct (real3 e0); cbn. f_equal; ring.
      - apply parallel_units; [apply F; cbn; tauto|apply F; cbn; tauto|exact Z0].
      - apply parallel_units; [apply F; cbn; tauto|apply F; cbn; tauto|exact Z1]. }
    assert (Y := proj1 (F e0 (or_introl eq_refl))). rewrite X in Y. unfold inner, vzero in Y; cbn in Y. lra. }
  split; [exact P|].
  assert (FF : forall x, In x [real3 e0; real3 e1; real3 e2] -> inner u x = 0) by (intros x [<-|[<-|[<-|[]]]]; apply F; cbn; tauto).
  apply unit_pm; [exact U| |].
  - assert (Q := norm_sq (vcross i j)). set (s := vector_norm (vcross i j)) in *. clearbody s. destruct (vcross i j). unfold inner in *; cbn in *.
    replace (vx / s * (vx / s) + vy / s * (vy / s) + vz / s * (vz / s)) with ((vx * vx + vy * vy + vz * vz) / (s * s)) by (field; lra). rewrite <- Q. field. lra.
  - destruct (cross_normal u i j U (FF i Ii) (FF j Ij)) as (r & R). exists (r / vector_norm (vcross i j)). generalize (vector_norm (vcross i j)) P. intros s Ps. rewrite R. clear - Ps. generalize u. intros u0. unfold times; cbn. f_equal; field; lra.
Qed.
Lemma shear_direction eps x : eps = 1 \/ eps = -1 -> x = times eps u -> dot_less_identity m x = times (t * eps) w.
Proof.
  intros _ ->. assert (U : inner u u = 1) by exact (unit_one n NN). revert built. unfold shear_matrix. destruct (Rlt_dec _ _); [discriminate|]. intros B. injection B as <-. fold u w t. clearbody u w t. unfold inner in U.
  unfold dot_less_identity, set_column, add33, identity4, vouter, times; cbn.
  assert (G : forall y, t * (y * vx u) * (eps * vx u) + t * (y * vy u) * (eps * vy u) + t * (y * vz u) * (eps * vz u) = t * eps * y).
  { intros y. replace (t * (y * vx u) * (eps * vx u) + t * (y * vy u) * (eps * vy u) + t * (y * vz u) * (eps * vz u)) with (t * eps * y * (vx u * vx u + vy u * vy u + vz u * vz u)) by ring. rewrite U. ring. }
  apply vec_eq; cbn; rewrite <- G; ring.
Qed.
Lemma shear_again eps q : eps = 1 \/ eps = -1 -> on_plane p n q -> let s := Rabs t in
  exists m', shear_matrix (atan s) (times (t * eps / s) w) q (times eps u) = Ok m' /\ same4 m' m.
Proof.
  intros EP O s. assert (U : inner u u = 1) by exact (unit_one n NN). assert (W : inner w w = 1) by exact (unit_one d ND). assert (BB : t <> 0) by exact BENT.
  assert (SP : 0 < s) by (apply Rabs_pos_lt; exact BB). assert (EE : eps * eps = 1) by (destruct EP as [->| ->]; ring).
  assert (SS : s * s = t * t) by (unfold s, Rabs; destruct (Rcase_abs t); ring).
  assert (U' : inner (times eps u) (times eps u) = 1) by (rewrite inner_times, inner_times_r, U; lra).
  assert (W' : inner (times (t * eps / s) w) (times (t * eps / s) w) = 1).
  { rewrite inner_times, inner_times_r, W. replace (t * eps / s * (t * eps / s * 1)) with (t * t * (eps * eps) / (s * s)) by (field; lra). rewrite EE, SS. field. exact BB. }
  unfold shear_matrix. rewrite (unit_same _ U'), (unit_same _ W'). change (vdot (times eps u) (times (t * eps / s) w)) with (inner (times eps u) (times (t * eps / s) w)).
  rewrite inner_times, inner_times_r, (proj2 ortho_unit), !Rmult_0_r, Rabs_R0. destruct (Rlt_dec (1 / 10 ^ 6) 0) as [Z|_]; [generalize (tol_pos 6); lra|].
  eexists. split; [reflexivity|]. rewrite tan_atan.
  assert (OQ : inner q u = inner p u) by (apply plane_unit; assumption).
  revert built. unfold shear_matrix. destruct (Rlt_dec _ _); [discriminate|]. intros B. injection B as <-. fold u w t. change (vdot q (times eps u)) with (inner q (times eps u)). rewrite inner_times_r, OQ. change (vdot p u) with (inner p u).
  generalize (inner p u). intros k. clearbody u w s t. clear -SP EE.
  assert (G : forall x y, s * (t * eps / s * x * (eps * y)) = t * (x * y)) by (intros x y; replace (s * (t * eps / s * x * (eps * y))) with (t * (eps * eps) * (x * y)) by (field; lra); rewrite EE; ring).
  assert (H : forall x, - s * (eps * k) * (t * eps / s * x) = - t * k * x) by (intros x; replace (- s * (eps * k) * (t * eps / s * x)) with (- t * (eps * eps) * k * x) by (field; lra); rewrite EE; ring).
  entries; try lia; unfold set_column, add33, identity4, vouter, times; cbn; rewrite ?G, ?H; reflexivity.
Qed.
Lemma shear_back eig : eigenvectors_of 3 m (eig 3%nat m) -> eigenvectors_of 4 m (eig 4%nat m) ->
  exists a' d' q n', shear_from_matrix eig m = Ok (a', d', q, n') /\ 0 < a' < PI / 2 /\ tan a' = Rabs (tan a) /\ unit_length d' /\ unit_length n' /\ parallel d' d /\ parallel n' n /\
    forall q', q = Some q' -> on_plane p n q' /\ exists m', shear_matrix a' d' q' n' = Ok m' /\ same4 m' m.
Proof.
  intros E3 E4. assert (BB : t <> 0) by exact BENT. assert (U : inner u u = 1) by exact (unit_one n NN). assert (W : inner w w = 1) by exact (unit_one d ND).
  assert (KEEP : where_near 1 (1 / 10 ^ 4) (eig 3%nat m) = eig 3%nat m).
  { unfold where_near. assert (G : forall l, (forall e, In e l -> near 1 (1 / 10 ^ 4) e = true) -> filter (near 1 (1 / 10 ^ 4)) l = l).
    { induction l as [|y l IH]; [reflexivity|]. intros H. cbn [filter]. rewrite (H y (or_introl eq_refl)). f_equal. apply IH. intros z Hz. apply H. right; exact Hz. }
    apply G. intros e I. apply near_iff. destruct (shear_vector e (listed_ok _ _ _ _ E3 I)) as (-> & _). rewrite Rminus_diag_eq, Rabs_R0 by reflexivity. apply tol_pos. }
  unfold shear_from_matrix. rewrite KEEP. cbv zeta. destruct (fixed_point m _ p shear_affine E4 (proj2 (shear_fixed p) (on_itself p n))) as (e4 & L4 & _ & Q). rewrite L4.
  pose proof (proj1 E3) as LEN. destruct (eig 3%nat m) as [|e0 [|e1 [|e2 [|e3 rest]]]] eqn:EG; try discriminate LEN. clear LEN.
  cbn [length Nat.ltb Nat.leb]. destruct (shear_normal e0 e1 e2 E3) as (l & v & LC & LP & NV). rewrite LC. cbn [bind].
  set (n' := V3 (vx v / l) (vy v / l) (vz v / l)) in *.
  assert (EP : exists eps, (eps = 1 \/ eps = -1) /\ n' = times eps u).
  { destruct NV as [NV|NV]; [exists 1|exists (-1)]; (split; [tauto|]); rewrite NV; [unfold times; destruct u; cbn; f_equal; ring|reflexivity]. }
  destruct EP as (eps & EP & EN). clearbody n'. subst n'. rewrite (shear_direction eps (times eps u) EP eq_refl).
  assert (EE : eps * eps = 1) by (destruct EP as [->| ->]; ring).
  assert (NT : vector_norm (times (t * eps) w) = Rabs t).
  { unfold vector_norm. change (vdot (times (t * eps) w) (times (t * eps) w)) with (inner (times (t * eps) w) (times (t * eps) w)). rewrite inner_times, inner_times_r, W.
    replace (t * eps * (t * eps * 1)) with (t * t) by (replace (t * eps * (t * eps * 1)) with (t * t * (eps * eps)) by ring; rewrite EE; ring). apply sqrt_Rsqr_abs. }
  rewrite NT. set (s := Rabs t) in *. assert (SP : 0 < s) by (apply Rabs_pos_lt; exact BB).
  assert (ED : V3 (vx (times (t * eps) w) / s) (vy (times (t * eps) w) / s) (vz (times (t * eps) w) / s) = times (t * eps / s) w).
  { clearbody s w. unfold times; cbn. f_equal; field; lra. }
  rewrite ED. exists (atan s), (times (t * eps / s) w), (real_point e4), (times eps u). split; [reflexivity|].
  split; [split; [rewrite <- atan_0; apply atan_increasing; exact SP|apply atan_bound]|]. split; [apply tan_atan|].
  assert (SS : s * s = t * t) by (unfold s, Rabs; destruct (Rcase_abs t); ring).
  split. { unfold unit_length. rewrite inner_times, inner_times_r, W. replace (t * eps / s * (t * eps / s * 1)) with (t * t * (eps * eps) / (s * s)) by (field; lra). rewrite EE, SS. field. exact BB. }
  split. { unfold unit_length. rewrite inner_times, inner_times_r, U. lra. }
  split; [apply parallel_unit; [exact ND|exists (t * eps / s); reflexivity]|]. split; [apply parallel_unit; [exact NN|exists eps; reflexivity]|].
  intros q' H. assert (O := proj1 (shear_fixed q') (Q q' H)). split; [exact O|]. exact (shear_again eps q' EP O).
Qed.
End Shear.
