(** * Lemmas on eigenvectors of matrices that differ from a multiple of the identity by a
      matrix of rank one, and on the choice of eigenvectors. *)

From Coq Require Import List Reals Lia Lra Arith Bool.
Import ListNotations.
From Verif Require Import Py transf_model affine_model affine2_model affine_spec affine2_spec affine_proof affine2_proof eigpar_model eigpar_spec.
Local Open Scope R_scope.

(** ** Squares *)
Lemma squares_zero a b : a * a + b * b = 0 -> a = 0 /\ b = 0.
Proof. intros H. split; nra. Qed.
Lemma complex_zero a b x y : a * x = - b * y -> a * y = b * x -> (x <> 0 \/ y <> 0) -> a = 0 /\ b = 0.
Proof.
  intros H K N. assert (E : (a * a + b * b) * (x * x + y * y) = 0).
  { replace ((a * a + b * b) * (x * x + y * y)) with ((a * x) * (a * x) + (a * y) * (a * y) + (b * x) * (b * x) + (b * y) * (b * y)) by ring.
    rewrite <- K. replace (b * y) with (- (a * x)) by lra.
    assert (J : a * (a * x * x + a * y * y) = 0).
    { replace (a * (a * x * x + a * y * y)) with (a * x * (a * x) + a * y * (a * y)) by ring. rewrite H at 2. rewrite K at 2.
      replace (a * x * (- b * y) + a * y * (b * x)) with 0 by ring. reflexivity. }
    nra. }
  apply squares_zero. apply Rmult_integral in E. destruct E as [E|E]; [exact E|]. exfalso. assert (x = 0 /\ y = 0) by (apply squares_zero; exact E). tauto.
Qed.

Lemma total_ext n f g : (forall i, (i < n)%nat -> f i = g i) -> total n f = total n g.
Proof. intros H. induction n as [|n IH]; [reflexivity|]. cbn. rewrite IH by (intros; apply H; lia). rewrite H by lia. reflexivity. Qed.
Lemma total_zero n f : (forall i, (i < n)%nat -> f i = 0) -> total n f = 0.
Proof. intros H. induction n as [|n IH]; [reflexivity|]. cbn. rewrite IH by (intros; apply H; lia). rewrite H by lia. ring. Qed.
Lemma nonzero_or n f g : total n (fun i => f i * f i + g i * g i) = 1 -> exists i, (i < n)%nat /\ (f i <> 0 \/ g i <> 0).
Proof.
  induction n as [|n IH]; [cbn; lra|]. cbn. intros H.
  destruct (Req_EM_T (f n) 0) as [F|F]; [destruct (Req_EM_T (g n) 0) as [G|G]|].
  - rewrite F, G in H. destruct IH as (i & L & K); [lra|]. exists i. split; [lia|exact K].
  - exists n. split; [lia|tauto].
  - exists n. split; [lia|tauto].
Qed.
Lemma eigenvector_facts n m e : eigenvector n m e ->
  (forall i, (i < n)%nat -> product n m (re_vector e) i = re_value e * re_vector e i - im_value e * im_vector e i) /\
  (forall i, (i < n)%nat -> product n m (im_vector e) i = im_value e * re_vector e i + re_value e * im_vector e i) /\
  (exists i, (i < n)%nat /\ (re_vector e i <> 0 \/ im_vector e i <> 0)) /\
  (im_value e = 0 -> (forall i, (i < n)%nat -> im_vector e i = 0) /\ total n (fun i => re_vector e i * re_vector e i) = 1).
Proof.
  intros (A & B & C & D). split; [exact A|split; [exact B|split; [exact (nonzero_or n _ _ C)|]]]. intros Z. split; [exact (D Z)|].
  rewrite <- C. apply total_ext. intros i H. rewrite (D Z i H). ring.
Qed.

Section Rank.
Variables (n : nat) (m : mat4) (a : R) (phi : (nat -> R) -> R) (u : nat -> R).
Hypothesis shape : forall v i, (i < n)%nat -> product n m v i = a * v i - phi v * u i.
Hypothesis linear : forall s t x y w, (forall i, (i < n)%nat -> w i = s * x i + t * y i) -> phi w = s * phi x + t * phi y.

Lemma rank_one e : eigenvector n m e ->
  (re_value e = a /\ im_value e = 0 /\ forall i, (i < n)%nat -> phi (re_vector e) * u i = 0) \/
  (re_value e = a - phi u /\ im_value e = 0 /\ phi u <> 0 /\ forall i, (i < n)%nat -> phi u * re_vector e i = phi (re_vector e) * u i).
Proof.
  intros E. apply eigenvector_facts in E. destruct E as (HR & HI & (k & LK & NZ) & _).
  set (x := phi (re_vector e)). set (y := phi (im_vector e)). set (c := phi u).
  assert (PR : forall i, (i < n)%nat -> a * re_vector e i - x * u i = re_value e * re_vector e i - im_value e * im_vector e i) by (intros i H; rewrite <- shape, HR by exact H; reflexivity).
  assert (PJ : forall i, (i < n)%nat -> a * im_vector e i - y * u i = im_value e * re_vector e i + re_value e * im_vector e i) by (intros i H; rewrite <- shape, HI by exact H; reflexivity).
  assert (X : a * x - x * c = re_value e * x - im_value e * y).
  { assert (A := linear a (- x) (re_vector e) u (fun i => a * re_vector e i - x * u i) ltac:(intros; cbv beta; ring)).
    assert (B := linear (re_value e) (- im_value e) (re_vector e) (im_vector e) (fun i => a * re_vector e i - x * u i) ltac:(intros i H; cbv beta; rewrite PR by exact H; ring)).
    fold x y c in A, B. lra. }
  assert (Y : a * y - y * c = im_value e * x + re_value e * y).
  { assert (A := linear a (- y) (im_vector e) u (fun i => a * im_vector e i - y * u i) ltac:(intros; cbv beta; ring)).
    assert (B := linear (im_value e) (re_value e) (re_vector e) (im_vector e) (fun i => a * im_vector e i - y * u i) ltac:(intros i H; cbv beta; rewrite PJ by exact H; ring)).
    fold x y c in A, B. lra. }
  destruct (Req_EM_T x 0) as [X0|X0]; [destruct (Req_EM_T y 0) as [Y0|Y0]|].
  - left. assert (E : a - re_value e = 0 /\ im_value e = 0).
    { apply (complex_zero _ _ (re_vector e k) (im_vector e k)); [| |exact NZ].
      - generalize (PR k LK). rewrite X0. lra.
      - generalize (PJ k LK). rewrite Y0. lra. }
    split; [lra|split; [tauto|]]. intros i _. rewrite X0. ring.
  - assert (E : a - c - re_value e = 0 /\ im_value e = 0) by (apply (complex_zero _ _ x y); [lra|lra|tauto]).
    destruct E as (E1 & E2). destruct (Req_EM_T c 0) as [C0|C0].
    + left. split; [lra|split; [tauto|]]. intros i H. generalize (PR i H). rewrite E2. replace (re_value e) with a by lra. lra.
    + right. split; [lra|split; [tauto|split; [exact C0|]]]. intros i H. generalize (PR i H). rewrite E2. replace (re_value e) with (a - c) by lra. lra.
  - assert (E : a - c - re_value e = 0 /\ im_value e = 0) by (apply (complex_zero _ _ x y); [lra|lra|tauto]).
    destruct E as (E1 & E2). destruct (Req_EM_T c 0) as [C0|C0].
    + left. split; [lra|split; [tauto|]]. intros i H. generalize (PR i H). rewrite E2. replace (re_value e) with a by lra. lra.
    + right. split; [lra|split; [tauto|split; [exact C0|]]]. intros i H. generalize (PR i H). rewrite E2. replace (re_value e) with (a - c) by lra. lra.
Qed.
End Rank.

(** ** What is listed *)
Lemma combined_found n value l v i : combined n value l v -> (i < n)%nat -> v i <> 0 -> exists e, In e l /\ re_value e = value /\ im_value e = 0.
Proof.
  intros C L. revert i L. induction C as [v Z|e l v C IH|e l v w t C IH RV IV W]; intros i L NZ.
  - exfalso. apply NZ, Z, L.
  - destruct (IH i L NZ) as (e' & I & V). exists e'. split; [right; exact I|exact V].
  - exists e. split; [left; reflexivity|tauto].
Qed.
Lemma listed n m l value v i : eigenvectors_of n m l -> (forall j, (j < n)%nat -> product n m v j = value * v j) -> (i < n)%nat -> v i <> 0 ->
  exists e, In e l /\ re_value e = value /\ im_value e = 0.
Proof. intros (_ & _ & C) H L NZ. exact (combined_found n value l v i (C value v H) L NZ). Qed.
Lemma listed_ok n m l e : eigenvectors_of n m l -> In e l -> eigenvector n m e.
Proof. intros (_ & F & _). apply Forall_forall. exact F. Qed.

Lemma near_iff value tol e : near value tol e = true <-> Rabs (re_value e - value) < tol.
Proof. unfold near. destruct (Rlt_dec _ _); split; intros; try reflexivity; try assumption; try discriminate; contradiction. Qed.
Lemma in_near value tol l e : In e (where_near value tol l) <-> In e l /\ Rabs (re_value e - value) < tol.
Proof. unfold where_near. rewrite filter_In, near_iff. tauto. Qed.
Lemma in_away tol l e : In e (where_away tol l) <-> In e l /\ tol < Rabs (re_value e).
Proof. unfold where_away. rewrite filter_In. destruct (Rlt_dec _ _); intuition discriminate. Qed.
Lemma first_in l e : first_of l = Ok e -> In e l.
Proof. destruct l; cbn; intros H; inversion H; subst. left; reflexivity. Qed.
Lemma last_in l e : last_of l = Ok e -> In e l.
Proof. unfold last_of. destruct (rev l) as [|x r] eqn:E; intros H; inversion H; subst. apply in_rev. rewrite E. left; reflexivity. Qed.
Lemma first_some l e : In e l -> exists e', first_of l = Ok e'.
Proof. destruct l as [|x l]; [intros []|]. intros _. exists x. reflexivity. Qed.
Lemma last_some l e : In e l -> exists e', last_of l = Ok e'.
Proof.
  intros H. unfold last_of. destruct (rev l) as [|x r] eqn:E; [|exists x; reflexivity]. apply in_rev in H. rewrite E in H. destruct H.
Qed.
Lemma first_none l : (forall e, ~ In e l) -> first_of l = Err ValueError.
Proof. destruct l as [|x l]; [reflexivity|]. intros H. exfalso. apply (H x). left; reflexivity. Qed.
Lemma last_none l : (forall e, ~ In e l) -> last_of l = Err ValueError.
Proof. destruct l as [|x l]; [reflexivity|]. intros H. exfalso. apply (H x). left; reflexivity. Qed.
Lemma tol_pos k : 0 < 1 / 10 ^ k.
Proof. unfold Rdiv. rewrite Rmult_1_l. apply Rinv_0_lt_compat, pow_lt. lra. Qed.
Lemma near_self value tol l e : In e l -> re_value e = value -> 0 < tol -> In e (where_near value tol l).
Proof. intros I E P. apply in_near. split; [exact I|]. rewrite E, Rminus_diag_eq, Rabs_R0 by reflexivity. exact P. Qed.
Lemma choose_first value tol l e : In e l -> re_value e = value -> 0 < tol -> exists e', first_of (where_near value tol l) = Ok e' /\ In e' l /\ Rabs (re_value e' - value) < tol.
Proof.
  intros I E P. destruct (first_some _ e (near_self value tol l e I E P)) as (e' & H). exists e'. split; [exact H|]. apply in_near, first_in, H.
Qed.
Lemma choose_last value tol l e : In e l -> re_value e = value -> 0 < tol -> exists e', last_of (where_near value tol l) = Ok e' /\ In e' l /\ Rabs (re_value e' - value) < tol.
Proof.
  intros I E P. destruct (last_some _ e (near_self value tol l e I E P)) as (e' & H). exists e'. split; [exact H|]. apply in_near, last_in, H.
Qed.

(** ** Points *)
Definition affine_rows (m : mat4) : Prop := m 3%nat 0%nat = 0 /\ m 3%nat 1%nat = 0 /\ m 3%nat 2%nat = 0 /\ m 3%nat 3%nat = 1.
Lemma point_fixed m e q : affine_rows m -> eigenvector 4 m e -> real_point e = Some q ->
  re_value e = 1 /\ im_value e = 0 /\ image m q q.
Proof.
  intros (A0 & A1 & A2 & A3) (HR & HI & _ & RL) Q. unfold real_point in Q.
  destruct (Req_EM_T (re_vector e 3%nat) 0) as [W|W]; [discriminate|]. inversion Q; subst q; clear Q.
  assert (R3 := HR 3%nat ltac:(lia)). assert (I3 := HI 3%nat ltac:(lia)).
  unfold product, total in R3, I3. rewrite A0, A1, A2, A3 in R3, I3.
  assert (E : 1 - re_value e = 0 /\ im_value e = 0) by (apply (complex_zero _ _ (re_vector e 3%nat) (im_vector e 3%nat)); [lra|lra|tauto]).
  destruct E as (E1 & E2). assert (E3 : re_value e = 1) by lra. split; [exact E3|split; [exact E2|]].
  apply image_affine; [assumption..|].
  assert (HR0 := HR 0%nat ltac:(lia)). assert (HR1 := HR 1%nat ltac:(lia)). assert (HR2 := HR 2%nat ltac:(lia)).
  unfold product, total in HR0, HR1, HR2. rewrite E2, E3 in HR0, HR1, HR2.
  apply vec_eq; cbn [vx vy vz]; unfold row_at; cbn [vx vy vz]; apply (Rmult_eq_reg_r (re_vector e 3%nat)); try exact W; field_simplify; try exact W; lra.
Qed.
Lemma fixed_listed m l q : affine_rows m -> eigenvectors_of 4 m l -> image m q q -> exists e, In e l /\ re_value e = 1 /\ im_value e = 0.
Proof.
  intros A E I. pose proof A as (A0 & A1 & A2 & A3). apply (listed 4 m l 1 (fun i => match i with 3%nat => 1 | _ => coord q i end) 3%nat E); [|lia|lra].
  apply image_affine in I; [|assumption..].
  assert (I0 := f_equal vx I). assert (I1 := f_equal vy I). assert (I2 := f_equal vz I). clear I. unfold row_at in I0, I1, I2. cbn [vx vy vz] in I0, I1, I2.
  intros j J. unfold product, total. destruct j as [|[|[|[|j]]]]; try lia; cbn [coord]; try rewrite A0, A1, A2, A3; lra.
Qed.
Lemma fixed_point m l q : affine_rows m -> eigenvectors_of 4 m l -> image m q q ->
  exists e, last_of (where_near 1 (1 / 10 ^ 8) l) = Ok e /\ In e l /\ forall q', real_point e = Some q' -> image m q' q'.
Proof.
  intros A E I. destruct (fixed_listed m l q A E I) as (e0 & I0 & V0 & _).
  destruct (choose_last 1 (1 / 10 ^ 8) l e0 I0 V0 (tol_pos 8)) as (e & H & IE & _). exists e. split; [exact H|split; [exact IE|]].
  intros q' Q. apply (point_fixed m e q' A (listed_ok _ _ _ _ E IE) Q).
Qed.
