(** * Conversions and joint angles. *)

From Coq Require Import List ZArith Arith Reals Bool String Lia Lra Psatz.
Import ListNotations.
From Verif Require Import Py Py_proof transf_model transf_spec transf_proof transf_euler.
Open Scope py_scope.
Local Open Scope R_scope.

(** ** Names *)
Ltac each_name H :=
  unfold AXES2TUPLE in H; cbn [In] in H;
  repeat (destruct H as [H|H]; [injection H as <- <-|]); try destruct H.

Lemma axes_of_in name ax : axes_of name = Ok ax -> In (name, ax) AXES2TUPLE.
Proof.
  unfold axes_of. destruct (dict_get String.eqb AXES2TUPLE name) as [a|] eqn:E; [|discriminate].
  intros F. injection F as <-. clear -E. induction AXES2TUPLE as [|(k & v) l IH]; [discriminate|].
  cbn in E. destruct (String.eqb k name) eqn:K.
  - apply String.eqb_eq in K. subst k. left. congruence.
  - right. apply IH, E.
Qed.

Lemma axes_of_known name ax : axes_of name = Ok ax -> known_axes ax.
Proof. intros H. exists name. apply axes_of_in, H. Qed.

Lemma axes_of_reading name ax : axes_of name = Ok ax -> exists r, reading name = Some r /\
  forall x y z, same3 (euler_matrix x y z ax) (composed r x y z).
Proof.
  intros H. apply axes_of_in in H. each_name H;
  (eexists; split; [vm_compute; reflexivity|]; intros x y z a b A B;
   destruct a as [|[|[|a]]]; try lia; destruct b as [|[|[|b]]]; try lia;
   cbn - [cos sin mul3]; unfold mul3, dot3, rows4; cbn [List.nth]; rewrite ?sin_neg, ?cos_neg; ring).
Qed.

Lemma lock_gap name ax r m : axes_of name = Ok ax -> reading name = Some r -> rotation m ->
  lock (repetition ax) (permuted (axis_i ax) (axis_j ax) (axis_k ax) m) = gap r m.
Proof.
  intros H E M. apply axes_of_in in H.
  pose proof (rotation_rows m M 0%nat ltac:(lia)). pose proof (rotation_rows m M 1%nat ltac:(lia)).
  pose proof (rotation_rows m M 2%nat ltac:(lia)).
  pose proof (rotation_columns m M 0%nat 0%nat ltac:(lia) ltac:(lia)).
  pose proof (rotation_columns m M 1%nat 1%nat ltac:(lia) ltac:(lia)).
  pose proof (rotation_columns m M 2%nat 2%nat ltac:(lia) ltac:(lia)).
  unfold delta, at4 in *. cbn [Nat.eqb] in *. clear M.
  each_name H; vm_compute in E; injection E as <-; unfold gap, lock;
    cbv [at4 permuted perm_of axis_i axis_j axis_k firstaxis parity nth NEXT_AXIS Nat.add Nat.sub middle repetition];
    apply f_equal; cbn [pow]; lra.
Qed.

(** ** Euler angles to a quaternion *)
Lemma qmat_ext q : norm2 q = 1 -> forall a b, (a < 4)%nat -> (b < 4)%nat ->
  quaternion_matrix q a b = qmat (qx q) (qy q) (qz q) (qw q) 1 a b.
Proof.
  intros N a b A B. rewrite qm_entries; [rewrite N; reflexivity|rewrite N|exact A|exact B].
  pose proof EPS_lt1. lra.
Qed.

Lemma quaternion_euler name ax x y z : axes_of name = Ok ax ->
  norm2 (quaternion_from_euler x y z ax) = 1 /\
  same3 (quaternion_matrix (quaternion_from_euler x y z ax)) (euler_matrix x y z ax).
Proof.
  intros H. apply axes_of_in in H.
  assert (D : forall t, sin t = 2 * sin (t / 2) * cos (t / 2) /\ cos t = 1 - 2 * sin (t / 2) ^ 2 /\
                        cos (t / 2) ^ 2 = 1 - sin (t / 2) ^ 2).
  { intros t. assert (T : t = 2 * (t / 2)) by field.
    pose proof (sin2_cos2 (t / 2)) as S. unfold Rsqr in S. repeat split.
    - rewrite T at 1. apply sin_2a.
    - rewrite T at 1. rewrite cos_2a_sin. ring.
    - cbn. lra. }
  destruct (D x) as (Sx & Cx & Px). destruct (D y) as (Sy & Cy & Py). destruct (D z) as (Sz & Cz & Pz).
  assert (N : norm2 (quaternion_from_euler x y z ax) = 1).
  { clear D Sx Sy Sz Cx Cy Cz. each_name H; unfold norm2; cbn - [cos sin pow Rdiv];
    rewrite ?Ropp_div, ?sin_neg, ?cos_neg;
    set (sx := sin (x / 2)) in *; set (sy := sin (y / 2)) in *; set (sz := sin (z / 2)) in *;
    set (cx := cos (x / 2)) in *; set (cy := cos (y / 2)) in *; set (cz := cos (z / 2)) in *;
    clearbody sx sy sz cx cy cz; ring [Px Py Pz]. }
  split; [exact N|]. intros a b A B. rewrite qmat_ext by (exact N || lia). clear N D.
  each_name H; unfold qmat;
    destruct a as [|[|[|a]]]; try lia; destruct b as [|[|[|b]]]; try lia;
    cbn - [cos sin pow Rdiv]; rewrite ?Ropp_div, ?sin_neg, ?cos_neg, ?Sx, ?Sy, ?Sz, ?Cx, ?Cy, ?Cz;
    set (sx := sin (x / 2)) in *; set (sy := sin (y / 2)) in *; set (sz := sin (z / 2)) in *;
    set (cx := cos (x / 2)) in *; set (cy := cos (y / 2)) in *; set (cz := cos (z / 2)) in *;
    clearbody sx sy sz cx cy cz; unfold Rdiv; rewrite Rinv_1; ring [Px Py Pz].
Qed.
