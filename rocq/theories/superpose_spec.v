(** * The best superposition of two sets of points (C113). *)

From Coq Require Import List Reals.
Import ListNotations.
From Verif Require Import Py transf_model affine_model affine_spec superpose_model.
Local Open Scope R_scope.

(** A similarity: a right-handed frame takes the place of the axes, with a factor, then
    points are moved. *)
Definition similar (c : R) (e1 e2 e3 t p : vec3) : vec3 :=
  vadd (times c (vadd (times (vx p) e1) (vadd (times (vy p) e2) (times (vz p) e3)))) t.
Definition rigid (e1 e2 e3 t p : vec3) : vec3 := similar 1 e1 e2 e3 t p.
(** The sum of the squares of the distances to the second points. *)
Fixpoint deviation (f : vec3 -> vec3) (v0 v1 : list vec3) : R :=
  match v0, v1 with
  | p :: v0, q :: v1 => inner (vsub (f p) q) (vsub (f p) q) + deviation f v0 v1
  | _, _ => 0
  end.
(** The centre of some points. *)
Fixpoint total (v : list vec3) : vec3 := match v with [] => vzero | p :: v => vadd p (total v) end.
Definition centre (v : list vec3) (c : vec3) : Prop := total v = times (INR (length v)) c.

(** numpy.linalg.svd of a 3 x 3 matrix: orthonormal columns of u and rows of vh, singular
    values that decrease, and the product. *)
Definition ortho3 (a b c : vec3) : Prop := inner a a = 1 /\ inner b b = 1 /\ inner c c = 1 /\ inner a b = 0 /\ inner a c = 0 /\ inner b c = 0.
Definition decomposition (h : mat4) (d : mat4 * (nat -> R) * mat4) : Prop :=
  let '(u, s, vh) := d in
    ortho3 (V3 (u 0 0) (u 1 0) (u 2 0))%nat (V3 (u 0 1) (u 1 1) (u 2 1))%nat (V3 (u 0 2) (u 1 2) (u 2 2))%nat /\
    ortho3 (V3 (vh 0 0) (vh 0 1) (vh 0 2))%nat (V3 (vh 1 0) (vh 1 1) (vh 1 2))%nat (V3 (vh 2 0) (vh 2 1) (vh 2 2))%nat /\
    s 1%nat <= s 0%nat /\ s 2%nat <= s 1%nat /\ 0 <= s 2%nat /\
    forall i j, (i < 3)%nat -> (j < 3)%nat ->
      h i j = u i 0%nat * s 0%nat * vh 0%nat j + u i 1%nat * s 1%nat * vh 1%nat j + u i 2%nat * s 2%nat * vh 2%nat j.
Definition decomposes (svd : mat4 -> mat4 * (nat -> R) * mat4) : Prop := forall h, decomposition h (svd h).
(** numpy.linalg.eig of a symmetric 4 x 4 matrix: eigenvectors that span the space, none zero. *)
Definition symmetric4 (h : mat4) : Prop := forall i j, (i < 4)%nat -> (j < 4)%nat -> h i j = h j i.
Definition eigenbasis (h : mat4) (d : (nat -> R) * mat4) : Prop :=
  let '(l, v) := d in
    (forall i k, (i < 4)%nat -> (k < 4)%nat -> h i 0%nat * v 0%nat k + h i 1%nat * v 1%nat k + h i 2%nat * v 2%nat k + h i 3%nat * v 3%nat k = l k * v i k) /\
    (forall k, (k < 4)%nat -> exists i, (i < 4)%nat /\ v i k <> 0) /\
    (forall x : nat -> R, exists c : nat -> R, forall i, (i < 4)%nat -> x i = c 0%nat * v i 0%nat + c 1%nat * v i 1%nat + c 2%nat * v i 2%nat + c 3%nat * v i 3%nat).
Definition eigenvectors (eig : mat4 -> (nat -> R) * mat4) : Prop := forall h, symmetric4 h -> eigenbasis h (eig h).
(** The sum of the squares of the distances to a point. *)
Fixpoint spread (c : vec3) (v : list vec3) : R :=
  match v with [] => 0 | p :: v => inner (vsub p c) (vsub p c) + spread c v end.
(** Not all the same point; not all on a line. *)
Definition two_points (v : list vec3) : Prop := exists p q, In p v /\ In q v /\ p <> q.
Definition off_line (v : list vec3) : Prop := exists p q r, In p v /\ In q v /\ In r v /\ vcross (vsub q p) (vsub r p) <> vzero.
