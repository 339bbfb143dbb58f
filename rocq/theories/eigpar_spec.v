(** * What numpy.linalg.eig answers, and the parameters of a matrix (C114, C115). *)

From Coq Require Import List Reals.
Import ListNotations.
From Verif Require Import Py transf_model affine_model affine2_model affine_spec affine2_spec eigpar_model.
Local Open Scope R_scope.

(** ** Eigenvectors *)
Fixpoint total (n : nat) (f : nat -> R) : R := match n with 0%nat => 0 | Datatypes.S k => total k f + f k end.
(** Row [i] of the product of a matrix of dimension [n] and a vector. *)
Definition product (n : nat) (m : mat4) (v : nat -> R) (i : nat) : R := total n (fun j => m i j * v j).
(** A complex vector of length 1 is multiplied by a complex number.  For a real value the
    vector is real, as LAPACK's geev gives it. *)
Definition eigenvector (n : nat) (m : mat4) (e : eigenpair) : Prop :=
  (forall i, (i < n)%nat -> product n m (re_vector e) i = re_value e * re_vector e i - im_value e * im_vector e i) /\
  (forall i, (i < n)%nat -> product n m (im_vector e) i = im_value e * re_vector e i + re_value e * im_vector e i) /\
  total n (fun i => re_vector e i * re_vector e i + im_vector e i * im_vector e i) = 1 /\
  (im_value e = 0 -> forall i, (i < n)%nat -> im_vector e i = 0).
(** A sum of multiples of the vectors listed with a real value. *)
Inductive combined (n : nat) (value : R) : list eigenpair -> (nat -> R) -> Prop :=
| combined_nil v : (forall i, (i < n)%nat -> v i = 0) -> combined n value [] v
| combined_skip e l v : combined n value l v -> combined n value (e :: l) v
| combined_add e l v w t : combined n value l v -> re_value e = value -> im_value e = 0 ->
    (forall i, (i < n)%nat -> w i = v i + t * re_vector e i) -> combined n value (e :: l) w.
(** As many pairs as the dimension, and every real eigenvector is made of the listed ones. *)
Definition eigenvectors_of (n : nat) (m : mat4) (l : list eigenpair) : Prop :=
  length l = n /\ Forall (eigenvector n m) l /\
  (forall value v, (forall i, (i < n)%nat -> product n m v i = value * v i) -> combined n value l v).

(** ** Points and directions *)
Definition unit_length (v : vec3) : Prop := inner v v = 1.
Definition on_axis (point direction p : vec3) : Prop := parallel (vsub p point) direction.
