(** * Specification for learner.py. *)

From Coq Require Import List ZArith Reals Bool Arith String.
Import ListNotations.
From Verif Require Import Py nd_model nd_spec sparse_model nmf_model nmf_spec learner_model.
Local Open Scope R_scope.

(** A learner made for distinct modalities with one dimension and one coefficient
    each. *)
Definition well_formed (l : learner) : Prop :=
  NoDup (mods l) /\ List.length (dims l) = List.length (mods l) /\ List.length (coefs l) = List.length (mods l).

(** The dimension and the coefficient of a modality, found by its name. *)
Fixpoint assoc {A} (d : A) (m : string) (l : list (string * A)) : A :=
  match l with
  | [] => d
  | (m', a) :: l' => if string_dec m m' then a else assoc d m l'
  end.
Definition dim_of (l : learner) (m : string) : nat := assoc 0%nat m (combine (mods l) (dims l)).
Definition coef_of (l : learner) (m : string) : R := assoc 0 m (combine (mods l) (coefs l)).

(** The number of columns of some modalities side by side. *)
Definition width (l : learner) (ms : list string) : nat := list_sum (map (dim_of l) ms).

(** A data matrix of [n] rows and [d] columns. *)
Definition fits (n d : nat) (x : matrix) : Prop :=
  match x with
  | Dense a => shape a = [n; d]
  | Sparse s => csr_shape s = [n; d] /\ in_range s
  end.

(** A trained learner. *)
Definition trained (l : learner) (d : nd) : Prop :=
  dico l = Some d /\ shape d = [lk l; width l (mods l)].
