(** * Specification of concatenations that contain concatenations, and of saved wav files. *)

From Coq Require Import List ZArith QArith Bool.
Import ListNotations.
From Verif Require Import Py window_model window_spec winnest_model.
Local Open Scope Q_scope.

Section Spec.
Context {O A P : Type}.
Notation tree := (tree O A P).

(** The windows that are not concatenations, in the order of time. *)
Fixpoint t_leaves (w : tree) : list (leaf O A P) :=
  match w with TLeaf l => [l] | TCat ws => flat_map t_leaves ws end.
(** No concatenation is empty (the constructor refuses it). *)
Inductive filled : tree -> Prop :=
| filled_leaf l : filled (TLeaf l)
| filled_cat ws : ws <> [] -> Forall filled ws -> filled (TCat ws).
(** What the constructor accepts, at every level. *)
Inductive built : tree -> Prop :=
| built_leaf l : built (TLeaf l)
| built_cat ws : Forall built ws -> new_cat ws = Ok (TCat ws) -> built (TCat ws).

(** Basic windows with the same object and the same times. *)
Definition same_basic (p q : basic O) : Prop := b_obj p = b_obj q /\ b_start p == b_start q /\ b_end p == b_end q.
(** What is left of a sequence of basic windows from time [a] on: windows that end before
    [a] go, the next one begins at [a]. *)
Fixpoint from_time (a : Q) (bs : list (basic O)) : list (basic O) :=
  match bs with
  | [] => []
  | p :: l => if Qlt_le_dec (b_end p) a then from_time a l else Basic a (b_end p) (b_obj p) :: l
  end.
(** Up to time [b]: the first window that does not end before [b] ends there. *)
Fixpoint to_time (b : Q) (bs : list (basic O)) : list (basic O) :=
  match bs with
  | [] => []
  | p :: l => if Qlt_le_dec (b_end p) b then p :: to_time b l else [Basic (b_start p) b (b_obj p)]
  end.
(** Windows that cut [lo ... hi]; only the first may have no duration. *)
Definition lasting (lo : Q) (bs : list (basic O)) (hi : Q) : Prop :=
  tiles lo (map (fun p => (b_start p, b_end p)) bs) hi /\ forall p, In p (tl bs) -> b_start p < b_end p.
(** Array and wav windows have a rate, basic windows have none. *)
Inductive has_rate : leaf O A P -> Q -> Prop :=
| rate_array a : has_rate (LA a) (a_rate a)
| rate_wav v : has_rate (LW v) (v_rate v).
End Spec.
