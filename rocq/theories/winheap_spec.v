(** * What can be observed of windows, and well-formed heaps. *)

From Coq Require Import List ZArith QArith Bool.
Import ListNotations.
From Verif Require Import Py window_model winheap_model.

Section Spec.
Context {O A P : Type}.

(** The contents of a window, with the samples of an array window in place of
    the cells that hold them. *)
Definition contents (cs : list A) (w : leaf O nat P) : leaf O (option A) P :=
  match w with
  | LB b => LB b
  | LA a => LA (Arrw (a_start a) (a_end a) (a_rate a) (map (nth_error cs) (a_data a)))
  | LW v => LW v
  end.

Definition observe_leaf (s : st O A P) (r : nat) : option (leaf O (option A) P) :=
  option_map (contents (cells s)) (nth_error (leafs s) r).
Definition observe_list (s : st O A P) (l : nat) : option (list (option (leaf O (option A) P))) :=
  option_map (map (observe_leaf s)) (nth_error (lists s) l).

(** Everything that can be read through a reference. *)
Inductive observation :=
| SeeLeaf (w : option (leaf O (option A) P))
| SeeList (ws : option (list (option (leaf O (option A) P))))
| SeeCat (ws : option (list (option (leaf O (option A) P)))).
Definition observe (s : st O A P) (v : ref) : observation :=
  match v with
  | RLeaf r => SeeLeaf (observe_leaf s r)
  | RList l => SeeList (observe_list s l)
  | RCat c => SeeCat (match nth_error (cats s) c with Some l => observe_list s l | None => None end)
  end.

(** The reference exists. *)
Definition valid (s : st O A P) (v : ref) : Prop :=
  match v with
  | RLeaf r => (r < length (leafs s))%nat
  | RList l => (l < length (lists s))%nat
  | RCat c => (c < length (cats s))%nat
  end.

(** No dangling reference in the heap. *)
Definition leaf_closed (s : st O A P) (w : leaf O nat P) : Prop :=
  match w with LA a => Forall (fun k => (k < length (cells s))%nat) (a_data a) | _ => True end.
Definition well_formed (s : st O A P) : Prop :=
  (forall r w, nth_error (leafs s) r = Some w -> leaf_closed s w) /\
  (forall l rs, nth_error (lists s) l = Some rs -> Forall (fun r => (r < length (leafs s))%nat) rs) /\
  (forall c l, nth_error (cats s) c = Some l -> (l < length (lists s))%nat).

(** The program never assigns to an item of an array. *)
Definition no_array_write (h : list (op O A P)) : Prop :=
  Forall (fun o => match o with Write _ _ _ => False | _ => True end) h.

(** No array window is seen through the reference. *)
Definition not_array (w : option (leaf O (option A) P)) : Prop :=
  match w with Some (LA _) => False | _ => True end.
Definition without_arrays (s : st O A P) (v : ref) : Prop :=
  match observe s v with
  | SeeLeaf w => not_array w
  | SeeList ws | SeeCat ws =>
      match ws with Some l => Forall not_array l | None => True end
  end.
End Spec.
