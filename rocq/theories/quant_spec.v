(** * Distances, nearest centroids and association weights. *)

From Coq Require Import List ZArith Reals Bool.
Import ListNotations.
From Verif Require Import Py hac_model.
Local Open Scope R_scope.

Definition rect {A} (m : mat A) : Prop := Forall (fun r => length r = mcols m) (mrows m).

(** Squared Euclidean distance. *)
Fixpoint sq_dist (v c : list R) : R :=
  match v, c with
  | x :: v', y :: c' => (x - y) ^ 2 + sq_dist v' c'
  | _, _ => 0
  end.

(** [c] is the number of a centroid nearest to [v]; the first of them. *)
Definition nearest (cs : list (list R)) (v : list R) (c : nat) : Prop :=
  (c < length cs)%nat /\
  forall j, (j < length cs)%nat -> sq_dist v (nth c cs []) <= sq_dist v (nth j cs []).
Definition first_nearest (cs : list (list R)) (v : list R) (c : nat) : Prop :=
  nearest cs v c /\
  forall j, (j < c)%nat -> sq_dist v (nth c cs []) < sq_dist v (nth j cs []).

Fixpoint add_up (l : list R) : R :=
  match l with [] => 0 | x :: l' => x + add_up l' end.

(** A row of association weights of [v]. *)
Definition weights_of (cs : list (list R)) (v w : list R) : Prop :=
  length w = length cs /\ (forall x, In x w -> 0 < x) /\ add_up w = 1.

(** The row with 1 at position [c] and 0 elsewhere. *)
Definition one_hot (k c : nat) (w : list R) : Prop :=
  length w = k /\ (c < k)%nat /\ forall j, (j < k)%nat -> nth j w 0 = if Nat.eqb j c then 1 else 0.

(** scipy's vq: a nearest centroid for every row; ValueError when the numbers of
    columns differ or there is no centroid. *)
Definition is_vq (vq : mat R -> mat R -> result (list nat)) : Prop :=
  forall x cb, rect x -> rect cb -> mcols x = mcols cb -> mrows cb <> [] ->
  exists c, vq x cb = Ok c /\ Forall2 (nearest (mrows cb)) (mrows x) c.

(** What is used of the singular value decomposition and of kmeans2: the shapes. *)
Definition is_svd (svd : mat R -> result (list R * list (list R))) : Prop :=
  forall x, rect x -> mrows x <> [] -> (0 < mcols x)%nat ->
  exists s v, svd x = Ok (s, v) /\ s <> [] /\ v <> [] /\ Forall (fun r => length r = mcols x) v.
Definition is_kmeans2 (kmeans2 : mat R -> mat R -> result (mat R)) : Prop :=
  forall x c, rect x -> rect c -> mcols x = mcols c -> mrows x <> [] -> mrows c <> [] ->
  exists c', kmeans2 x c = Ok c' /\ rect c' /\ mcols c' = mcols c /\
    length (mrows c') = length (mrows c).

(** How many rows are associated with centroid [j]; [h] has the most. *)
Definition members (codes : list nat) (j : nat) : nat := count_occ Nat.eq_dec codes j.
Definition most_populated (codes : list nat) (k h : nat) : Prop :=
  (h < k)%nat /\ forall j, (j < k)%nat -> (members codes j <= members codes h)%nat.

(** [c] moved by [t] times [p]. *)
Definition moved (c p : list R) (t : R) (r : list R) : Prop :=
  length r = length c /\ forall j, (j < length c)%nat -> nth j r 0 = nth j c 0 + t * nth j p 0.
