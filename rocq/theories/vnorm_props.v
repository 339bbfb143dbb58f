(** * C136: lengths of vectors and vectors of length 1. *)

From Coq Require Import List ZArith Reals Bool Lra Lia.
Import ListNotations.
From Verif Require Import Py nd_model nd_spec nd_proof vnorm_model vnorm_spec vnorm_proof.
Local Open Scope R_scope.

(** A single vector: the norm of its elements, whatever the axis. *)
Theorem C136_norm_vector : forall a n axis, shape a = [n] ->
  exists r, vector_norm a axis = Ok r /\ shape r = [] /\ el r [] = norm (entries a).
Proof. exact vector_norm_vec. Qed.
(** Without an axis: one number, the norm of all the elements. *)
Theorem C136_norm_all : forall a, length (shape a) <> 1%nat ->
  exists r, vector_norm a None = Ok r /\ shape r = [1%nat] /\ el r [0%nat] = norm (entries a).
Proof. exact vector_norm_all. Qed.
(** Along an axis: the axis is replaced by the norm of what lies along it. *)
Theorem C136_norm_axis : forall a z k, (2 <= length (shape a))%nat -> axis_number (length (shape a)) z = Some k ->
  exists r, vector_norm a (Some z) = Ok r /\ shape r = firstn k (shape a) ++ skipn (S k) (shape a) /\
    forall idx, valid (shape r) idx -> el r idx = norm (lane a k idx).
Proof. exact vector_norm_axis. Qed.
(** A vector that is not zero is brought to length 1, whatever the axis. *)
Theorem C136_unit_vector : forall a n axis, shape a = [n] -> Exists (fun x => x <> 0) (entries a) ->
  exists u, unit_vector a axis = Ok u /\ shape u = [n] /\ direction (entries a) (entries u).
Proof. exact unit_vec. Qed.
(** Without an axis, all the elements together are brought to length 1. *)
Theorem C136_unit_all : forall a, (2 <= length (shape a))%nat -> Exists (fun x => x <> 0) (entries a) ->
  exists u, unit_vector a None = Ok u /\ shape u = shape a /\ direction (entries a) (entries u).
Proof. exact unit_all. Qed.
(** Along an axis, every vector that is not zero is brought to length 1; an array out gets the
    same elements. *)
Theorem C136_unit_axis : forall a z k, (2 <= length (shape a))%nat -> axis_number (length (shape a)) z = Some k ->
  exists u, unit_vector a (Some z) = Ok u /\ unit_vector_out a (Some z) = Ok u /\ shape u = shape a /\
    forall idx, valid (firstn k (shape a) ++ skipn (S k) (shape a)) idx -> Exists (fun x => x <> 0) (lane a k idx) ->
      direction (lane a k idx) (lane u k idx).
Proof. exact unit_axis. Qed.
(** An axis that the array does not have is an error, except for a single vector. *)
Theorem C136_no_axis : forall a z, length (shape a) <> 1%nat -> axis_number (length (shape a)) z = None ->
  unit_vector a (Some z) = Err ValueError /\ vector_norm a (Some z) = Err ValueError.
Proof. exact unit_bad. Qed.
(** What vector_norm writes to an array out, and which arrays it can be given. *)
Theorem C136_norm_out : forall a axis o r, vector_norm_out a axis o = Ok r -> shape r = o /\
  match axis with
  | None => o = [] /\ el r [] = norm (entries a)
  | Some z => exists k, axis_number (length (shape a)) z = Some k /\ o = firstn k (shape a) ++ skipn (S k) (shape a) /\
      forall idx, valid o idx -> el r idx = norm (lane a k idx)
  end.
Proof. exact norm_out. Qed.
Theorem C136_norm_out_shape : forall a z k, axis_number (length (shape a)) z = Some k ->
  exists r, vector_norm_out a (Some z) (firstn k (shape a) ++ skipn (S k) (shape a)) = Ok r.
Proof. exact norm_out_ok. Qed.
(** An array out of any other shape is refused, and so is an axis that the array does not have. *)
Theorem C136_norm_out_refused : forall a axis o,
  match axis with
  | None => o <> []
  | Some z => forall k, axis_number (length (shape a)) z = Some k -> o <> firstn k (shape a) ++ skipn (S k) (shape a)
  end -> vector_norm_out a axis o = Err ValueError.
Proof. exact norm_out_refused. Qed.
(** What unit_vector writes to an array out without an axis. *)
Theorem C136_unit_out : forall a, shape a <> [] -> Exists (fun x => x <> 0) (entries a) ->
  exists u, unit_vector_out a None = Ok u /\ shape u = shape a /\ direction (entries a) (entries u).
Proof. exact unit_out_all. Qed.
(** With an array out and an axis, a single vector is refused, though it is not without out. *)
Theorem C136_unit_out_vector : forall a n z, shape a = [n] -> unit_vector_out a (Some z) = Err ValueError.
Proof. exact unit_out_vec. Qed.
(** A number has a length, its absolute value, but unit_vector refuses it. *)
Theorem C136_number : forall x,
  exists r, vector_norm (Nd [] (fun _ => x)) None = Ok r /\ shape r = [1%nat] /\ el r [0%nat] = Rabs x.
Proof. exact scalar. Qed.
Theorem C136_unit_number : forall a, shape a = [] -> unit_vector a None = Err ValueError.
Proof. exact scalar_unit. Qed.

Print Assumptions C136_norm_vector.
Print Assumptions C136_norm_all.
Print Assumptions C136_norm_axis.
Print Assumptions C136_unit_vector.
Print Assumptions C136_unit_all.
Print Assumptions C136_unit_axis.
Print Assumptions C136_no_axis.
Print Assumptions C136_norm_out.
Print Assumptions C136_norm_out_shape.
Print Assumptions C136_norm_out_refused.
Print Assumptions C136_unit_out.
Print Assumptions C136_unit_out_vector.
Print Assumptions C136_number.
Print Assumptions C136_unit_number.

(** Two rows, of norms 5 and 13. *)
Definition two : nd := mat 2 [[3; 4]; [5; 12]].
Example two_axis : axis_number (length (shape two)) (-1) = Some 1%nat /\ axis_number (length (shape two)) 2 = None.
Proof. split; reflexivity. Qed.
Example two_lane : lane two 1 [1%nat] = [5; 12] /\ Exists (fun x => x <> 0) (lane two 1 [1%nat]).
Proof. split; [reflexivity|]. apply Exists_cons_hd. cbn. lra. Qed.
Example norm_5 : norm [3; 4] = 5.
Proof. unfold norm. cbn. replace (3 * 3 + (4 * 4 + 0)) with (5 * 5) by lra. apply sqrt_square. lra. Qed.
Example two_norms : exists r, vector_norm two (Some (-1)%Z) = Ok r /\ shape r = [2%nat] /\ el r [0%nat] = 5.
Proof.
  destruct (C136_norm_axis two (-1) 1 ltac:(cbn; lia) eq_refl) as (r & E & S & L). exists r. split; [exact E|].
  split; [exact S|]. rewrite L by (rewrite S; cbn; lia). exact norm_5.
Qed.
Example two_units : exists u, unit_vector two (Some 1%Z) = Ok u /\ norm (lane u 1 [1%nat]) = 1.
Proof.
  destruct (C136_unit_axis two 1 1 ltac:(cbn; lia) eq_refl) as (u & E & _ & _ & D). exists u. split; [exact E|].
  apply D; [cbn; lia|]. exact (proj2 two_lane).
Qed.
Example vector_34 : shape (vec [3; 4]) = [2%nat] /\ Exists (fun x => x <> 0) (entries (vec [3; 4])).
Proof. split; [reflexivity|]. apply Exists_cons_hd. cbn. lra. Qed.
Example out_two : exists r, vector_norm_out two (Some 1%Z) [2%nat] = Ok r.
Proof. exact (C136_norm_out_shape two 1 1 eq_refl). Qed.
Example out_three : vector_norm_out two (Some 1%Z) [3%nat] = Err ValueError.
Proof. apply C136_norm_out_refused. intros k E. injection E as <-. cbn. discriminate. Qed.
