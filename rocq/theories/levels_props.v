(** * Further theorems on nested lists and label scores (C24, C28, C66, C68). *)

From Coq Require Import List ZArith Arith Bool QArith Lia.
Import ListNotations.
From Verif Require Import Py utils_model utils_spec evaluation_model evaluation_spec levels_spec levels_proof.
Local Open Scope nat_scope.

(** C68: meta_map keeps the nesting above its level, exactly... *)
Theorem C68_nesting : forall A k f (x y : nested A),
  meta_map k f x = Ok y <-> changed (fun a b => b = f a) k x y.
Proof. intros A. exact (@meta_map_changed A). Qed.
Print Assumptions C68_nesting.
(** ... and fails only if something above this level is not a list. *)
Theorem C68_error : forall A k f (x : nested A),
  (exists y, meta_map k f x = Ok y) \/
  (meta_map k f x = Err TypeError /\ exists p a, length p < k /\ at_path x p = Some (Leaf a)).
Proof. intros A. exact (@meta_map_total A). Qed.
Print Assumptions C68_error.

(** C28: distribute replaces each list of its level by its extensions, and keeps the
    nesting above. *)
Theorem C28_distribute_nesting : forall A (values : list (nested A)) k, values <> [] -> forall x y,
  distribute x values k = Ok y <->
  changed (fun a b => exists l, a = Node l /\ b = Node (map (fun v => Node (l ++ [v])) values)) k x y.
Proof. intros A. exact (@distribute_changed A). Qed.
Print Assumptions C28_distribute_nesting.

(** C66: which arrays are compared. *)
Theorem C66_shapes : forall reco trues threshold,
  (Forall2 (fun r t => length r = length t) reco trues ->
     exists ok, compare_labels_threshold reco trues threshold = Ok ok) /\
  (~ Forall2 (fun r t => length r = length t) reco trues ->
     compare_labels_threshold reco trues threshold = Err ValueError).
Proof. exact threshold_shapes. Qed.
Print Assumptions C66_shapes.
(** The score is the part of the rows that are right. *)
Theorem C66_score : forall reco trues threshold, trues <> [] ->
  Forall2 (fun r t => length r = length t) reco trues ->
  exists s, score_labels_threshold reco trues threshold = Ok (Some s) /\
    part_right (fun p : list Q * list Z => forall j x y, nth_error (fst p) j = Some x -> nth_error (snd p) j = Some y ->
      (y = 1%Z /\ (threshold <= x)%Q) \/ (y = 0%Z /\ (x < threshold)%Q)) (combine reco trues) s.
Proof. exact threshold_score. Qed.
Print Assumptions C66_score.

(** C24: the same for the number of labels that are given. *)
Theorem C24_score : forall argsort n (reco : list (list Q)) (trues : list (list Z)),
  (forall keys, sorts keys (argsort keys)) ->
  trues <> [] -> length reco = length trues ->
  (forall r, In r reco -> length r = n) ->
  (forall t, In t trues -> length t = n /\ binary_row t) ->
  exists s, score_labels_given_nb argsort n reco trues = Ok (Some s) /\
    part_right (fun p => top_matches (argsort (map Qopp (fst p))) (snd p)) (combine reco trues) s.
Proof. exact given_nb_score. Qed.
Print Assumptions C24_score.

(** ** Cases that meet the hypotheses *)
Example C68_ex : let x := Node [Node [Leaf 1; Leaf 2]; Node []] in
  meta_map 2 (fun a => Node [a]) x = Ok (Node [Node [Node [Leaf 1]; Node [Leaf 2]]; Node []]) /\
  meta_map 2 (fun a => a) (Node [Leaf 1]) = Err TypeError.
Proof. split; reflexivity. Qed.
Example C28_ex : distribute (Node [Node [Leaf 1]; Node []]) [Leaf 5; Leaf 6] 1 =
  Ok (Node [Node [Node [Leaf 1; Leaf 5]; Node [Leaf 1; Leaf 6]]; Node [Node [Leaf 5]; Node [Leaf 6]]]).
Proof. reflexivity. Qed.
Example C66_ex : score_labels_threshold [[1 # 2; 1 # 5]; [1 # 2; 1 # 5]; [1; 1]]%Q [[1; 0]; [1; 1]; [1; 1]]%Z (1 # 4)
    = Ok (Some (2 # 3)%Q) /\
  Forall2 (fun (r : list Q) (t : list Z) => length r = length t)
    [[1 # 2; 1 # 5]; [1 # 2; 1 # 5]; [1; 1]]%Q [[1; 0]; [1; 1]; [1; 1]]%Z.
Proof. split; [reflexivity|repeat constructor]. Qed.
