(** * Properties of multimodal/pairing.py. *)

From Coq Require Import List ZArith Arith Bool Permutation Sorted String.
Import ListNotations.
From Verif Require Import Py pairing_model pairing_spec pairing_proof.

(** C06: whatever the set orders and the shuffles, each tuple holds one valid
    sample per modality, all carrying the announced label. *)
Theorem C06_labels_faithful : forall L (eqb : L -> L -> bool) orders shuf lbm names labels tuples,
  (forall x y, eqb x y = true <-> x = y) ->
  Forall2 distinct_labels orders lbm -> is_shuffle shuf ->
  associate_samples eqb orders shuf lbm = Ok (names, labels, tuples) ->
  names = orders /\ labels_faithful lbm names labels tuples.
Proof. intros L eqb orders shuf lbm names labels tuples H. exact (associate_samples_faithful eqb H orders shuf lbm names labels tuples). Qed.
Print Assumptions C06_labels_faithful.

(** C07: no sample is used twice, labels come grouped in increasing order, and
    label i occurs exactly as often as in the modality where it is rarest. *)
Theorem C07_each_once_and_complete : forall L (eqb : L -> L -> bool) orders shuf lbm names labels tuples,
  (forall x y, eqb x y = true <-> x = y) ->
  Forall2 distinct_labels orders lbm -> is_shuffle shuf ->
  associate_samples eqb orders shuf lbm = Ok (names, labels, tuples) ->
  List.length labels = List.length tuples /\ StronglySorted le labels /\
  (forall m ls, nth_error lbm m = Some ls ->
     NoDup (used m tuples) /\
     forall idx, In idx (used m tuples) -> exists i, idx = Some i /\ i < List.length ls) /\
  (forall i, In i labels -> forall nm, In nm names -> i < List.length nm) /\
  (forall i, (forall nm, In nm names -> i < List.length nm) ->
     is_min (count_occ Nat.eq_dec labels i)
       (map (fun p => match nth_error (fst p) i with
                      | Some lab => count (eqb lab) (snd p) | None => 0 end)
          (combine names lbm))).
Proof. intros L eqb orders shuf lbm names labels tuples H. exact (associate_samples_counts eqb H orders shuf lbm names labels tuples). Qed.
Print Assumptions C07_each_once_and_complete.

(** C08: exactly when associate_samples raises, and what. *)
Theorem C08_errors : forall L (eqb : L -> L -> bool) orders shuf lbm,
  (forall x y, eqb x y = true <-> x = y) ->
  Forall2 distinct_labels orders lbm -> is_shuffle shuf ->
  (lbm = [] <-> associate_samples eqb orders shuf lbm = Err ValueError) /\
  ((exists d d', In d orders /\ In d' orders /\ List.length d <> List.length d') <->
     associate_samples eqb orders shuf lbm = Err AssertionError) /\
  (lbm <> [] -> (forall d d', In d orders -> In d' orders -> List.length d = List.length d') ->
     exists names labels tuples,
       associate_samples eqb orders shuf lbm = Ok (names, labels, tuples)).
Proof. intros L eqb orders shuf lbm H. exact (associate_samples_errors eqb H orders shuf lbm). Qed.
Print Assumptions C08_errors.

(** C09: bucket k holds, in order, the indices whose value is k (or k - n);
    IndexError exactly when a value is out of range. *)
Theorem C09_organize : forall I (l : list Z) (n : nat) (indices : list I),
  ((forall i x, In (i, x) (combine indices l) -> (- Z.of_nat n <= x < Z.of_nat n)%Z) ->
   exists buckets, organize_indexed l (Some n) indices = Ok buckets /\
    List.length buckets = n /\
    forall k, k < n -> nth_error buckets k = Some (selected n k (combine indices l))) /\
  ((exists i x, In (i, x) (combine indices l) /\ ~ (- Z.of_nat n <= x < Z.of_nat n)%Z) <->
   organize_indexed l (Some n) indices = Err IndexError).
Proof. intros I. exact (@organize_spec I). Qed.
Print Assumptions C09_organize.

(** C09, default indices: increasing positions. *)
Theorem C09_positions : forall (l : list Z) (n : nat) buckets,
  organize_by_values l (Some n) = Ok buckets ->
  List.length buckets = n /\
  forall k b, nth_error buckets k = Some b ->
    StronglySorted lt b /\
    forall i, In i b <-> exists x, nth_error l i = Some x /\
                          (x = Z.of_nat k \/ x = Z.of_nat k - Z.of_nat n)%Z.
Proof. exact organize_positions. Qed.
Print Assumptions C09_positions.

(** C09, default bucket count: the number of distinct values. *)
Theorem C09_default_count : forall I (l : list Z) (indices : list I),
  exists n, organize_indexed l None indices = organize_indexed l (Some n) indices /\
    exists d, NoDup d /\ (forall x, In x d <-> In x l) /\ n = List.length d.
Proof. intros I. exact (@organize_default I). Qed.
Print Assumptions C09_default_count.

(** ** A concrete case: two modalities, string labels, unequal counts, sets
    iterated in different orders, every bucket reversed by the shuffle. *)
Open Scope string_scope.
Definition ex_lbm := [["a"; "b"; "a"; "b"; "b"]; ["y"; "x"; "x"; "y"; "x"; "y"]].
Definition ex_orders := [["b"; "a"]; ["x"; "y"]].
Definition ex_shuf (m i : nat) (l : list nat) := if (m =? 0)%nat then rev l else l.

Example pairing_orders : Forall2 distinct_labels ex_orders ex_lbm.
Proof.
  constructor; [|constructor; [|constructor]]; (split; [|intros x; simpl; tauto]);
    (constructor; [simpl; intros [H|[]]; discriminate|]);
    (constructor; [simpl; tauto|constructor]).
Qed.
Example pairing_shuffle : is_shuffle ex_shuf.
Proof.
  intros m i l. unfold ex_shuf. destruct (m =? 0)%nat; [symmetry; apply Permutation_rev|reflexivity].
Qed.
Example pairing_result :
  associate_samples String.eqb ex_orders ex_shuf ex_lbm =
  Ok (ex_orders, [0; 0; 0; 1; 1], [[4; 1]; [3; 2]; [1; 4]; [2; 0]; [0; 3]]).
Proof. reflexivity. Qed.
Example pairing_string_eqb : forall x y, String.eqb x y = true <-> x = y.
Proof. exact String.eqb_eq. Qed.
Example pairing_mismatch :
  associate_samples String.eqb [["a"]; ["x"; "y"]] ex_shuf [["a"; "a"]; ["x"; "y"]]
  = Err AssertionError.
Proof. reflexivity. Qed.
Example organize_negative :
  organize_by_values [0; 2; (-1); 1; 2]%Z (Some 3) = Ok [[0]; [3]; [1; 2; 4]].
Proof. reflexivity. Qed.
Example organize_bad : organize_by_values [0; 3]%Z (Some 3) = Err IndexError.
Proof. reflexivity. Qed.
