(** * What a user of the second choreography dataset relies on. *)

From Coq Require Import List ZArith Arith Reals Bool String.
Import ListNotations.
From Verif Require Import Py logger_model sound_spec motion_model motion_spec hac_model quant_model angle_model angle_spec choreo2_model.
From Verif Require utils_model.
Local Open Scope nat_scope.
Local Open Scope string_scope.

(** The name of a label: an entry of the list at the index of the label, or the text at
    a key which is a string. *)
Inductive described : descriptions -> label -> string -> Prop :=
| de_list ss n s : nth_error ss n = Some s -> described (DList ss) (LInt (Z.of_nat n)) s
| de_dict d t s : In (LStr t, s) d -> described (DDict d) (LStr t) s.
(** A record is called by the name of its first label. *)
Definition called (ds : descriptions) (r : array * list label) (s : string) : Prop :=
  exists l ls, snd r = l :: ls /\ described ds l s.

(** Nothing is found at a path. *)
Definition nothing_at (k : disk) (p : string) : Prop :=
  (forall v, ~ In (p, v) (k_json k)) /\ (forall v, ~ In (p, v) (k_npz k)) /\ (forall v, ~ In (p, v) (k_txt k)) /\
  (forall v, ~ In (p, v) (k_mat k)) /\ ~ In p (k_dirs k).
(** Only the archive of arrays at [p] differs. *)
Definition only_written (p : string) (k k' : disk) : Prop :=
  k_json k' = k_json k /\ k_txt k' = k_txt k /\ k_mat k' = k_mat k /\ k_dirs k' = k_dirs k /\
  forall q, q <> p -> dict_get String.eqb (k_npz k') q = dict_get String.eqb (k_npz k) q.

(** The table of features of records: a histogram for each record, in their order, which
    gives for each of the 30 degrees of freedom and each centroid the part of the frames
    of the record that are nearest to the centroid. *)
Definition table_of (whiten : mat R -> result (mat R)) (kmeans : mat R -> nat -> result (mat R)) (vq : mat R -> mat R -> result (list nat))
    (names : list string) (records : list (list (list (list R)))) (nb_bins : nat) (X : list (list R)) : Prop :=
  List.length X = List.length records /\ Forall (histogram (nb_bins * 30)) X /\
  exists angles vels, db_to_angles_and_vels names records 1 utils_model.Zeros = Ok (angles, vels) /\
    forall d, (d < 30)%nat -> exists w c codes parts,
      whiten (all_frames None None d angles vels) = Ok w /\ kmeans w nb_bins = Ok c /\ vq w c = Ok codes /\
      List.concat parts = codes /\ map (@List.length nat) parts = map (@List.length (list R)) angles /\
      forall e i, (e < List.length records)%nat -> (i < nb_bins)%nat ->
        nth (d * nb_bins + i) (nth e X []) 0%R =
        (INR (count_occ Nat.eq_dec (nth e parts []) i) / (30 * INR (List.length (nth e angles []))))%R.
