(** * Histograms of joint angles. *)

From Coq Require Import List ZArith Reals Bool String.
Import ListNotations.
From Verif Require Import Py hac_model quant_spec.
Local Open Scope R_scope.

(** A list of arrays that can be stacked. *)
Definition stackable {A} (xs : list (mat A)) : Prop :=
  xs <> [] /\ exists c, Forall (fun m => mcols m = c) xs.

(** Databases: the skeleton has all the joints in use; every record has samples
    and every sample one row of seven numbers for each marker. *)
Definition joints : list string :=
  ["left_shoulder"; "left_elbow"; "left_hand"; "torso"; "left_hip"; "left_knee"; "left_foot";
   "right_shoulder"; "right_elbow"; "right_hand"; "right_hip"; "right_knee"; "right_foot"]%string.
Definition good_record (markers : nat) (record : list (list (list R))) : Prop :=
  record <> [] /\
  Forall (fun sample => List.length sample = markers /\ Forall (fun row => List.length row = 7%nat) sample) record.
Definition good_db (marker_names : list string) (records : list (list (list (list R)))) : Prop :=
  (forall j, In j joints -> In j marker_names) /\
  records <> [] /\ Forall (good_record (List.length marker_names)) records.

(** scipy's whiten keeps the shape; kmeans gives [k] centroids when it does not
    drop any. *)
Definition is_whiten (whiten : mat R -> result (mat R)) : Prop :=
  forall d, rect d -> exists d', whiten d = Ok d' /\ rect d' /\ mcols d' = mcols d /\
    List.length (mrows d') = List.length (mrows d).
Definition gives_centroids (kmeans : mat R -> nat -> result (mat R)) (k : nat) : Prop :=
  forall d, rect d -> mrows d <> [] -> exists c, kmeans d k = Ok c /\ rect c /\ mcols c = mcols d /\
    List.length (mrows c) = k.

(** A histogram: numbers that are not negative and add up to 1. *)
Definition histogram (n : nat) (row : list R) : Prop :=
  List.length row = n /\ Forall (fun x => 0 <= x) row /\ add_up row = 1.

(** Sum of rows, column by column. *)
Definition total_at (j : nat) (rows : list (list R)) : R := add_up (map (fun r => nth j r 0) rows).

(** A number cut to an interval, when there is one. *)
Definition cut (bounds : option (R * R)) (x : R) : R :=
  match bounds with
  | None => x
  | Some (low, high) => Rmax (Rmin x high) low
  end.
(** The frames of one record for degree of freedom [d]: angle and velocity. *)
Definition frames (bounds vel_bounds : option (R * R)) (d : nat) (angles_vels : list (list R) * list (list R)) : list (list R) :=
  map (fun rows => [cut bounds (nth d (fst rows) 0); cut vel_bounds (nth d (snd rows) 0)])
      (combine (fst angles_vels) (snd angles_vels)).
(** Degree of freedom [k] of an array [delay] samples before sample [t]; 0 before the first sample. *)
Definition before (delay t k : nat) (a : list (list R)) : R :=
  if (t <? delay)%nat then 0 else nth k (nth (t - delay) a []) 0.
(** The frames of all the records, one record after the other. *)
Definition all_frames (bounds vel_bounds : option (R * R)) (d : nat) (angles vels : list (list (list R))) : mat R :=
  Mat 2 (List.concat (map (frames bounds vel_bounds d) (combine angles vels))).
(** kmeans may drop clusters that became empty. *)
Definition may_drop (kmeans : mat R -> nat -> result (mat R)) (k : nat) : Prop :=
  forall d, rect d -> mrows d <> [] -> exists c, kmeans d k = Ok c /\ rect c /\ mcols c = mcols d /\
    (0 < List.length (mrows c) <= k)%nat.
