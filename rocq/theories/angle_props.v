(** * Theorems on histograms of joint angles (C56). *)

From Coq Require Import List ZArith Arith Reals Bool String Lia Lra.
Import ListNotations.
From Verif Require Import Py Py_proof utils_model hac_model quant_model quant_spec quant_proof
  transf_model angle_model angle_spec angle_proof angle_vq.
Open Scope py_scope.
Local Open Scope R_scope.

(** Stacking, then cutting at the indices, gives the arrays back; the stacked
    array has their rows, one array after the other. *)
Theorem C56_round_trip {A} (xs : list (mat A)) : stackable xs -> exists v idx,
  compact_examples xs = Ok (v, idx) /\ un_compact_examples v idx = xs /\
  mrows v = List.concat (map mrows xs) /\ Forall (fun m => mcols m = mcols v) xs.
Proof.
  intros H. destruct (compact_ok xs H) as (v & idx & E & U & R1 & F & _). exists v, idx. tauto.
Qed.
Print Assumptions C56_round_trip.

(** No array, or different numbers of columns: ValueError. *)
Theorem C56_round_trip_error {A} (xs : list (mat A)) : ~ stackable xs -> compact_examples xs = Err ValueError.
Proof. exact (compact_bad xs). Qed.
Print Assumptions C56_round_trip_error.

(** The velocities are the differences with the angles [delay] samples before, and the
    angles themselves in the first samples. *)
Theorem C56_velocities names records delay : (1 <= delay)%Z -> good_db names records ->
  exists angles vels, db_to_list_of_angle_arrays names records = Ok angles /\
    db_to_angles_and_vels names records delay Zeros = Ok (angles, vels) /\ List.length vels = List.length records /\
    forall e t k, (e < List.length records)%nat -> (t < List.length (nth e angles []))%nat ->
      List.length (nth e vels []) = List.length (nth e angles []) /\
      nth k (nth t (nth e vels []) []) 0 =
        nth k (nth t (nth e angles []) []) 0 - before (Z.to_nat delay) t k (nth e angles []).
Proof. exact (velocities_values names records delay). Qed.
Print Assumptions C56_velocities.

(** Where map gives a list: the result has a row for each record, and every row is
    a histogram with [nb_bins] values for each of the 30 degrees of freedom. *)
Theorem C56_histograms whiten kmeans vq names records vd vp nb_bins bounds vel_bounds soft :
  good_db names records -> is_whiten whiten -> gives_centroids kmeans nb_bins -> is_vq vq -> (0 < nb_bins)%nat ->
  exists X, db_to_VQ_hist_matrix whiten kmeans vq Python2 names records vd vp nb_bins bounds vel_bounds soft = Ok X /\
    List.length X = List.length records /\ Forall (histogram (nb_bins * 30)) X.
Proof.
  intros G W C V K.
  destruct (python2_ok whiten kmeans vq names records vd vp nb_bins bounds vel_bounds soft G W C V K)
    as (X & _ & _ & _ & E & _ & _ & _ & L & F & _). exists X. tauto.
Qed.
Print Assumptions C56_histograms.

(** With hard quantization the values are the frequencies of the centroids: the
    part of the frames of record [e] whose nearest centroid is [i], divided by 30. *)
Theorem C56_frequencies whiten kmeans vq names records vd vp nb_bins bounds vel_bounds :
  good_db names records -> is_whiten whiten -> gives_centroids kmeans nb_bins -> is_vq vq -> (0 < nb_bins)%nat ->
  exists X angles vels,
    db_to_VQ_hist_matrix whiten kmeans vq Python2 names records vd vp nb_bins bounds vel_bounds None = Ok X /\
    db_to_angles_and_vels names records 1 Zeros = Ok (angles, vels) /\
    forall d, (d < 30)%nat -> exists w c codes parts,
      whiten (all_frames bounds vel_bounds d angles vels) = Ok w /\ kmeans w nb_bins = Ok c /\ vq w c = Ok codes /\
      List.concat parts = codes /\ map (@List.length nat) parts = map (@List.length (list R)) angles /\
      forall e i, (e < List.length records)%nat -> (i < nb_bins)%nat ->
        nth (d * nb_bins + i) (nth e X []) 0 =
        INR (count_occ Nat.eq_dec (nth e parts []) i) / (30 * INR (List.length (nth e angles []))).
Proof. exact (python2_counts whiten kmeans vq names records vd vp nb_bins bounds vel_bounds). Qed.
Print Assumptions C56_frequencies.

(** The parameters vel_delay and vel_padding have no effect. *)
Theorem C56_delay_ignored whiten kmeans vq v names records vd vp vd' vp' nb_bins bounds vel_bounds soft :
  db_to_VQ_hist_matrix whiten kmeans vq v names records vd vp nb_bins bounds vel_bounds soft =
  db_to_VQ_hist_matrix whiten kmeans vq v names records vd' vp' nb_bins bounds vel_bounds soft.
Proof. reflexivity. Qed.
Print Assumptions C56_delay_ignored.

(** Under Python 3 the call never returns. *)
Theorem C56_python3 whiten kmeans vq names records vd vp nb_bins bounds vel_bounds soft X :
  db_to_VQ_hist_matrix whiten kmeans vq Python3 names records vd vp nb_bins bounds vel_bounds soft <> Ok X.
Proof. exact (python3_never whiten kmeans vq names records vd vp nb_bins bounds vel_bounds soft X). Qed.
Print Assumptions C56_python3.

(** What it raises where Python 2 gives a result. *)
Theorem C56_python3_error whiten kmeans vq names records vd vp nb_bins bounds vel_bounds soft X :
  db_to_VQ_hist_matrix whiten kmeans vq Python2 names records vd vp nb_bins bounds vel_bounds soft = Ok X ->
  db_to_VQ_hist_matrix whiten kmeans vq Python3 names records vd vp nb_bins bounds vel_bounds soft =
    Err (match bounds with None => ValueError | Some _ => TypeError end).
Proof. exact (python3_error whiten kmeans vq names records vd vp nb_bins bounds vel_bounds soft X). Qed.
Print Assumptions C56_python3_error.

(** If kmeans drops a centroid for some degree of freedom, ValueError. *)
Theorem C56_dropped_centroid whiten kmeans vq names records vd vp nb_bins bounds vel_bounds soft angles vels d w c :
  good_db names records -> is_whiten whiten -> may_drop kmeans nb_bins -> is_vq vq ->
  db_to_angles_and_vels names records 1 Zeros = Ok (angles, vels) -> (d < 30)%nat ->
  whiten (all_frames bounds vel_bounds d angles vels) = Ok w -> kmeans w nb_bins = Ok c ->
  List.length (mrows c) <> nb_bins ->
  db_to_VQ_hist_matrix whiten kmeans vq Python2 names records vd vp nb_bins bounds vel_bounds soft = Err ValueError.
Proof.
  exact (dropped whiten kmeans vq names records vd vp nb_bins bounds vel_bounds soft angles vels d w c).
Qed.
Print Assumptions C56_dropped_centroid.

(** ** Cases that meet the hypotheses *)
Definition ex_arrays : list (mat nat) := [Mat 2 [[1; 2]; [3; 4]]; Mat 2 []; Mat 2 [[5; 6]]]%nat.
Example C56_ex_stackable : stackable ex_arrays /\
  compact_examples ex_arrays = Ok (Mat 2 [[1; 2]; [3; 4]; [5; 6]], [2; 2; 3])%nat.
Proof.
  split; [|reflexivity]. split; [discriminate|]. exists 2%nat. repeat constructor.
Qed.
Example C56_ex_not_stackable : ~ stackable [Mat 2 [[1; 2]]; Mat 3 [[1; 2; 3]]]%nat.
Proof. intros (_ & c & F). inversion F as [|? ? E F']; subst. inversion F' as [|? ? E' F'']; subst. cbn in E'. discriminate. Qed.

(** Two records with two samples and one sample, whose skeletons have fourteen markers. *)
Definition ex_names : list string := ("head" :: joints)%string.
Definition ex_row (x : R) : list R := [x; 0; 0; 0; 0; 0; 1].
Definition ex_sample (x : R) : list (list R) := repeat (ex_row x) 14.
Definition ex_records : list (list (list (list R))) := [[ex_sample 0; ex_sample 1]; [ex_sample 2]].
Example C56_ex_db : good_db ex_names ex_records.
Proof.
  split; [intros j I; right; exact I|]. split; [discriminate|].
  repeat constructor; discriminate.
Qed.

Example C56_ex_velocities : exists angles vels, db_to_angles_and_vels ex_names ex_records 1 Zeros = Ok (angles, vels) /\
  List.length vels = 2%nat.
Proof. destruct (C56_velocities ex_names ex_records 1 ltac:(lia) C56_ex_db) as (a & v & _ & E & L & _). exists a, v. tauto. Qed.

(** No scaling; centroids on the first axis; the nearest centroid. *)
Definition ex_whiten (d : mat R) : result (mat R) := Ok d.
Definition ex_kmeans (d : mat R) (k : nat) : result (mat R) :=
  Ok (Mat (mcols d) (map (fun i => repeat (INR i) (mcols d)) (seq 0 k))).
Example C56_ex_whiten : is_whiten ex_whiten.
Proof. intros d Rd. exists d. repeat split. exact Rd. Qed.
Example C56_ex_kmeans k : gives_centroids ex_kmeans k.
Proof.
  intros d _ _. eexists. split; [reflexivity|]. cbn [mcols mrows]. split; [|split; [reflexivity|rewrite map_length, seq_length; reflexivity]].
  apply Forall_forall. intros r I. apply in_map_iff in I. destruct I as (i & <- & _). apply repeat_length.
Qed.
Example C56_ex_vq : is_vq associate.
Proof.
  intros x cb _ _ E N. destruct (associate_ok x cb E N) as (c & Ec & F). exists c. split; [exact Ec|].
  clear Ec. induction F as [|v i vs is_ (H & _) F IH]; constructor; assumption.
Qed.
Example C56_ex_histograms : exists X,
  db_to_VQ_hist_matrix ex_whiten ex_kmeans associate Python2 ex_names ex_records 1 Zeros 4 None (Some (-1, 1)) (Some 2) = Ok X /\
  List.length X = 2%nat /\ Forall (histogram 120) X.
Proof. exact (C56_histograms _ _ _ _ _ 1%Z Zeros 4 None (Some (-1, 1)) (Some 2) C56_ex_db C56_ex_whiten (C56_ex_kmeans 4) C56_ex_vq ltac:(lia)). Qed.
Example C56_ex_python3 :
  db_to_VQ_hist_matrix ex_whiten ex_kmeans associate Python3 ex_names ex_records 1 Zeros 4 None (Some (-1, 1)) (Some 2) = Err ValueError.
Proof. destruct C56_ex_histograms as (X & E & _). exact (C56_python3_error _ _ _ _ _ _ _ _ _ _ _ _ E). Qed.

(** A kmeans that always keeps one centroid only. *)
Definition ex_one (d : mat R) (k : nat) : result (mat R) := ex_kmeans d 1.
Example C56_ex_dropped :
  db_to_VQ_hist_matrix ex_whiten ex_one associate Python2 ex_names ex_records 1 Zeros 4 None None None = Err ValueError.
Proof.
  destruct (good_arrays _ _ C56_ex_db) as (angles & EA). destruct (angles_and_vels _ _ _ EA) as (vels & EV & _).
  refine (C56_dropped_centroid _ _ _ _ _ _ _ _ _ _ _ _ _ 0%nat _ _ C56_ex_db C56_ex_whiten _ C56_ex_vq EV ltac:(lia) eq_refl eq_refl _);
    [|cbn; discriminate].
  intros d Rd Nd. destruct (C56_ex_kmeans 1 d Rd Nd) as (c & E & Rc & Cc & Lc). exists c. split; [exact E|]. split; [exact Rc|]. split; [exact Cc|lia].
Qed.
