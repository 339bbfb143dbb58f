(** * C104: binned histograms of joint angles. *)

From Coq Require Import List ZArith Reals Bool String Lia Lra.
Import ListNotations.
From Verif Require Import Py utils_model hac_model transf_model angle_model angle_spec angle_proof angle_props
  kde_model kde_spec binned_model binned_spec binned_proof.
Local Open Scope R_scope.

(** One row for each record, in order; the numbers of a degree of freedom are the
    estimate of the density of its angles and velocities, cut to the bounds when there
    are some, written row by row.  Nothing depends on vel_delay and vel_padding. *)
Theorem C104_matrix : forall v names records vel_delay vel_padding nb_bins bounds vel_bounds rel_h fft angles vels lo hi vlo vhi,
  good_db names records -> db_to_angles_and_vels names records 1 Zeros = Ok (angles, vels) ->
  interval bounds angles lo hi -> interval vel_bounds vels vlo vhi -> rel_h <> 0 -> (4 <= nb_bins)%Z ->
  let s := Z.sqrt nb_bins in let n := Z.to_nat s in
  exists X, db_to_binned_hist_matrix true v names records vel_delay vel_padding nb_bins bounds vel_bounds rel_h fft = Ok X /\
    Forall2 (fun av row => List.length row = (30 * (n * n))%nat /\ nonnegative row /\
      forall d, (d < 30)%nat -> exists xg yg k,
        gaussian_kde_2d true (Mat 2 (frames bounds vel_bounds d av)) (rel_h * (hi - lo)) (rel_h * (vhi - vlo)) s fft
          (Some ((lo, vlo), (hi, vhi))) = Ok (xg, yg, k) /\
        array_2d n n k (fun i j => nth (cell_of n d i j) row 0) /\
        total k <= / (spacing lo hi n * spacing vlo vhi n)) (combine angles vels) X /\
    List.length X = List.length records.
Proof. exact matrix_ok. Qed.
Print Assumptions C104_matrix.

(** When the two intervals are given, the row of a record is the one it would have
    alone. *)
Theorem C104_alone : forall float_index v names records vel_delay vel_padding nb_bins b vb rel_h fft X i record row,
  db_to_binned_hist_matrix float_index v names records vel_delay vel_padding nb_bins (Some b) (Some vb) rel_h fft = Ok X ->
  nth_error records i = Some record -> nth_error X i = Some row ->
  db_to_binned_hist_matrix float_index v names [record] vel_delay vel_padding nb_bins (Some b) (Some vb) rel_h fft = Ok [row].
Proof. exact alone. Qed.
Print Assumptions C104_alone.

(** Less than four bins: ValueError. *)
Theorem C104_few_bins : forall float_index v names records vel_delay vel_padding nb_bins bounds vel_bounds rel_h fft,
  good_db names records -> (nb_bins < 4)%Z ->
  db_to_binned_hist_matrix float_index v names records vel_delay vel_padding nb_bins bounds vel_bounds rel_h fft = Err ValueError.
Proof. exact few_bins. Qed.
Print Assumptions C104_few_bins.

(** No matrix with numpy 1.12 or later. *)
Theorem C104_recent_numpy : forall v names records vel_delay vel_padding nb_bins bounds vel_bounds rel_h fft X,
  good_db names records ->
  db_to_binned_hist_matrix false v names records vel_delay vel_padding nb_bins bounds vel_bounds rel_h fft <> Ok X.
Proof. exact recent. Qed.
Print Assumptions C104_recent_numpy.

(** ** Cases that meet the hypotheses *)
Lemma ex_interval lo hi arrays : lo < hi -> interval (Some (lo, hi)) arrays lo hi.
Proof. intros L. split; [exact L|reflexivity]. Qed.
Lemma ex_h : 3 / 10 <> 0.
Proof. lra. Qed.
Example C104_ex_case fft nb_bins : (4 <= nb_bins)%Z -> exists X,
  db_to_binned_hist_matrix true Python2 ex_names ex_records 3 Zeros nb_bins (Some (-4, 4)) (Some (-1, 1)) (3 / 10) fft = Ok X /\
  List.length X = 2%nat /\
  Forall (fun row => List.length row = (30 * (Z.to_nat (Z.sqrt nb_bins) * Z.to_nat (Z.sqrt nb_bins)))%nat) X.
Proof.
  intros NB. destruct (good_arrays _ _ C56_ex_db) as (angles & EA). destruct (angles_and_vels _ _ _ EA) as (vels & EV & _).
  destruct (C104_matrix Python2 _ _ 3%Z Zeros nb_bins (Some (-4, 4)) (Some (-1, 1)) (3 / 10) fft angles vels (-4) 4 (-1) 1
    C56_ex_db EV (ex_interval (-4) 4 _ ltac:(lra)) (ex_interval (-1) 1 _ ltac:(lra)) ex_h NB) as (X & E & F & L).
  exists X. split; [exact E|]. split; [exact L|]. clear -F. induction F as [|av row l X (H & _) F IH]; constructor; assumption.
Qed.
Example C104_ex_alone fft : exists row,
  db_to_binned_hist_matrix true Python2 ex_names [[ex_sample 2]] 3 Zeros 16 (Some (-4, 4)) (Some (-1, 1)) (3 / 10) fft = Ok [row].
Proof.
  destruct (C104_ex_case fft 16 ltac:(lia)) as (X & E & L & _). destruct X as [|r [|row [|? ?]]]; try discriminate L. exists row.
  exact (C104_alone _ _ _ _ _ _ _ _ _ _ _ _ 1%nat _ _ E eq_refl eq_refl).
Qed.

(** The number of columns is not 30 times nb_bins, as documented, when nb_bins is not
    the square of an integer. *)
Theorem C104_columns_refuted : exists names records nb_bins bounds vel_bounds rel_h X,
  good_db names records /\
  db_to_binned_hist_matrix true Python2 names records 1 Zeros nb_bins bounds vel_bounds rel_h true = Ok X /\
  Exists (fun row => Z.of_nat (List.length row) <> (30 * nb_bins)%Z) X.
Proof.
  pose proof (good_arrays _ _ C56_ex_db) as (angles & EA). destruct (angles_and_vels _ _ _ EA) as (vels & EV & _).
  destruct (matrix_ok Python2 _ _ 1%Z Zeros 15%Z (Some (-4, 4)) (Some (-1, 1)) (3 / 10) true angles vels (-4) 4 (-1) 1
    C56_ex_db EV (ex_interval (-4) 4 _ ltac:(lra)) (ex_interval (-1) 1 _ ltac:(lra)) ex_h ltac:(lia)) as (X & E & F & L).
  exists ex_names, ex_records, 15%Z, (Some (-4, 4)), (Some (-1, 1)), (3 / 10), X. split; [exact C56_ex_db|]. split; [exact E|].
  destruct F as [|av row l X (H & _) F]; [discriminate L|]. left. rewrite H. change (Z.sqrt 15) with 3%Z. cbn. lia.
Qed.
Print Assumptions C104_columns_refuted.
