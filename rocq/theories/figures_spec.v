(** * Specification of the figures and tables of recorded scores. *)

From Coq Require Import List ZArith Reals Bool Arith String QArith Qreals.
Import ListNotations.
From Verif Require Import Py nd_model nd_spec logger_model logger_spec experiment_model experiment_spec.
Local Open Scope nat_scope.

(** Average, and standard deviation around the average [m], of the numbers of a list. *)
Definition average_of (xs : list R) (m : R) : Prop := (m * INR (List.length xs) = lsum xs)%R.
Definition deviation_of (xs : list R) (m s : R) : Prop :=
  (0 <= s /\ s * s * INR (List.length xs) = lsum (map (fun v => (v - m) * (v - m)) xs))%R.

(** The runs of logger [i] have the numbers [xs] under [key], one for each run. *)
Definition scored (w : world) (i : nat) (key : string) (xs : list R) : Prop :=
  runs_of w i = Some (List.length xs) /\
  forall q v, nth_error xs q = Some v -> exists f, value_at w i q key = Some (VFloat f) /\ v = Q2R f.

(** The modalities that have colours. *)
Definition known (m : string) : Prop := In m ["image"; "motion"; "sound"]%string.

(** Logger [j] of [w'] has what logger 0 of [w] has, but the arrays: see [mixed]. *)
Definition but_arrays (w w' : world) (j : nat) : Prop :=
  exists l l', nth_error (w_logs w) 0 = Some l /\ nth_error (w_logs w') j = Some l' /\
  List.length (lg_exps l') = List.length (lg_exps l) /\
  (forall k, mixed None (global_at w 0 k) (global_at w' j k)) /\
  (forall p k, mixed None (value_at w 0 p k) (value_at w' j p k)) /\
  (forall k, In k (lg_exp_keys l') <-> In k (lg_exp_keys l)).
(** Logger [j] of [w'] is the one of an experiment that ended in the world [w], or comes
    from it by saving and loading, with or without the arrays. *)
Definition recorded (w w' : world) (j : nat) : Prop := (w' = w /\ j = 0) \/ same_contents w 0 w' j \/ but_arrays w w' j.

(** [v] is the score of the learner that was trained with the samples [tr], for the test
    samples [te] given in modality [m1], and the examples in modality [m2]. *)
Definition two_score (x : experiment) (p : prepared) (m1 m2 : nat) (cmp : option nat) (s : string) (split : list nat * list nat) (v : R) : Prop :=
  exists l d truth a b found f,
    trained_with x p (samples_of p (fst split)) l d /\ labels_of p (snd split) truth /\
    represents x p l (samples_of p (snd split)) m1 cmp a /\ represents x p l (p_examples p) m2 cmp b /\
    nearest (comparison s) a b (p_labels_ex p) found /\ is_score truth found (VFloat f) /\ v = Q2R f.
(** The same for modalities given together. *)
Definition three_score (x : experiment) (p : prepared) (ms1 ms2 : list nat) (s : string) (split : list nat * list nat) (v : R) : Prop :=
  exists l d truth a b found f,
    trained_with x p (samples_of p (fst split)) l d /\ labels_of p (snd split) truth /\
    internal_of x p l (samples_of p (snd split)) ms1 a /\ internal_of x p l (p_examples p) ms2 b /\
    nearest (comparison s) a b (p_labels_ex p) found /\ is_score truth found (VFloat f) /\ v = Q2R f.

(** What is shown for three modalities: each one against each other one, and two against
    the third. *)
Definition three_shown : list (list nat * list nat) :=
  [([0], [1]); ([0], [2]); ([1], [0]); ([1], [2]); ([2], [0]); ([2], [1]); ([1; 2], [0]); ([0; 2], [1]); ([0; 1], [2])].
