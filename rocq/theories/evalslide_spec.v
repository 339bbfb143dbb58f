(** * Specification for samples/image_sound_eval_sliding.py. *)

From Coq Require Import List ZArith Reals Bool Arith String QArith.
Import ListNotations.
From Verif Require Import Py logger_model logger_spec nd_model nd_spec sparse_model learner_model learner_spec metrics_spec window_model window_spec experiment_model experiment_spec.
Local Open Scope nat_scope.
Notation Q := QArith_base.Q.
Notation length := List.length.

(** The number of tuples of the pairing whose recordings are put side by side. *)
Definition listened (x : experiment) (p : prepared) : nat :=
  if x_debug x then Nat.min 10 (length (p_pairing p)) else length (p_pairing p).

(** The recordings of the first [n] tuples in modality [m] have the rate [r] and the samples [cs]. *)
Definition recorded {A} (wavs : string -> result (Q * list A)) (audio : nat -> result string) (p : prepared) (m n : nat) (r : Q) (cs : list (list A)) : Prop :=
  Forall2 (fun t c => exists path, audio (source p m t) = Ok path /\ wavs path = Ok (r, c)) (seq 0 n) cs.

Local Open Scope Q_scope.
(** Window number [i] begins at i / 10 seconds and lasts half a second. *)
Definition begin_of (i : nat) : Q := inject_Z (Z.of_nat i) / inject_Z 10.
Definition end_of (i : nat) : Q := begin_of i + (1 # 2).
(** Thirty nanoseconds. *)
Definition slack : Q := 3 # 100000000.

(** [s] is the part of a sound heard in window number [i]: all samples inside of it, and no sample that
    is not, up to the slack at the two ends. *)
Definition heard {A} (r : Q) (all : list A) (i : nat) (s : list A) : Prop :=
  exists lo hi, s = segment all lo hi /\ (lo <= hi <= length all)%nat /\
    (forall k, (lo <= k < hi)%nat -> sample_inside 0 r (begin_of i - slack) (end_of i + slack) k) /\
    (forall k, (k < length all)%nat -> sample_inside 0 r (begin_of i + slack) (end_of i - slack) k -> (lo <= k < hi)%nat).

(** How long a sound lasts. *)
Definition lasts {A} (r : Q) (all : list A) : Q := inject_Z (Z.of_nat (length all)) / r.
(** [n] is the number of windows that end before the sound ends, up to the slack. *)
Definition number_of_windows (total : Q) (n : nat) : Prop :=
  (forall i, end_of i <= total -> (i < n)%nat) /\ (forall i, (i < n)%nat -> end_of i <= total + slack).

(** The matrix of the windows: row [i] has the first [m] features of what is heard in window [i]. *)
Definition window_rows {A} (features : Q * list A -> result (list nat)) (r : Q) (all : list A) (n m : nat) (X : matrix) : Prop :=
  fits n m X /\
  forall i, (i < n)%nat -> exists s v, heard r all i s /\ features (r, s) = Ok v /\
    forall j, (j < m)%nat -> el (mvalue X) [i; j] = INR (nth j v 0%nat).

(** The distances of the windows from the examples: the opposite of the cosine of what a trained learner finds for
    the sounds of the windows and for the pictures of the examples. *)
Definition compared {A} (features : Q * list A -> result (list nat)) (x : experiment) (p : prepared) (l : learner) (objects : nat) (m : nat)
    (r : Q) (all : list A) (n : nat) (dist : nd) : Prop :=
  exists X heard_as seen_as rnd,
    window_rows features r all n m X /\
    reconstruct_internal rnd 0 l "sound" X (x_iter_test x) = Ok heard_as /\ shape heard_as = [n; x_k x] /\ nonneg heard_as /\
    internal_of x p l (p_examples p) [objects] seen_as /\
    shape dist = [n; length (p_examples p)] /\
    forall i j, (i < n)%nat -> (j < length (p_examples p))%nat -> el dist [i; j] = (- cosine (row heard_as i) (row seen_as j))%R.

(** The log [w] is [w0] with these values added to its only run. *)
Definition added (w0 w : world) (vs : list (string * val)) : Prop :=
  (forall k, global_at w 0 k = global_at w0 0 k) /\ runs_of w 0 = runs_of w0 0 /\
  forall k, value_at w 0 0 k = match dict_get String.eqb vs k with Some v => Some v | None => value_at w0 0 0 k end.

(** A regular run that ends well: an experiment with two modalities named 'sound' and 'objects' at least, one
    random split, names of modalities that keep keys apart, and a name for the log, if one is given, that does not end with '.npz'. *)
Definition good_run (ord : list string -> list string) (rd : random) (x : experiment) (p : prepared) (file : option string) (ms mo : nat) : Prop :=
  enumerates ord /\ match file with Some path => ~ has_suffix path ".npz" | None => True end /\
  sound x /\ legal x rd /\ enough x rd /\ x_kind x = Two /\ x_mode x = Single /\ (forall m, In m (x_mods x) -> clean m) /\ prepare rd x = Ok p /\
  nth_error (x_mods x) ms = Some "sound"%string /\ nth_error (x_mods x) mo = Some "objects"%string.
(** The experiment of the script: pictures under 'objects' and sounds under 'sound', 50 atoms, 50 iterations to train and to test,
    one random split, labels kept in their order, default coefficients. *)
Definition experiment_of_script (objects sounds : loader) (debug : bool) (x : experiment) : Prop :=
  x_kind x = Two /\ length (x_mods x) = 2%nat /\ length (x_loaders x) = 2%nat /\
  In ("objects"%string, objects) (combine (x_mods x) (x_loaders x)) /\ In ("sound"%string, sounds) (combine (x_mods x) (x_loaders x)) /\
  x_k x = 50%nat /\ x_iter_train x = 50%Z /\ x_iter_test x = 50%Z /\ x_coefs x = None /\ x_shuffle_labels x = false /\ x_mode x = Single /\ x_debug x = debug.
(** What is heard in each window has [D] features. *)
Definition described {A} (features : Q * list A -> result (list nat)) (r : Q) (all : list A) (D : nat) : Prop :=
  forall i s, (end_of i <= lasts r all + slack)%Q -> heard r all i s -> exists v, features (r, s) = Ok v /\ length v = D.
