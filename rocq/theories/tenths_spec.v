(** * Specification for samples/icdl2013.py and samples/image_sound.py. *)

From Coq Require Import List ZArith Reals Bool Arith String QArith.
Import ListNotations.
From Verif Require Import Py utils_model utils_spec pairing_model experiment_model experiment_spec figures_model figures_spec.
Local Open Scope nat_scope.

(** An experiment on two modalities with 50 atoms, 50 iterations to train and to test, default coefficients and labels
    kept in their order. *)
Definition on_two (n1 n2 : string) (l1 l2 : loader) (debug : bool) (x : experiment) : Prop :=
  x_kind x = Two /\ (x_mods x = [n1; n2] /\ x_loaders x = [l1; l2] \/ x_mods x = [n2; n1] /\ x_loaders x = [l2; l1]) /\
  x_k x = 50%nat /\ x_iter_train x = 50%Z /\ x_iter_test x = 50%Z /\ x_coefs x = None /\ x_shuffle_labels x = false /\ x_debug x = debug.

(** Ten runs: in each, a tenth of the [n] samples, rounded down, is tested and all other samples are used to train; no sample
    is tested twice. *)
Definition ten_runs (n : nat) (l : list (list nat * list nat)) : Prop :=
  List.length l = 10%nat /\ (forall s, In s l -> is_split n s /\ List.length (snd s) = Nat.div n 10) /\
  forall i j si sj, i <> j -> nth_error l i = Some si -> nth_error l j = Some sj -> disjoint (snd si) (snd sj).

(** At least ten samples are left by the examples, and fewer than the floating point numbers can count. *)
Definition ten_samples (x : experiment) (rd : random) : Prop :=
  forall names labels tuples,
    associate_samples String.eqb (r_names rd) (r_buckets rd) (map ld_labels (x_loaders x)) = Ok (names, labels, tuples) ->
    10 <= kept_rows x (List.length tuples) - List.length (r_label_set rd) /\
    (Z.of_nat (kept_rows x (List.length tuples) - List.length (r_label_set rd)) <= 2 ^ 50)%Z.

(** The lines of the table: both directions, compared on internal coefficients and in each modality; on each line, for the
    three metrics, the average and the deviation over the runs of the scores. *)
Definition table_of (x : experiment) (p : prepared) (splits : list (list nat * list nat)) (rows : list line) : Prop :=
  Forall2 (fun c row => let '((m1, m2), cmp) := c in exists stats,
      row = ([mod_name (x_mods x) m1; mod_name (x_mods x) m2; match cmp with None => "internal"%string | Some k => mod_name (x_mods x) k end], stats) /\
      Forall2 (fun s ms => exists xs, Forall2 (two_score x p m1 m2 cmp s) splits xs /\ average_of xs (fst ms) /\ deviation_of xs (fst ms) (snd ms))
        [""; "_frob"; "_cosine"]%string stats)
    (list_prod [(0, 1); (1, 0)] [None; Some 0; Some 1]) rows.
