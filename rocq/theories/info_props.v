(** * Theorems about the information of coefficients about labels. *)

From Coq Require Import List ZArith Bool Arith String Reals QArith Sorted Permutation Lia Lra.
Import ListNotations.
From Verif Require Import Py pairing_model munkres_model munkres_spec nd_model metrics_model words_spec info_model info_spec info_proof
  logger_model logger_spec learner_model experiment_model experiment_spec experiment_props info_keys restore_model restore_proof.
Open Scope py_scope.
Local Open Scope nat_scope.

(** ** C95 *)

(** The values of a coefficient are put into ten bins of the interval of all its values; for each
    label, the table of the frequencies (label or not, bin) is given to mutual_information; the
    result is zero exactly when bins and label are independent. *)
Theorem C95_information : forall (labels : list nat) (values : list R) (n_labels : nat) (by_label idx : list (list nat)),
  List.length labels = List.length values -> Forall (fun l => l < n_labels) labels -> values <> [] ->
  organize_by_values (map Z.of_nat labels) (Some n_labels) = Ok by_label -> let samples := combine labels values in
  exists vs lo hi a b, mutual_information_by_label by_label values idx = Ok vs /\ List.length vs = n_labels /\ extremes values lo hi /\ interval lo hi a b /\
  forall l, l < n_labels -> exists v nl, nth_error vs l = Some v /\ (0 <= v)%R /\ counts (of_label l) samples nl /\
    exists c d, (forall k, k < 10 -> counts (fun s => of_label l s /\ value_in a b k s) samples (c k) /\ counts (fun s => other_label l s /\ value_in a b k s) samples (d k)) /\
      list_sum (map c (seq 0 10)) = nl /\ list_sum (map c (seq 0 10)) + list_sum (map d (seq 0 10)) = List.length samples /\
      mutual_information (nd_model.mat 10 [map (fun k => (INR (c k) / INR (List.length samples))%R) (seq 0 10); map (fun k => (INR (d k) / INR (List.length samples))%R) (seq 0 10)]) = Ok v /\
      (v = 0%R <-> forall k, k < 10 -> c k * List.length samples = nl * (c k + d k)).
Proof. exact by_label_ok. Qed.
Print Assumptions C95_information.

(** One list of numbers, one number for each label, for each coefficient. *)
Theorem C95_matrix : forall (labels : list nat) (n_labels : nat) (internal : list (list R)),
  Forall (fun l => l < n_labels) labels -> labels <> [] -> Forall (fun c => List.length c = List.length labels) internal ->
  exists m by_label, organize_by_values (map Z.of_nat labels) (Some n_labels) = Ok by_label /\ info_matrix labels n_labels internal = Ok m /\
    Forall2 (fun values vs => mutual_information_by_label by_label values by_label = Ok vs /\ List.length vs = n_labels /\ Forall (fun v => (0 <= v)%R) vs) internal m.
Proof. exact info_matrix_ok. Qed.
Print Assumptions C95_matrix.
Theorem C95_no_sample : forall (n_labels : nat) (values : list R) (internal : list (list R)), values = [] ->
  info_matrix [] n_labels (values :: internal) = Err ValueError.
Proof. exact info_no_sample. Qed.
Print Assumptions C95_no_sample.

(** The plot shows every column once, first the columns of the best assignment of distinct
    coefficients to labels, then the others in their order; the numbers below are those of the
    columns. *)
Theorem C95_plot : forall (m : Qmatrix) (n K : nat), wf_matrix m -> nrows m = n -> mcols m = K -> 0 < n -> n <= K ->
  exists s r drawn, (forall fuel, 2 * K < fuel -> plot_mutual_info fuel K m = Ok (map Some (s ++ r), drawn)%list) /\
    List.length s = n /\ Permutation (s ++ r)%list (seq 0 K) /\ StronglySorted lt r /\
    drawn = map (fun row => map (fun j => nth j row 0%Q) (s ++ r)%list) (mrows m) /\
    forall s', is_injection n K s' -> (gain (mrows m) s' <= gain (mrows m) s)%Q.
Proof. exact plot_ok. Qed.
Print Assumptions C95_plot.
(** More labels than coefficients: no plot. *)
Theorem C95_plot_tall : forall (m : Qmatrix) (n K : nat), wf_matrix m -> nrows m = n -> mcols m = K -> 0 < K -> K < n ->
  forall fuel, 2 * n < fuel -> plot_mutual_info fuel K m = Err IndexError.
Proof. exact plot_tall. Qed.
Print Assumptions C95_plot_tall.

(** ** C96 *)

(** The names of the global values of an experiment, whether it ended or not. *)
Theorem C96_keys : forall (rd : random) (x : experiment) (f : option string) (w : world) (r : result unit), run_world rd x f = (w, r) ->
  forall k v, global_at w 0 k = Some v ->
  In k ["modalities"; "k"; "coefs"; "iter_train"; "iter_test"; "shuffle_labels"; "run_mode"; "debug";
        "label_pairing"; "sample_pairing"; "examples"; "start_time"; "end_time"]%string.
Proof. exact run_keys. Qed.
Print Assumptions C96_keys.
(** Those that the script asks for are not there, neither before nor after saving and loading. *)
Theorem C96_hyphens_refuted : forall (rd : random) (x : experiment) (f : option string) (w : world) (r : result unit) (k : string),
  run_world rd x f = (w, r) -> k = "label-pairing"%string \/ k = "sample-pairing"%string ->
  get_value w 0 k = Err KeyError /\ forall w' j, same_contents w 0 w' j -> get_value w' j k = Err KeyError.
Proof. exact hyphens. Qed.
Print Assumptions C96_hyphens_refuted.
(** The values under the right names, and the same after saving and loading (tuples are lists). *)
Theorem C96_stored : forall (rd : random) (x : experiment) (f : option string) (w : world) (r : result unit) (p : prepared) splits,
  run_world rd x f = (w, r) -> prepare rd x = Ok p -> p_generator p = Ok splits ->
  forall k v, In (k, v)
    [("modalities"%string, VList (map (@VStr nd) (x_mods x)));
     ("label_pairing"%string, VTuple (map (fun l => VList (map (@VStr nd) l)) (p_names p)));
     ("sample_pairing"%string, VList (map (fun t => VTuple (map (fun i => VInt (Z.of_nat i)) t)) (p_pairing p)));
     ("examples"%string, VList (map (fun i => VInt (Z.of_nat i)) (p_examples p)))] ->
    get_value w 0 k = Ok v /\ forall w' j, same_contents w 0 w' j -> exists v', get_value w' j k = Ok v' /\ restored v v'.
Proof. exact written_some. Qed.
Print Assumptions C96_stored.
(** With them the experiment is restored as it was. *)
Theorem C96_restored : forall (rd : random) (x : experiment) (p : prepared), legal x rd -> prepare rd x = Ok p -> x_loaders x <> [] ->
  restore x (p_names p) (p_pairing p) (p_examples p) =
  Ok (p_coefs p, p_labels_all p, (p_others p, p_data_ex p, p_data p, p_labels_ex p, p_labels p)).
Proof. exact relabel_prepared. Qed.
Print Assumptions C96_restored.

(** ** Examples *)
Definition ex_m : Qmatrix := @Matrix Qarith [[1; 5; 2]; [4; 6; 0]]%Q 3.
Example C95_ex_plot : plot_mutual_info 7 3 ex_m = Ok ([Some 1; Some 0; Some 2], [[5; 1; 2]; [6; 4; 0]]%Q).
Proof. vm_compute. reflexivity. Qed.
Example C95_ex_tall : plot_mutual_info 5 1 (@Matrix Qarith [[1]; [4]]%Q 1) = Err IndexError.
Proof. vm_compute. reflexivity. Qed.
(** Two samples with different labels and different values: information. *)
Example C95_ex : exists v v', mutual_information_by_label [[0]; [1]] [0; 1]%R [] = Ok [v; v'] /\ v <> 0%R.
Proof.
  destruct (C95_information [0; 1] [0; 1]%R 2 [[0]; [1]] [] eq_refl ltac:(repeat constructor) ltac:(discriminate) eq_refl) as (vs & lo & hi & a & b & E & L & Ex & In & H).
  destruct vs as [|v [|v' [|]]]; try discriminate. exists v, v'. split; [exact E|]. destruct (H 0 ltac:(lia)) as (v0 & nl & Ev & _ & Cn & c & d & Cs & T1 & T2 & _ & Z). cbn in Ev. injection Ev as <-. rewrite Z. clear Z. intro Ind.
  cbn [combine List.length] in *. assert (lo = 0 /\ hi = 1)%R as [-> ->]. { destruct Ex as (I1 & I2 & B). pose proof (B 0%R ltac:(cbn; auto)). pose proof (B 1%R ltac:(cbn; auto)). cbn in I1, I2. destruct I1 as [<-|[<-|[]]], I2 as [<-|[<-|[]]]; lra. }
  destruct In as [(_ & -> & ->)|(X & _)]; [|lra].
  assert (P0 : value_in 0 1 0 (0, 0%R)). { unfold value_in, in_bin, edge; cbn. lra. }
  assert (P1 : ~ value_in 0 1 0 (1, 1%R)). { unfold value_in, in_bin, edge; cbn. intros [_ [X|[X _]]]; [lra|discriminate]. }
  destruct (Cs 0 ltac:(lia)) as [C0 D0]. specialize (Ind 0 ltac:(lia)).
  assert (c 0 = 1 /\ d 0 = 0 /\ nl = 1) as (Q1 & Q2 & Q3); [|rewrite Q1, Q2, Q3 in Ind; lia]. clear Ind.
  repeat match goal with H : counts _ (_ :: _) _ |- _ => inversion H; subst; clear H | H : counts _ [] _ |- _ => inversion H; subst; clear H end; unfold of_label, other_label in *; cbn in *; repeat split; try lia; tauto.
Qed.
Example C96_ex : exists p, prepare ex_rd (ex_x Two ["sound"; "image"]%string None) = Ok p /\
  restore (ex_x Two ["sound"; "image"]%string None) (p_names p) (p_pairing p) (p_examples p) =
  Ok (p_coefs p, p_labels_all p, (p_others p, p_data_ex p, p_data p, p_labels_ex p, p_labels p)).
Proof.
  destruct ex_run as (p & splits & w & E & _). exists p. split; [exact E|]. apply (C96_restored ex_rd); [|exact E|discriminate]. apply ex_legal.
Qed.
