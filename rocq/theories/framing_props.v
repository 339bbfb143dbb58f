(** * Properties of associate_to_window (pairing.py:65-94). *)

From Coq Require Import List ZArith QArith Bool Permutation Lia Lqa.
Import ListNotations.
From Verif Require Import Py window_model window_spec window_concat
  pairing_model framing_model framing_spec framing_proof.
Local Open Scope Q_scope.

(** ** C10.  [bs] are the label windows; [n] is the number of distinct frame
    labels.  Each frame gets the element of [frame_index] at its own position
    [p], whose frame label names the same group as the label found at the
    frame's start (see C15 for the look-up); for non-negative labels this is
    equality. *)
Theorem C10_frames_labelled : forall (I A P : Type) (shuf : nat -> list I -> list I)
    (bs : list (basic Z)) (s e : Q) (frame_index : list I) (frame_labels : list Z) (rate : Q)
    (ws : list (leaf I A P)),
  (forall k l, Permutation (shuf k l) l) ->
  chained tolerance (map bspan bs) -> Forall (fun b => b_obj b <> None) bs ->
  @concat_start Z A P (map LB bs) = Ok s -> @concat_end Z A P (map LB bs) = Ok e ->
  0 < rate -> tolerance * rate <= 1 # 2 -> s + tolerance <= e ->
  associate_to_window shuf (map LB bs) frame_index frame_labels rate = Ok ws ->
  exists gs fs ps, ws = map LB gs /\ @concat_of_frames I A P s e rate = Ok (map LB fs) /\
    map bspan gs = map bspan fs /\ tiles s (map bspan gs) e /\
    length ps = length gs /\ NoDup ps /\
    forall k g, nth_error gs k = Some g ->
      exists p i x y, nth_error ps k = Some p /\
        nth_error frame_index p = Some i /\ nth_error frame_labels p = Some y /\
        b_obj g = Some i /\
        (exists w, @get_subwindow_at Z A P (map LB bs) (b_start g) = Ok (LB w) /\ b_obj w = Some x) /\
        (forall n d, NoDup d -> (forall z, In z d <-> In z frame_labels) -> n = length d ->
           same_group n x y) /\
        ((0 <= x)%Z -> (0 <= y)%Z -> x = y).
Proof. exact @framing_success. Qed.
Print Assumptions C10_frames_labelled.

(** The call returns exactly when there are enough frames of every label asked
    for at the frame starts; otherwise it raises ValueError. *)
Theorem C10_runs_out : forall (I A P : Type) (shuf : nat -> list I -> list I)
    (bs : list (basic Z)) (s e : Q) (frame_index : list I) (frame_labels : list Z) (rate : Q)
    (n : nat) (d : list Z),
  (forall k l, Permutation (shuf k l) l) ->
  chained tolerance (map bspan bs) -> Forall (fun b => b_obj b <> None) bs ->
  @concat_start Z A P (map LB bs) = Ok s -> @concat_end Z A P (map LB bs) = Ok e ->
  0 < rate -> tolerance * rate <= 1 # 2 -> s + tolerance <= e ->
  NoDup d -> (forall z, In z d <-> In z frame_labels) -> n = length d ->
  (forall x, In x (map snd (combine frame_index frame_labels)) -> (- Z.of_nat n <= x < Z.of_nat n)%Z) ->
  exists fs asked, @concat_of_frames I A P s e rate = Ok (map LB fs) /\
    Forall2 (fun f x => exists w,
       @get_subwindow_at Z A P (map LB bs) (b_start f) = Ok (LB w) /\ b_obj w = Some x) fs asked /\
    let r := @associate_to_window I A P shuf (map LB bs) frame_index frame_labels rate in
    (enough n (map snd (combine frame_index frame_labels)) asked -> exists ws, r = Ok ws) /\
    (~ enough n (map snd (combine frame_index frame_labels)) asked -> r = Err ValueError).
Proof. exact @framing_decides. Qed.
Print Assumptions C10_runs_out.

(** Frame labels that do not number the groups are rejected with IndexError,
    whatever the label window. *)
Theorem C10_bad_frame_label : forall (I A P : Type) (shuf : nat -> list I -> list I)
    (labels : list (leaf Z A P)) (frame_index : list I) (frame_labels : list Z) (rate : Q)
    (n : nat) (d : list Z) (x : Z),
  NoDup d -> (forall z, In z d <-> In z frame_labels) -> n = length d ->
  In x (map snd (combine frame_index frame_labels)) -> ~ (- Z.of_nat n <= x < Z.of_nat n)%Z ->
  associate_to_window shuf labels frame_index frame_labels rate = Err IndexError.
Proof. exact @framing_bad_label. Qed.
Print Assumptions C10_bad_frame_label.

(** With a negative label the label of the chosen frame need not be equal to the
    label of the window: -1 stands for the last label. *)
Theorem C10_equal_label_refuted : exists (bs : list (basic Z)) (frame_labels : list Z),
  @associate_to_window nat unit unit (fun _ l => l) (map LB bs) (seq 0 (length frame_labels)) frame_labels 1
    = Ok [LB (Basic 0 1 (Some 1%nat))] /\
  map (@b_obj Z) bs = [Some 1%Z] /\ nth_error frame_labels 1 = Some (-1)%Z.
Proof.
  exists [Basic 0 1 (Some 1%Z)], [0; -1]%Z. split; [vm_compute; reflexivity|split; reflexivity].
Qed.
Print Assumptions C10_equal_label_refuted.

(** Examples: two labels, one frame per second; the frame starting at 2, on the
    boundary, takes the label of the window that ends there. *)
Example ex_windows : list (basic Z) := [Basic 0 2 (Some 0%Z); Basic 2 4 (Some 1%Z)].
Example ex_hypotheses :
  (forall (k : nat) (l : list nat), Permutation ((fun _ l => rev l) k l) l) /\
  chained TOL (map bspan ex_windows) /\ Forall (fun b => b_obj b <> None) ex_windows /\
  @concat_start Z unit unit (map LB ex_windows) = Ok 0 /\
  @concat_end Z unit unit (map LB ex_windows) = Ok 4 /\
  0 < 1 /\ TOL * 1 <= 1 # 2 /\ 0 + TOL <= 4.
Proof.
  split; [intros; symmetry; apply Permutation_rev|].
  split; [cbn; unfold near; vm_compute; repeat split; discriminate|].
  split; [repeat constructor; discriminate|].
  repeat split; vm_compute; try reflexivity; discriminate.
Qed.
Example ex_associate :
  @associate_to_window nat unit unit (fun _ l => rev l) (map LB ex_windows)
     [10; 11; 12; 13; 14]%nat [0; 1; 0; 1; 0]%Z 1
  = Ok (map LB [Basic 0 1 (Some 10%nat); Basic 1 2 (Some 12%nat);
                Basic 2 3 (Some 14%nat); Basic 3 4 (Some 11%nat)]).
Proof. vm_compute. reflexivity. Qed.
Example ex_runs_out :
  @associate_to_window nat unit unit (fun _ l => l) (map LB ex_windows)
     [10; 11; 12; 13]%nat [0; 1; 0; 1]%Z 1 = Err ValueError.
Proof. vm_compute. reflexivity. Qed.
Example ex_bad :
  @associate_to_window nat unit unit (fun _ l => l) (map LB ex_windows)
     [10; 11]%nat [0; 2]%Z 1 = Err IndexError.
Proof. vm_compute. reflexivity. Qed.
