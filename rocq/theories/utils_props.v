(** * Properties of multimodal/lib/utils.py. *)

From Coq Require Import List ZArith Arith Bool Permutation Sorted QArith Reals Lia Lra.
From Flocq Require Import Core.
Import ListNotations.
From Verif Require Import Py utils_model utils_spec utils_proof.
Local Open Scope nat_scope.

(** C25: in binary64 arithmetic, for up to 2^51 samples. *)
Theorem C25_splits : forall shuffle n ratio,
  (Z.of_nat n <= 2 ^ 51)%Z -> (0 < ratio <= 1)%R ->
  (forall l, Permutation (shuffle l) l) ->
  ((1 <= nb_test_of round64 n ratio)%Z ->
   exists splits, random_split round64 shuffle n ratio = Ok splits /\
    Z.of_nat (length splits) = reps_of round64 ratio /\
    (forall s, In s splits -> is_split n s /\
       Z.of_nat (length (snd s)) = nb_test_of round64 n ratio) /\
    (forall i j si sj, i <> j -> nth_error splits i = Some si -> nth_error splits j = Some sj ->
       disjoint (snd si) (snd sj))) /\
  (nb_test_of round64 n ratio = 0%Z ->
   random_split round64 shuffle n ratio = Err ValueError).
Proof. exact random_split_spec. Qed.
Print Assumptions C25_splits.

(** C26. *)
Theorem C26_leave_one_out : forall n,
  length (leave_one_out n) = n /\
  forall i, i < n -> exists train, nth_error (leave_one_out n) i = Some (train, [i]) /\
    StronglySorted lt train /\ forall j, In j train <-> j < n /\ j <> i.
Proof. exact leave_one_out_spec. Qed.
Print Assumptions C26_leave_one_out.

(** C27: rows of any type. *)
Theorem C27_velocities : forall (V : Type) (sub : V -> V -> V) (x : list V), x <> [] ->
  exists v, velocities sub x = Ok v /\ length v = length x /\
  forall i a b, i < length x -> nth_error x i = Some a ->
    nth_error x ((i + 1) mod length x) = Some b -> nth_error v i = Some (sub b a).
Proof. intros V. exact (@velocities_spec V). Qed.
Print Assumptions C27_velocities.

Theorem C27_delayed_circular : forall (V : Type) (sub : V -> V -> V) (zero : V) (x : list V) (d : Z),
  (0 <= d)%Z ->
  let d' := Nat.min (Z.to_nat d) (length x) in
  exists v, delayed_velocities sub zero d x Circular = Ok v /\ length v = length x /\
  forall i a b, i < length x -> nth_error x i = Some a ->
    nth_error x ((i + (length x - d')) mod length x) = Some b ->
    nth_error v i = Some (sub a b).
Proof. intros V. exact (@delayed_circular V). Qed.
Print Assumptions C27_delayed_circular.

Theorem C27_delayed_zeros : forall (V : Type) (sub : V -> V -> V) (zero : V) (x : list V) (d : Z),
  (1 <= d)%Z ->
  let d' := Nat.min (Z.to_nat d) (length x) in
  x <> [] ->
  exists v, delayed_velocities sub zero d x Zeros = Ok v /\ length v = length x /\
  forall i a, nth_error x i = Some a ->
    (i < d' -> nth_error v i = Some (sub a zero)) /\
    (forall b, d' <= i -> nth_error x (i - d') = Some b -> nth_error v i = Some (sub a b)).
Proof. intros V. exact (@delayed_zeros V). Qed.
Print Assumptions C27_delayed_zeros.

Theorem C27_zero_delay_zeros_fails : forall (V : Type) (sub : V -> V -> V) (zero : V) (x : list V),
  2 <= length x -> delayed_velocities sub zero 0 x Zeros = Err ValueError.
Proof. intros V. exact (@delayed_zeros_zero V). Qed.
Print Assumptions C27_zero_delay_zeros_fails.

Theorem C27_other_padding_fails : forall (V : Type) (sub : V -> V -> V) (zero : V) (x : list V) d,
  delayed_velocities sub zero d x OtherPadding = Err ValueError.
Proof. intros V. exact (@delayed_other V). Qed.
Print Assumptions C27_other_padding_fails.

Theorem C27_filter_cont : forall (V : Type) (avg3 : V -> V -> V -> V) (x : list V), x <> [] ->
  exists v, filter_cont avg3 x = Ok v /\ length v = length x /\
  forall i a b c, nth_error x i = Some a -> nth_error x (i - 1) = Some b ->
    nth_error x (Nat.min (i + 1) (length x - 1)) = Some c ->
    nth_error v i = Some (avg3 a b c).
Proof. intros V. exact (@filter_cont_spec V). Qed.
Print Assumptions C27_filter_cont.

(** On a column of rationals, bounds (hence constants) are preserved. *)
Theorem C27_filter_cont_bounds : forall (x v : list Q) lo hi,
  filter_cont (fun a b c => ((a + b + c) / 3)%Q) x = Ok v ->
  (forall a, In a x -> (lo <= a <= hi)%Q) -> (forall a, In a v -> (lo <= a <= hi)%Q).
Proof. exact filter_cont_bounds. Qed.
Print Assumptions C27_filter_cont_bounds.

(** C28. *)
Theorem C28_flatten : forall A k (x : nested A) l, flatten x k = Ok l -> lists_level x k l.
Proof. intros A. exact (@flatten_paths A). Qed.
Print Assumptions C28_flatten.

Theorem C28_flatten_error : forall A k (x : nested A),
  (exists l, flatten x k = Ok l) \/
  (flatten x k = Err TypeError /\
   exists p a, length p < k /\ at_path x p = Some (Leaf a)).
Proof. intros A. exact (@flatten_error A). Qed.
Print Assumptions C28_flatten_error.

Theorem C28_distribute : forall A k (x y : nested A) values,
  values <> [] -> distribute x values k = Ok y ->
  exists ls, flatten x k = Ok (map Node ls) /\
    flatten y k = Ok (map (fun l => Node (map (fun v => Node (l ++ [v])) values)) ls) /\
    flatten y (S k) = Ok (flat_map (fun l => map (fun v => Node (l ++ [v])) values) ls).
Proof. intros A. exact (@distribute_level A). Qed.
Print Assumptions C28_distribute.

Theorem C28_filter_bound : forall x inf sup, (inf <= sup)%Z ->
  (inf <= filter_bound x inf sup <= sup)%Z /\
  ((inf <= x <= sup)%Z -> filter_bound x inf sup = x) /\
  filter_bound (filter_bound x inf sup) inf sup = filter_bound x inf sup /\
  (forall y, (inf <= y <= sup)%Z -> (Z.abs (filter_bound x inf sup - x) <= Z.abs (y - x))%Z).
Proof. exact filter_bound_spec. Qed.
Print Assumptions C28_filter_bound.

(** C68: meta_map acts exactly on the elements of its level. *)
Theorem C68_meta_map : forall A k f (x y : nested A),
  meta_map k f x = Ok y ->
  exists xs, flatten x k = Ok xs /\ flatten y k = Ok (map f xs).
Proof. intros A. exact (@meta_map_flatten A). Qed.
Print Assumptions C68_meta_map.

(** C69: manualy_normalize. *)
Theorem C69_normalize : forall low up x, ~ (up == low)%Q ->
  (manualy_normalize low up low == 0)%Q /\ (manualy_normalize low up up == 1)%Q /\
  (manualy_normalize low up x * (up - low) + low == x)%Q /\
  ((low <= x <= up)%Q -> (0 <= manualy_normalize low up x <= 1)%Q).
Proof. exact manualy_normalize_spec. Qed.
Print Assumptions C69_normalize.

Theorem C69_normalize_flat : forall low up x, (up == low)%Q ->
  (manualy_normalize low up x == x - low)%Q.
Proof. exact manualy_normalize_flat. Qed.
Print Assumptions C69_normalize_flat.

(** ** Concrete cases. *)

Lemma round64_int (m : Z) : (Z.abs m < 2 ^ 53)%Z -> round64 (IZR m) = IZR m.
Proof.
  intros H. unfold round64. apply round_generic; [apply valid_rnd_N|].
  apply generic_format_FLT. exists (Float radix2 m 0).
  - unfold F2R. simpl. ring.
  - exact H.
  - simpl. lia.
Qed.

(** Ten samples, ratio one half: two splits of five. *)
Example ex_split_sizes :
  nb_test_of round64 10 (1 / 2) = 5%Z /\ reps_of round64 (1 / 2) = 2%Z.
Proof.
  unfold nb_test_of, reps_of. change (Z.of_nat 10) with 10%Z.
  rewrite (round64_int 10) by (simpl; lia).
  replace (1 / 2 * 10)%R with (IZR 5) by (simpl; lra).
  replace (1 / (1 / 2))%R with (IZR 2) by (simpl; field).
  rewrite !round64_int by (simpl; lia). rewrite !Ztrunc_IZR. split; reflexivity.
Qed.
Example ex_split_hyp : (Z.of_nat 10 <= 2 ^ 51)%Z /\ (0 < 1 / 2 <= 1)%R.
Proof. split; [simpl; lia|lra]. Qed.
Example ex_split :
  random_split_from 2 2 [3; 0; 4; 1; 2] =
  Ok [([4; 1; 2], [3; 0]); ([3; 0; 2], [4; 1])].
Proof. reflexivity. Qed.
Example ex_loo : leave_one_out 3 = [([1; 2], [0]); ([0; 2], [1]); ([0; 1], [2])].
Proof. reflexivity. Qed.

Example ex_velocities : velocities Z.sub [1; 4; 9]%Z = Ok [3; 5; -8]%Z.
Proof. reflexivity. Qed.
Example ex_circular : delayed_velocities Z.sub 0%Z 2 [1; 4; 9]%Z Circular = Ok [-3; -5; 8]%Z.
Proof. reflexivity. Qed.
Example ex_zeros : delayed_velocities Z.sub 0%Z 2 [1; 4; 9]%Z Zeros = Ok [1; 4; 8]%Z.
Proof. reflexivity. Qed.
Example ex_filter_cont : filter_cont (fun a b c => (100 * a + 10 * b + c)%Z) [1; 4; 9]%Z =
  Ok [114; 419; 949]%Z.
Proof. reflexivity. Qed.

Definition ex_nested : nested nat :=
  Node [Node [Node [Leaf 1; Leaf 2]; Node [Leaf 1; Leaf 3]]; Node [Node [Leaf 2; Leaf 2]]].
Example ex_flatten : flatten ex_nested 2 =
  Ok [Node [Leaf 1; Leaf 2]; Node [Leaf 1; Leaf 3]; Node [Leaf 2; Leaf 2]].
Proof. reflexivity. Qed.
Example ex_distribute : distribute ex_nested [Leaf 7; Leaf 8] 2 =
  Ok (Node [Node [Node [Node [Leaf 1; Leaf 2; Leaf 7]; Node [Leaf 1; Leaf 2; Leaf 8]];
                  Node [Node [Leaf 1; Leaf 3; Leaf 7]; Node [Leaf 1; Leaf 3; Leaf 8]]];
            Node [Node [Node [Leaf 2; Leaf 2; Leaf 7]; Node [Leaf 2; Leaf 2; Leaf 8]]]]).
Proof. reflexivity. Qed.
Example ex_meta_map :
  meta_map 1 (fun x => match x with Leaf n => Leaf (S n) | y => y end)
    (Node [Leaf 1; Leaf 2]) = Ok (Node [Leaf 2; Leaf 3]).
Proof. reflexivity. Qed.
Example ex_normalize : (manualy_normalize 2 6 3 == 1 # 4)%Q.
Proof. reflexivity. Qed.
