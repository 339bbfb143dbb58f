(** * Properties of multimodal/evaluation.py. *)

From Coq Require Import List ZArith Arith Bool QArith Permutation Sorted Lia.
Import ListNotations.
From Verif Require Import Py evaluation_model evaluation_spec evaluation_proof evaluation_direct.
Local Open Scope nat_scope.

(** C20: the first [number] occurrences of each label, or ValueError. *)
Theorem C20_first_occurrences : forall L (eqb : L -> L -> bool) labels label_set number,
  ((forall l, In l label_set -> number <= length (occurrences eqb labels l)) /\
   chose_examples eqb labels label_set number =
     Ok (flat_map (fun l => firstn number (occurrences eqb labels l)) label_set)) \/
  ((exists l, In l label_set /\ length (occurrences eqb labels l) < number) /\
   chose_examples eqb labels label_set number = Err ValueError).
Proof. intros L eqb. exact (chose_examples_spec eqb). Qed.
Print Assumptions C20_first_occurrences.

Theorem C20_distinct_valid : forall L (eqb : L -> L -> bool) labels label_set number out,
  (forall x y, eqb x y = true <-> x = y) ->
  NoDup label_set -> chose_examples eqb labels label_set number = Ok out ->
  NoDup out /\ length out = number * length label_set /\
  forall i, In i out -> exists l, nth_error labels i = Some l /\ In l label_set.
Proof. intros L eqb labels label_set number out H. exact (chose_examples_valid eqb H labels label_set number out). Qed.
Print Assumptions C20_distinct_valid.

(** C21: each sample receives the label of its first nearest example. *)
Theorem C21_nearest : forall (D L Row : Type) (ltb : D -> D -> bool) (measure : Row -> Row -> D)
    (reco ex : list Row) (ex_labels : list L),
  strict_weak (fun x y => ltb x y = true) ->
  ex <> [] -> length ex = length ex_labels ->
  exists found, classify_NN ltb (fun r e => Ok (measure r e)) reco ex ex_labels = Ok found /\
    Forall2 (fun r l => exists j, first_min (fun x y => ltb x y = true) (map (measure r) ex) j /\
                                  nth_error ex_labels j = Some l) reco found.
Proof. intros D L Row ltb measure reco ex ex_labels H. exact (classify_NN_spec ltb H measure reco ex ex_labels). Qed.
Print Assumptions C21_nearest.

Theorem C21_no_example : forall (D L Row : Type) (ltb : D -> D -> bool) (measure : Row -> Row -> D)
    (reco : list Row) (ex_labels : list L),
  classify_NN ltb (fun r e => Ok (measure r e)) reco [] ex_labels = Err ValueError.
Proof. intros D L Row ltb measure. exact (classify_NN_no_example ltb measure). Qed.
Print Assumptions C21_no_example.

(** C22: the score is the exact fraction of matching positions. *)
Theorem C22_score_fraction : forall L (eqb : L -> L -> bool) (true_ found : list L),
  (forall x y, eqb x y = true <-> x = y) ->
  true_ <> [] -> length found = length true_ ->
  exists s, found_labels_to_score eqb true_ found = Some s /\
    (s == inject_Z (Z.of_nat (agreements eqb found true_)) / inject_Z (Z.of_nat (length true_)))%Q /\
    (0 <= s <= 1)%Q /\ (s == 1 <-> found = true_)%Q /\
    ((s == 0)%Q <-> forall i x y, nth_error found i = Some x -> nth_error true_ i = Some y -> x <> y).
Proof. intros L eqb. exact (score_spec eqb). Qed.
Print Assumptions C22_score_fraction.

Theorem C22_score_truncates : forall L (eqb : L -> L -> bool) (true_ found : list L),
  let n := Nat.min (length found) (length true_) in
  found_labels_to_score eqb true_ found =
  found_labels_to_score eqb (firstn n true_) (firstn n found).
Proof. intros L eqb. exact (score_truncates eqb). Qed.
Print Assumptions C22_score_truncates.

Theorem C22_evaluate_NN : forall (L D Row : Type) (eqb : L -> L -> bool) (ltb : D -> D -> bool)
    (measure : Row -> Row -> result D) reco test true_labels test_labels,
  evaluate_NN_label eqb ltb measure reco test true_labels test_labels =
  (found <- classify_NN ltb measure reco test test_labels ;;
   Ok (found_labels_to_score eqb true_labels found))%py.
Proof. intros L D Row. exact (@evaluate_NN_is_score L D Row). Qed.
Print Assumptions C22_evaluate_NN.

Theorem C22_scores_from_dists : forall (L D : Type) (eqb : L -> L -> bool) (ltb : D -> D -> bool)
    (d : dists D) true_0 true_1,
  scores_from_dists eqb ltb d true_0 true_1 =
  match true_1 with
  | Some t => (found <- dists_to_found_labels ltb d t ;;
               Ok (found_labels_to_score eqb true_0 found))%py
  | None => if length (d_rows d) =? d_cols d
            then (found <- dists_to_found_labels ltb d true_0 ;;
                  Ok (found_labels_to_score eqb true_0 found))%py
            else Err AssertionError
  end.
Proof. intros L D. exact (@scores_from_dists_is_score L D). Qed.
Print Assumptions C22_scores_from_dists.

(** From a matrix of distances, the score is the share of the rows whose nearest column has
    the true label; without labels of the columns the matrix must be square and the labels of
    the rows are used. *)
Theorem C22_share : forall (L D : Type) (eqb : L -> L -> bool) (ltb : D -> D -> bool) (d : dists D) true_0 labels,
  (forall x y, eqb x y = true <-> x = y) -> strict_weak (fun x y => ltb x y = true) ->
  0 < d_cols d -> (forall row, In row (d_rows d) -> length row = d_cols d) ->
  d_cols d <= length labels -> length (d_rows d) = length true_0 -> true_0 <> [] ->
  exists found s, scores_from_dists eqb ltb d true_0 (Some labels) = Ok (Some s) /\
    Forall2 (nearest_label (fun x y => ltb x y = true) labels) (d_rows d) found /\
    (s == inject_Z (Z.of_nat (agreements eqb found true_0)) / inject_Z (Z.of_nat (length true_0)))%Q.
Proof. intros L D eqb ltb d true_0 labels He Hs. exact (score_direct eqb ltb He Hs d true_0 labels). Qed.
Print Assumptions C22_share.

Theorem C22_square : forall (L D : Type) (eqb : L -> L -> bool) (ltb : D -> D -> bool) (d : dists D) true_0 labels,
  (d_cols d = length (d_rows d) -> scores_from_dists eqb ltb d true_0 None = scores_from_dists eqb ltb d true_0 (Some true_0)) /\
  (d_cols d <> length (d_rows d) -> scores_from_dists eqb ltb d true_0 None = Err AssertionError) /\
  (d_cols d = 0 -> scores_from_dists eqb ltb d true_0 (Some labels) = Err ValueError).
Proof.
  intros L D eqb ltb d true_0 labels. exact (conj (score_same eqb ltb d true_0) (conj (score_not_square eqb ltb d true_0) (score_no_column eqb ltb d true_0 labels))).
Qed.
Print Assumptions C22_square.

(** The same for the evaluation of nearest neighbours. *)
Theorem C22_nearest_share : forall (L D Row : Type) (eqb : L -> L -> bool) (ltb : D -> D -> bool) (measure : Row -> Row -> D)
    reco test true_labels labels,
  (forall x y, eqb x y = true <-> x = y) -> strict_weak (fun x y => ltb x y = true) ->
  test <> [] -> length test = length labels -> length reco = length true_labels -> true_labels <> [] ->
  exists found s, evaluate_NN_label eqb ltb (fun r e => Ok (measure r e)) reco test true_labels labels = Ok (Some s) /\
    Forall2 (fun r l => nearest_label (fun x y => ltb x y = true) labels (map (measure r) test) l) reco found /\
    (s == inject_Z (Z.of_nat (agreements eqb found true_labels)) / inject_Z (Z.of_nat (length true_labels)))%Q.
Proof. intros L D Row eqb ltb measure reco test t labels He Hs. exact (NN_direct eqb ltb He Hs measure reco test t labels). Qed.
Print Assumptions C22_nearest_share.

(** C23: presence matrix. *)
Theorem C23_presence : forall (true_ found : list Z) n,
  length true_ = length found ->
  (forall x, In x true_ -> in_range n x) -> (forall x, In x found -> in_range n x) ->
  exists conf, found_labels_to_confusion true_ found n = Ok conf /\ square n conf /\
    forall i j, i < n -> j < n ->
      (pair_at true_ found i j -> entry conf i j = Some 1%Z) /\
      (~ pair_at true_ found i j -> entry conf i j = Some 0%Z).
Proof. exact confusion_ok. Qed.
Print Assumptions C23_presence.

(** C23: it is the matrix of counts promised by the docstring exactly when no
    pair repeats. *)
Theorem C23_counts_iff_no_repeat : forall (true_ found : list Z) n conf,
  length true_ = length found ->
  (forall x, In x true_ -> in_range n x) -> (forall x, In x found -> in_range n x) ->
  found_labels_to_confusion true_ found n = Ok conf ->
  ((forall i j, i < n -> j < n ->
      entry conf i j = Some (Z.of_nat (pair_count true_ found i j))) <->
   NoDup (combine true_ found)).
Proof. exact confusion_counts_iff. Qed.
Print Assumptions C23_counts_iff_no_repeat.

(** C24: row by row, the indicator of the best k positions. *)
Theorem C24_top_k : forall argsort n (reco : list (list Q)) (trues : list (list Z)),
  (forall keys, sorts keys (argsort keys)) ->
  trues <> [] -> length reco = length trues ->
  (forall r, In r reco -> length r = n) ->
  (forall t, In t trues -> length t = n /\ binary_row t) ->
  exists ok, compare_labels_given_nb argsort n reco trues = Ok ok /\
    length ok = length trues /\
    forall i r t, nth_error reco i = Some r -> nth_error trues i = Some t ->
      exists b, nth_error ok i = Some b /\
        (b = true <-> top_matches (argsort (map Qopp r)) t).
Proof. exact compare_given_nb_spec. Qed.
Print Assumptions C24_top_k.

(** C24: consequence on the scores, whatever the (unstable) sort does. *)
Theorem C24_true_above_false : forall (r : list Q) (t : list Z) idx,
  length r = length t -> binary_row t -> sorts (map Qopp r) idx ->
  (forall i j, i < length t -> j < length t -> nth i t 0%Z = 1%Z -> nth j t 0%Z = 0%Z ->
     (nth j r 0 < nth i r 0)%Q) -> top_matches idx t.
Proof. exact strict_matches. Qed.
Print Assumptions C24_true_above_false.

Theorem C24_match_means_above : forall (r : list Q) (t : list Z) idx,
  length r = length t -> sorts (map Qopp r) idx -> top_matches idx t ->
  forall i j, i < length t -> j < length t -> nth i t 0%Z = 1%Z -> nth j t 0%Z = 0%Z ->
     (nth j r 0 <= nth i r 0)%Q.
Proof. exact matches_weak. Qed.
Print Assumptions C24_match_means_above.

(** C66: compare_labels_threshold. *)
Theorem C66_threshold : forall reco trues threshold ok,
  compare_labels_threshold reco trues threshold = Ok ok ->
  length ok = length trues /\
  forall i r t b, nth_error reco i = Some r -> nth_error trues i = Some t ->
    nth_error ok i = Some b ->
    (b = true <-> forall j x y, nth_error r j = Some x -> nth_error t j = Some y ->
       (y = 1%Z /\ (threshold <= x)%Q) \/ (y = 0%Z /\ (x < threshold)%Q)).
Proof. exact threshold_spec. Qed.
Print Assumptions C66_threshold.

(** C67: evaluate_label_reco. *)
Theorem C67_label_reco : forall D (ltb : D -> D -> bool) (acti : dists D) (labels : list Z),
  strict_weak (fun x y => ltb y x = true) ->
  0 < d_cols acti -> (forall r, In r (d_rows acti) -> length r = d_cols acti) ->
  (length (d_rows acti) <> length labels ->
     evaluate_label_reco ltb acti labels = Err AssertionError) /\
  (length (d_rows acti) = length labels -> labels <> [] ->
   exists best s, Forall2 (first_min (fun x y => ltb y x = true)) (d_rows acti) best /\
     evaluate_label_reco ltb acti labels = Ok (Some s) /\
     (s == inject_Z (Z.of_nat (agreements Z.eqb (map Z.of_nat best) labels)) /
           inject_Z (Z.of_nat (length labels)))%Q).
Proof. intros D. exact (@evaluate_label_reco_spec D). Qed.
Print Assumptions C67_label_reco.

(** ** Concrete cases meeting the hypotheses. *)

Example ex_chose : chose_examples Nat.eqb [1; 0; 1; 1; 0] [0; 1] 2 = Ok [1; 4; 0; 2].
Proof. reflexivity. Qed.
Example ex_chose_missing : chose_examples Nat.eqb [1; 0; 1] [0; 1] 2 = Err ValueError.
Proof. reflexivity. Qed.
Example ex_nat_eqb : forall x y, Nat.eqb x y = true <-> x = y.
Proof. exact Nat.eqb_eq. Qed.

Example ex_strict_weak : strict_weak (fun x y : Z => Z.ltb x y = true).
Proof.
  split; [|split]; intros; rewrite ?Z.ltb_lt in *; lia.
Qed.
Definition ex_measure (a b : Z) : Z := Z.abs (a - b).
Example ex_classify :
  classify_NN Z.ltb (fun r e => Ok (ex_measure r e)) [2; 9; 5]%Z [1; 9; 3]%Z [7; 8; 7]
  = Ok [7; 8; 7].
Proof. reflexivity. Qed.
Example ex_evaluate :
  evaluate_NN_label Nat.eqb Z.ltb (fun r e => Ok (ex_measure r e)) [2; 9; 5]%Z [1; 9; 3]%Z
    [7; 7; 7] [7; 8; 7] = Ok (Some (2 # 3)%Q).
Proof. reflexivity. Qed.

Example ex_share : let d := Dists [[3; 1; 2]; [5; 5; 9]]%Z 3 in
  0 < d_cols d /\ (forall row, In row (d_rows d) -> length row = d_cols d) /\ length (d_rows d) = length [7; 8] /\
  scores_from_dists Nat.eqb Z.ltb d [7; 8] (Some [8; 7; 7]) = Ok (Some (2 # 2)%Q).
Proof. repeat split; [cbn; lia|]. intros row [<-|[<-|[]]]; reflexivity. Qed.
Example ex_confusion :
  found_labels_to_confusion [0; 0; 1]%Z [1; 1; 1]%Z 2 = Ok [[0; 1]; [0; 1]]%Z.
Proof. reflexivity. Qed.
Example ex_confusion_count : pair_count [0; 0; 1]%Z [1; 1; 1]%Z 0 1 = 2.
Proof. reflexivity. Qed.

(** An argsort with the required property: insertion sort of the positions. *)
Fixpoint insert_key (keys : list Q) (i : nat) (l : list nat) : list nat :=
  match l with
  | [] => [i]
  | j :: l' => if Qle_bool (nth i keys 0%Q) (nth j keys 0%Q) then i :: l
               else j :: insert_key keys i l'
  end.
Definition ex_argsort (keys : list Q) : list nat :=
  fold_right (insert_key keys) [] (seq 0 (length keys)).

Lemma insert_key_perm keys i l : Permutation (insert_key keys i l) (i :: l).
Proof.
  induction l as [|j l IH]; simpl; [reflexivity|]. destruct (Qle_bool _ _); [reflexivity|].
  rewrite IH. apply perm_swap.
Qed.
Lemma insert_key_sorted keys i l :
  StronglySorted (fun i j => (nth i keys 0 <= nth j keys 0)%Q) l ->
  StronglySorted (fun i j => (nth i keys 0 <= nth j keys 0)%Q) (insert_key keys i l).
Proof.
  induction 1 as [|j l Hs IH Hj]; simpl; [repeat constructor|].
  destruct (Qle_bool _ _) eqn:E.
  - apply Qle_bool_iff in E. constructor; [constructor; assumption|].
    constructor; [exact E|]. eapply Forall_impl; [|exact Hj]. intros k Hk.
    eapply Qle_trans; eassumption.
  - assert (Hji : (nth j keys 0 <= nth i keys 0)%Q).
    { apply Qlt_le_weak, Qnot_le_lt. intros H. apply Qle_bool_iff in H. congruence. }
    constructor; [exact IH|]. rewrite Forall_forall in Hj |- *. intros k Hk.
    eapply Permutation_in in Hk; [|apply insert_key_perm]. destruct Hk as [<-|Hk]; auto.
Qed.
Example ex_argsort_sorts : forall keys, sorts keys (ex_argsort keys).
Proof.
  intros keys. unfold sorts, ex_argsort. generalize (seq 0 (length keys)) as l.
  induction l as [|i l [IH1 IH2]]; [split; constructor|]. simpl. split.
  - rewrite insert_key_perm. constructor. exact IH1.
  - apply insert_key_sorted. exact IH2.
Qed.
Example ex_given_nb :
  compare_labels_given_nb ex_argsort 3 [[1 # 2; 1 # 5; 3 # 4]; [1; 2; 3]]%Q
    [[1; 0; 1]; [1; 0; 1]]%Z = Ok [true; false].
Proof. reflexivity. Qed.
Example ex_binary : binary_row [1; 0; 1]%Z.
Proof. intros x [<-|[<-|[<-|[]]]]; auto. Qed.
Example ex_threshold :
  compare_labels_threshold [[1 # 2; 1 # 5]; [1 # 2; 1 # 5]]%Q [[1; 0]; [1; 1]]%Z (1 # 4)
  = Ok [true; false].
Proof. reflexivity. Qed.
Example ex_label_reco :
  evaluate_label_reco Z.ltb (Dists [[1; 5; 2]; [4; 3; 4]]%Z 3) [1; 2]%Z = Ok (Some (1 # 2)%Q).
Proof. reflexivity. Qed.
