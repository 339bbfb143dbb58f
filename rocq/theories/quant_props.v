(** * Properties of vector quantization and of the construction of codebooks. *)

From Coq Require Import List ZArith Arith Reals Bool Lia Lra.
Import ListNotations.
From Verif Require Import Py hac_model quant_model quant_spec quant_proof quant_kmeans.
Local Open Scope R_scope.

(** C55: square_distances. *)
Theorem C55_distances : forall x cb,
  (mcols x <> mcols cb -> square_distances x cb = Err AssertionError) /\
  (mcols x = mcols cb -> exists d, square_distances x cb = Ok d /\
     mrows d = map (fun v => map (sq_dist v) (mrows cb)) (mrows x)).
Proof.
  intros x cb. split; [exact (square_bad x cb)|]. intros E. rewrite (square_ok x cb E).
  eexists. split; reflexivity.
Qed.
Print Assumptions C55_distances.

(** associate: the first of the nearest centroids of every vector. *)
Theorem C55_associate : forall x cb, mcols x = mcols cb ->
  (mrows cb <> [] -> exists c, associate x cb = Ok c /\
     Forall2 (first_nearest (mrows cb)) (mrows x) c) /\
  (mrows cb = [] -> associate x cb = Err ValueError).
Proof. intros x cb E. exact (conj (associate_ok x cb E) (associate_empty x cb E)). Qed.
Print Assumptions C55_associate.

(** soft_associate: positive weights that add up to 1, larger for the closer
    centroid when alpha is positive (smaller when it is negative, equal when it
    is zero), equal for equal distances. *)
Theorem C55_soft : forall x cb alpha, mcols x = mcols cb -> mrows cb <> [] ->
  exists h, soft_associate x cb alpha = Ok h /\ mcols h = length (mrows cb) /\
    Forall2 (fun v w => weights_of (mrows cb) v w /\
      forall i j, (i < length (mrows cb))%nat -> (j < length (mrows cb))%nat ->
        let d k := sq_dist v (nth k (mrows cb) []) in
        (0 < alpha -> d i < d j -> nth j w 0 < nth i w 0) /\
        (d i = d j -> nth i w 0 = nth j w 0) /\
        (alpha < 0 -> d i < d j -> nth i w 0 < nth j w 0) /\
        (alpha = 0 -> nth i w 0 = / INR (length (mrows cb))))
      (mrows x) (mrows h).
Proof. exact soft_all. Qed.
Print Assumptions C55_soft.

(** Their ratios, which with the sum determine them. *)
Theorem C55_ratio : forall x cb alpha, mcols x = mcols cb -> mrows cb <> [] ->
  exists h, soft_associate x cb alpha = Ok h /\
    Forall2 (fun v w => exists c, nearest (mrows cb) v c /\
      forall i j, (i < length (mrows cb))%nat -> (j < length (mrows cb))%nat ->
        let d k := sq_dist v (nth k (mrows cb) []) in
        nth i w 0 = nth j w 0 * exp (alpha * (d j - d i) / (/ 10 ^ 9 + d c)))
      (mrows x) (mrows h).
Proof. exact soft_ratio. Qed.
Print Assumptions C55_ratio.

(** get_histos without soft parameter: the indicator of a nearest centroid. *)
Theorem C55_hard : forall vq x cb, is_vq vq -> rect x -> rect cb -> mcols x = mcols cb -> mrows cb <> [] ->
  exists h, get_histos vq x cb None = Ok h /\ mcols h = length (mrows cb) /\
    Forall2 (fun v w => exists c, nearest (mrows cb) v c /\ one_hot (length (mrows cb)) c w)
      (mrows x) (mrows h).
Proof. exact hard_ok. Qed.
Print Assumptions C55_hard.

(** C79: every turn of iterative_kmeans splits a most populated cluster in two
    points placed symmetrically around its centroid. *)
Theorem C79_split : forall vq svd, is_vq vq -> is_svd svd -> forall data cs alpha,
  rect data -> rect cs -> mcols data = mcols cs -> (0 < mcols data)%nat ->
  mrows data <> [] -> mrows cs <> [] ->
  exists codes h p r1 r2, vq data cs = Ok codes /\ Forall2 (nearest (mrows cs)) (mrows data) codes /\
    most_populated codes (length (mrows cs)) h /\ length p = mcols cs /\
    moved (nth h (mrows cs) []) p alpha r1 /\ moved (nth h (mrows cs) []) p (- alpha) r2 /\
    split_largest vq svd data cs alpha =
      Ok (Mat (mcols cs) (firstn h (mrows cs) ++ skipn (S h) (mrows cs) ++ [r1; r2])).
Proof. exact split_ok. Qed.
Print Assumptions C79_split.

(** It stops after at most k - 1 turns with k centroids (one when k < 1). *)
Theorem C79_count : forall vq svd kmeans2, is_vq vq -> is_svd svd -> is_kmeans2 kmeans2 ->
  forall data k alpha fuel, rect data -> (0 < mcols data)%nat -> mrows data <> [] ->
  (k <= Z.of_nat (fuel + 1))%Z ->
  exists c, iterative_kmeans vq svd kmeans2 fuel data k alpha = Ok c /\ rect c /\
    mcols c = mcols data /\ length (mrows c) = Nat.max 1 (Z.to_nat k).
Proof. exact kmeans_count. Qed.
Print Assumptions C79_count.

Theorem C79_modes : forall vq svd kmeans2, is_vq vq -> is_svd svd -> is_kmeans2 kmeans2 ->
  forall kr data k m fuel,
  build_codebook vq svd kmeans2 kr fuel data k OtherMode = Err ValueError /\
  build_codebook vq svd kmeans2 kr fuel data k Raw = kr data k /\
  (m = Iterative -> rect data -> (0 < mcols data)%nat -> mrows data <> [] ->
   (k <= Z.of_nat (fuel + 1))%Z ->
   exists c, build_codebook vq svd kmeans2 kr fuel data k m = Ok c /\
     length (mrows c) = Nat.max 1 (Z.to_nat k)).
Proof. exact build_modes. Qed.
Print Assumptions C79_modes.

(** ** Cases *)
Example ex_is_vq : is_vq associate.
Proof.
  intros x cb _ _ E N. destruct (associate_ok x cb E N) as (c & Ec & F). exists c. split; [exact Ec|].
  clear Ec. induction F as [|v i vs is_ [P _] F IH]; constructor; assumption.
Qed.
Example ex_is_svd : is_svd (fun x => Ok ([1], [repeat 1 (mcols x)])).
Proof.
  intros x _ _ _. do 2 eexists. split; [reflexivity|]. do 2 (split; [discriminate|]).
  constructor; [apply repeat_length|constructor].
Qed.
Example ex_is_kmeans2 : is_kmeans2 (fun _ c => Ok c).
Proof. intros x c _ Rc _ _ _. exists c. auto. Qed.
Definition pts : mat R := Mat 2 [[0; 0]; [3; 4]; [0; 1]].
Definition cents : mat R := Mat 2 [[0; 0]; [3; 3]].
Example ex_rect : rect pts /\ rect cents /\ mrows cents <> [] /\ (0 < mcols pts)%nat.
Proof. repeat split; try (repeat constructor); discriminate. Qed.
Example ex_near : nearest (mrows cents) [3; 4] 1 /\ ~ nearest (mrows cents) [3; 4] 0.
Proof.
  split.
  - split; [cbn; lia|]. intros [|[|j]] J; cbn [length mrows cents] in J; try lia; cbn; lra.
  - intros [_ H]. specialize (H 1%nat ltac:(cbn; lia)). cbn in H. lra.
Qed.
Example ex_hot : one_hot 3 1 [0; 1; 0].
Proof. split; [reflexivity|]. split; [lia|]. intros [|[|[|j]]] J; try lia; reflexivity. Qed.
