(** * Properties of the histograms of co-occurrences. *)

From Coq Require Import List ZArith Arith Bool Lia.
Import ListNotations.
From Verif Require Import Py hac_model hac_spec hac_proof.
Local Open Scope nat_scope.

(** C54: the vector of coocurrences counts pairs at the given lag. *)
Theorem C54_counts : forall q n lag, codes n q -> (0 <= n)%Z -> 1 <= lag ->
  exists v, coocurrences q n (Z.of_nat lag) = Ok v /\ counts_pairs q n lag v.
Proof. exact counts. Qed.
Print Assumptions C54_counts.

(** These conditions leave one vector only. *)
Theorem C54_unique : forall q n lag v w, (0 <= n)%Z ->
  counts_pairs q n lag v -> counts_pairs q n lag w -> v = w.
Proof. exact counts_unique. Qed.
Print Assumptions C54_unique.

(** Lag 0 fails on two values or more; on fewer it counts nothing. *)
Theorem C54_lag_zero : forall q n,
  (2 <= length q -> coocurrences q n 0 = Err ValueError) /\
  (length q <= 1 -> (0 <= n)%Z -> coocurrences q n 0 = Ok (repeat 0 (Z.to_nat (n * n)))).
Proof. intros q n. exact (conj (lag_zero q n) (lag_zero_short q n)). Qed.
Print Assumptions C54_lag_zero.

(** A negative lag is accepted: -m stands for length - m. *)
Theorem C54_negative_lag : forall q n m, 1 <= m -> m < length q ->
  coocurrences q n (- Z.of_nat m) = coocurrences q n (Z.of_nat (length q - m)).
Proof. exact lag_negative. Qed.
Print Assumptions C54_negative_lag.

(** compute_coocurrences: one block for each lag, in order. *)
Theorem C54_blocks : forall (F : Type) (vq : mat F -> mat F -> result (list Z)) data cb lags q,
  vq data cb = Ok q -> codes (Z.of_nat (length (mrows cb))) q ->
  lags <> [] -> Forall (fun l => 1 <= l) lags ->
  exists vs, compute_coocurrences F vq data cb (map Z.of_nat lags) = Ok (concat vs) /\
    Forall2 (fun l v => counts_pairs q (Z.of_nat (length (mrows cb))) l v) lags vs.
Proof. intros F. exact (@compute_blocks F). Qed.
Print Assumptions C54_blocks.

Theorem C54_no_lags : forall (F : Type) (vq : mat F -> mat F -> result (list Z)) data cb q,
  vq data cb = Ok q -> compute_coocurrences F vq data cb [] = Err ValueError.
Proof. intros F. exact (@no_lags F). Qed.
Print Assumptions C54_no_lags.

(** hac: the blocks of the streams that have a codebook, in order: static
    coefficients, first and second derivatives.  Streams without codebook and
    codebooks without stream are silently left out. *)
Theorem C54_hac : forall (F : Type) (zero : F) (vq : mat F -> mat F -> result (list Z))
    (Sound : Type) mfcc delta (sound : Sound) codebooks lags m d1 d2 qs,
  mfcc sound = Ok m -> delta m 1 = Ok d1 -> delta m 2 = Ok d2 ->
  let used := combine [transpose zero m; transpose zero d1; transpose zero d2] codebooks in
  codebooks <> [] -> lags <> [] -> Forall (fun l => 1 <= l) lags ->
  Forall2 (fun sc q => vq (fst sc) (snd sc) = Ok q /\
                       codes (Z.of_nat (length (mrows (snd sc)))) q) used qs ->
  exists vss, hac F zero vq Sound mfcc delta sound codebooks (map Z.of_nat lags) =
      Ok (concat (map (@concat nat) vss)) /\
    Forall2 (fun scq vs => Forall2 (fun l v =>
        counts_pairs (snd scq) (Z.of_nat (length (mrows (snd (fst scq))))) l v) lags vs)
      (combine used qs) vss.
Proof. intros F zero vq Sound. exact (@hac_blocks F zero vq Sound). Qed.
Print Assumptions C54_hac.

(** A value outside of the codebook is counted as another pair. *)
Theorem C54_wrong_code_refuted :
  ~ (forall q n lag v a b, Forall (fun x => (0 <= x)%Z) q -> (0 <= n)%Z -> 1 <= lag ->
       coocurrences q n (Z.of_nat lag) = Ok v -> (0 <= a < n)%Z -> (0 <= b < n)%Z ->
       nth (Z.to_nat (b * n + a)) v 0 = pairs q lag a b).
Proof.
  intros H. specialize (H [2; 0]%Z 2%Z 1 [0; 0; 1; 0] 0%Z 1%Z).
  enough (1 = 0) by discriminate. apply H; try reflexivity; try lia. repeat constructor; lia.
Qed.
Print Assumptions C54_wrong_code_refuted.

(** ** Cases *)
Example ex_codes : codes 3 [0; 2; 1; 2; 1; 0]%Z.
Proof. repeat constructor; lia. Qed.
Example ex_counts : coocurrences [0; 1; 1; 0; 1; 1; 1]%Z 2 2 = Ok [0; 1; 2; 2] /\
  pairs [0; 1; 1; 0; 1; 1; 1]%Z 2 1 0 = 1 /\ pairs [0; 1; 1; 0; 1; 1; 1]%Z 2 1 1 = 2.
Proof. repeat split. Qed.
Example ex_long_lag : coocurrences [0; 1; 1]%Z 2 7 = Ok [0; 0; 0; 0].
Proof. reflexivity. Qed.
Example ex_hac : let m := Mat 3 [[0; 1; 1]%Z; [5; 5; 5]%Z] in
  let vq := fun (d c : mat Z) => Ok (map (fun r => nth 0 r 0%Z) (mrows d)) in
  hac Z 0%Z vq unit (fun _ => Ok m) (fun x _ => Ok x) tt [Mat 2 [[0;0]; [1;1]]%Z; Mat 2 [[0;0]; [1;1]]%Z] [1; 2]%Z =
  Ok ([0; 0; 1; 1] ++ [0; 0; 1; 0] ++ [0; 0; 1; 1] ++ [0; 0; 1; 0]).
Proof. reflexivity. Qed.
