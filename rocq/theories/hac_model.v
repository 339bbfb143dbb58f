(** * Model of the histograms of co-occurrences of multimodal/features/hac.py.

    Integers are unbounded (the codes returned by scipy's vq are 32 bits wide,
    so that code * n_quantized overflows for codebooks of more than 46340
    elements).  The functions of librosa and scipy (mel spectrogram, delta, vq)
    are arguments of the model: any function.  Reading of wav files is not
    modelled. *)

From Coq Require Import List ZArith Bool.
Import ListNotations.
From Verif Require Import Py.
Local Open Scope Z_scope.

(** Elementwise operation of two one dimensional arrays: equal lengths, or one
    of length 1 that is repeated; ValueError otherwise. *)
Definition elementwise (op : Z -> Z -> Z) (a b : list Z) : result (list Z) :=
  if (length a =? length b)%nat then Ok (map (fun p => op (fst p) (snd p)) (combine a b))
  else match a, b with
       | [x], _ => Ok (map (op x) b)
       | _, [y] => Ok (map (fun x => op x y) a)
       | _, _ => Err ValueError
       end.

(** np.bincount(x, minlength=m): negative values and negative m are refused. *)
Definition bincount (x : list Z) (m : Z) : result (list nat) :=
  if existsb (fun v => v <? 0) x || (m <? 0) then Err ValueError
  else
    let n := Z.max m (1 + fold_right Z.max (-1) x) in
    Ok (map (fun i => length (filter (Z.eqb (Z.of_nat i)) x)) (seq 0 (Z.to_nat n))).

(** /repo/multimodal/features/hac.py:152-169 *)
Definition coocurrences (quantized_data : list Z) (n_quantized lag : Z) : result (list nat) :=
  pair_idx <- elementwise Z.add
                (map (fun v => v * n_quantized) (slice_from quantized_data lag))
                (slice_to quantized_data (- lag)) ;;
  bincount pair_idx (n_quantized * n_quantized).

(** np.hstack of a list of one dimensional arrays. *)
Definition hstack1 {A} (l : list (list A)) : result (list A) :=
  match l with [] => Err ValueError | _ => Ok (concat l) end.

(** Two dimensional arrays: number of columns and rows. *)
Record mat (A : Type) := Mat { mcols : nat; mrows : list (list A) }.
Arguments Mat {A} _ _. Arguments mcols {A} _. Arguments mrows {A} _.
Definition transpose {A} (zero : A) (m : mat A) : mat A :=
  Mat (length (mrows m)) (map (fun j => map (fun r => nth j r zero) (mrows m)) (seq 0 (mcols m))).

Section Hac.
Variable F : Type.
Variable zero : F.
(** scipy.cluster.vq.vq(data, centroids)[0] *)
Variable vq : mat F -> mat F -> result (list Z).

(** hac.py:172-175 *)
Definition compute_coocurrences (data centroids : mat F) (lags : list Z) : result (list nat) :=
  quantized <- vq data centroids ;;
  coocs <- mapM (fun l => coocurrences quantized (Z.of_nat (length (mrows centroids))) l) lags ;;
  hstack1 coocs.

Variable Sound : Type.
Variable mfcc : Sound -> result (mat F).
Variable delta : mat F -> nat -> result (mat F).

(** hac.py:178-196; [mfcc] is the function of lines 45-65 called with the sample
    rate and the completed parameters. *)
Definition hac (sound : Sound) (codebooks : list (mat F)) (lags : list Z) : result (list nat) :=
  mfccs <- mfcc sound ;;
  d_mfccs <- delta mfccs 1 ;;
  dd_mfccs <- delta mfccs 2 ;;
  let streams := [transpose zero mfccs; transpose zero d_mfccs; transpose zero dd_mfccs] in
  hs <- mapM (fun sc => compute_coocurrences (fst sc) (snd sc) lags) (combine streams codebooks) ;;
  hstack1 hs.
End Hac.

(** hac.py:36-39: the parameters given override MFCC_PARAMS. *)
Definition complete_mfcc_params {K V} (eqb : K -> K -> bool) (defaults values : list (K * V))
  : list (K * V) :=
  fold_left (fun d kv => dict_set eqb d (fst kv) (snd kv)) values defaults.
