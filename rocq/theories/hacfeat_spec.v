(** * Codebooks and features of sounds. *)

From Coq Require Import List ZArith Bool String.
Import ListNotations.
From Verif Require Import Py sound_model hac_model hac_spec.
Local Open Scope nat_scope.

Section Spec.
Context {F Sound : Type}.
Variable zero : F.
Variable wavs : string -> result Sound.
Variable mfcc : Sound -> result (mat F).
Variable delta : mat F -> nat -> result (mat F).

(** The coefficients of a sound (0), their first and second derivatives (1, 2). *)
Definition stream_of (i : nat) (s : Sound) (m : mat F) : Prop :=
  exists b, mfcc s = Ok b /\ match i with 0 => m = b | _ => delta b i = Ok m end.
(** The vectors of all the sounds, one sound after the other. *)
Definition pooled (i : nat) (names : list string) (data : mat F) : Prop :=
  exists ms, Forall2 (fun w m => exists s, wavs w = Ok s /\ stream_of i s m) names ms /\
    mrows data = List.concat (map (fun m => mrows (transpose zero m)) ms).

(** Sounds that are read and have [n] coefficients, as have the derivatives. *)
Definition readable (n : nat) (w : string) : Prop :=
  exists s m d1 d2, wavs w = Ok s /\ mfcc s = Ok m /\ delta m 1 = Ok d1 /\ delta m 2 = Ok d2 /\
    List.length (mrows m) = n /\ List.length (mrows d1) = n /\ List.length (mrows d2) = n.
(** The row of counts of a record of the ACORNS database: that of its sound, with lags 5 and 2. *)
Variable vq : mat F -> mat F -> result (list Z).
Definition row_of_record {Arr} (cs : list (mat F)) (d : database Arr) (r : record Arr) (row : list nat) : Prop :=
  exists p s, get_audio_path "WAV" d r = Ok p /\ wavs p = Ok s /\ hac F zero vq Sound mfcc delta s cs [5; 2]%Z = Ok row.
(** Every speaker has records, and every record a row. *)
Definition all_rows {Arr} (cs : list (mat F)) (d : database Arr) : Prop :=
  Forall (fun rs => rs <> [] /\ Forall (fun r => exists row, row_of_record cs d r row) rs) (d_records d).
End Spec.

(** kmeans2 gives as many centroids as asked for, with the size of the vectors. *)
Definition gives_k {F} (kmeans2 : mat F -> Z -> result (mat F)) : Prop :=
  forall data k, (0 < k)%Z -> exists c, kmeans2 data k = Ok c /\ mcols c = mcols data /\ List.length (mrows c) = Z.to_nat k.
(** vq gives codes. *)
Definition gives_codes {F} (vq : mat F -> mat F -> result (list Z)) : Prop :=
  forall data c q, vq data c = Ok q -> codes (Z.of_nat (List.length (mrows c))) q.
