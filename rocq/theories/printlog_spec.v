(** * Specification of the printed summary of a log. *)

From Coq Require Import List ZArith Reals Bool Arith String Ascii QArith Qreals.
Import ListNotations.
From Verif Require Import Py nd_model logger_model logger_spec experiment_model figures_spec table_spec.
Local Open Scope nat_scope.

(** The number that a text of digits denotes. *)
Definition reads (s : string) : Z := fold_left (fun a c => (10 * a + (Z.of_nat (nat_of_ascii c) - 48))%Z) (chars s) 0%Z.

(** [s] is the number [v] written with digits and, if it is not an integer, a point and
    decimals, without useless zeros. *)
Definition plain (s : string) (v : R) : Prop :=
  exists a b, s = (a ++ (if String.eqb b "" then "" else "." ++ b))%string /\ a <> ""%string /\ digits a /\ digits b /\
  (forall a', a = ("0" ++ a')%string -> a' = ""%string) /\ (forall b', b <> (b' ++ "0")%string) /\
  (v = IZR (reads (a ++ b)) / 10 ^ String.length b)%R.

(** [s] is the number [v] in scientific notation: a number from 1 to 10 (not included), and
    an exponent of at least two digits, with its sign. *)
Definition scientific (s : string) (v : R) : Prop :=
  exists t u e f, s = (t ++ "e" ++ f ++ e)%string /\ plain t u /\ (1 <= u < 10)%R /\
  digits e /\ 2 <= String.length e /\ (2 < String.length e -> forall e', e <> ("0" ++ e')%string) /\
  ((f = "+"%string /\ (v = u * powerRZ 10 (reads e))%R) \/ (f = "-"%string /\ (0 < reads e)%Z /\ (v = u * powerRZ 10 (- reads e))%R)).

(** [v] is the number of six significant digits that is the nearest to [x] > 0; if there
    are two, the one whose last digit is even. *)
Definition six_nearest (x v : R) : Prop :=
  exists n e, (powerRZ 10 e <= x < powerRZ 10 (e + 1))%R /\ (v = IZR n * powerRZ 10 (e - 5))%R /\
  (Rabs (x - v) <= powerRZ 10 (e - 5) / 2)%R /\ ((Rabs (x - v) = powerRZ 10 (e - 5) / 2)%R -> Z.Even n).

(** [s] shows [x] with six significant digits, in plain or in scientific notation
    according to its size. *)
Definition shows6 (s : string) (x : R) : Prop :=
  (x = 0%R /\ s = "0"%string) \/
  exists t v, x <> 0%R /\ s = ((if Rlt_dec x 0 then "-" else "") ++ t)%string /\ six_nearest (Rabs x) v /\
    ((powerRZ 10 (-4) <= v < powerRZ 10 6)%R /\ plain t v \/
     (v < powerRZ 10 (-4) \/ powerRZ 10 6 <= v)%R /\ scientific t v).

(** A value that is a number. *)
Inductive is_number : val -> R -> Prop :=
| num_float q : is_number (VFloat q) (Q2R q)
| num_int z : is_number (VInt z) (IZR z)
| num_true : is_number (VBool true) 1
| num_false : is_number (VBool false) 0.
(** The runs of logger [i] have the numbers [xs] under [key], one for each run. *)
Definition measured (w : world) (i : nat) (key : string) (xs : list R) : Prop :=
  runs_of w i = Some (List.length xs) /\
  forall q x, nth_error xs q = Some x -> exists v, value_at w i q key = Some v /\ is_number v x.

(** The line that summarises the numbers [xs]. *)
Definition summary_line (text : string) (xs : list R) (s : string) : Prop :=
  exists m d a b, average_of xs m /\ deviation_of xs m d /\ shows6 a m /\ shows6 b d /\
  s = (text ++ ": " ++ a ++ " (std dev.: " ++ b ++ ")")%string.

(** In the history [h] of calls, a call of store_result on logger [i] with key [k] did not
    raise. *)
Definition stored_result (h : list (op nd)) (i : nat) (k : string) : Prop :=
  exists h1 h2 v, h = h1 ++ OStoreResult i k v :: h2 /\ snd (store_result (exec_all empty_world h1) i k v) = Ok tt.
