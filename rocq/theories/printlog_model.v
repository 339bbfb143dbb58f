(** * Model of the printed summary of a log (multimodal/lib/logger.py:69-77).

    The text of what was printed is a list of lines. Numbers are real numbers: the rounding
    of the average and of the deviation to doubles is not modelled. *)

From Coq Require Import List ZArith Reals Bool Arith String Ascii.
From Flocq Require Import Core.
Import ListNotations.
From Verif Require Import Py nd_model logger_model experiment_model figures_model table_model.
Open Scope py_scope.
Local Open Scope Z_scope.

Definition ten : radix := Build_radix 10 eq_refl.

(** The six significant digits of a number that is not 0, as an integer, and the exponent
    of the first of them: the nearest number of six digits, the even one if two are. *)
Definition six_digits (x : R) : Z * Z :=
  let e := mag ten x : Z in
  let d := ZnearestE (Rabs x * bpow ten (6 - e)) in
  if d =? 1000000 then (100000, e) else (d, e - 1).

(** The last [n] digits of the integer [d]. *)
Fixpoint last_digits (n : nat) (d : Z) : string :=
  match n with
  | O => EmptyString
  | S n' => (digit (Z.to_nat (d / 10 ^ Z.of_nat n' mod 10)) ++ last_digits n' d)%string
  end.

(** Without the zeros at the end. *)
Fixpoint strip0 (s : string) : string :=
  match s with
  | EmptyString => EmptyString
  | String c r =>
      match strip0 r with
      | EmptyString => if Ascii.eqb c "0" then EmptyString else String c EmptyString
      | r' => String c r'
      end
  end.
(** The decimals [s], with the point, if there are any after the zeros at the end are
    removed. *)
Definition decimals (s : string) : string :=
  match strip0 s with EmptyString => EmptyString | r => ("." ++ r)%string end.

(** '%g' of a finite number: scientific notation is used if the exponent is less than -4
    or at least 6. *)
Definition general (x : R) : string :=
  if Raux.Req_bool x 0 then "0"%string else
  let '(d, e) := six_digits x in
  ((if Raux.Rlt_bool x 0 then "-" else "") ++
   if ((e <? -4) || (6 <=? e))%Z then
     last_digits 1 (d / 100000)%Z ++ decimals (last_digits 5 d) ++ "e" ++ (if (e <? 0)%Z then "-" else "+") ++
     (if (Z.abs e <? 10)%Z then "0" else "") ++ string_of_nat (Z.abs_nat e)
   else if (e <? 0)%Z then "0" ++ decimals (repeated "0" (Z.to_nat (- e - 1)%Z) ++ last_digits 6 d)
   else last_digits (Z.to_nat (e + 1)%Z) (d / 10 ^ (5 - e))%Z ++ decimals (last_digits (Z.to_nat (5 - e)%Z) d))%string.

(** logger.py:69-73. The average and the deviation of no value at all are nan. *)
Definition print_result (w : world) (i : nat) (key : string) (text : option string) : result string :=
  let text := match text with None => key | Some t => t end in
  vals <- get_values w i key ;;
  match vals with
  | [] => Ok (text ++ ": nan (std dev.: nan)")%string
  | _ => '(avg, std) <- get_stats w i key ;;
         Ok (text ++ ": " ++ general avg ++ " (std dev.: " ++ general std ++ ")")%string
  end.

(** logger.py:75-77: the lines that are printed, and the exception that ends the call, if
    any. [ord] is the order in which a set gives its elements. *)
Fixpoint print_keys (w : world) (i : nat) (keys : list string) : list string * result unit :=
  match keys with
  | [] => ([], Ok tt)
  | k :: keys' =>
      match print_result w i k None with
      | Err e => ([], Err e)
      | Ok s => let '(out, r) := print_keys w i keys' in (s :: out, r)
      end
  end.
Definition print_all_results (ord : list string -> list string) (w : world) (i : nat) : list string * result unit :=
  match get_logger w i with
  | Err e => ([], Err e)
  | Ok l => print_keys w i (ord (lg_result_keys l))
  end.
