(** * Model of Logger.__eq__ (multimodal/lib/logger.py:25-32) and of == on the values of a log.

    Lists and dictionaries compare their elements with 'is or =='.  A value without arrays, and without nan,
    which floats here never are, is equal to itself, so 'is' matters only for arrays: it is modelled for the
    dictionaries of runs, which loggers share by reference, and for a logger compared with itself, but not for
    one array object stored in two dictionaries.  What == gives when one of the two values is an array or
    another object is an argument of the model ([foreign]): a truth value, or an exception such as the
    ValueError of numpy for the truth value of an array. *)

From Coq Require Import List ZArith Bool QArith String.
Import ListNotations.
From Verif Require Import Py logger_model.
Open Scope py_scope.
Local Open Scope nat_scope.
Notation length := List.length.

Section Eq.
Context {Arr : Type}.
Notation val := (val Arr).
Notation dict := (dict Arr).
Notation world := (world Arr).
Variable foreign : val -> val -> result bool.

Definition is_foreign (v : val) : bool := match v with VArr _ | VOther _ => true | _ => false end.
(** bool, int and float are compared as numbers. *)
Definition number (v : val) : option Q :=
  match v with VBool b => Some (if b then 1%Q else 0%Q) | VInt z => Some (inject_Z z) | VFloat q => Some q | _ => None end.
Definition key_eqb (k k' : key) : bool :=
  let as_number k := match k with KInt z => Some z | KBool b => Some (if b then 1%Z else 0%Z) | _ => None end in
  match as_number k, as_number k' with
  | Some z, Some z' => Z.eqb z z'
  | _, _ => match k, k' with
            | KStr s, KStr s' => String.eqb s s'
            | KNone, KNone => true
            | KOther n, KOther n' => n =? n'
            | _, _ => false
            end
  end.

(** a == b for values.  Lists of different lengths differ before any element is compared;
    tuples are compared up to the end of the shorter, then by their lengths; dictionaries of different sizes
    differ, else each key of the first is looked up in the second. *)
Fixpoint py_eq (a b : val) {struct a} : result bool :=
  if is_foreign a || is_foreign b then foreign a b
  else
    let items := fix items (l m : list val) {struct l} : result bool :=
      match l, m with
      | x :: l', y :: m' => e <- py_eq x y ;; if e then items l' m' else Ok false
      | _, _ => Ok true
      end in
    match number a, number b with
    | Some p, Some q => Ok (Qeq_bool p q)
    | _, _ =>
        match a, b with
        | VNone, VNone => Ok true
        | VStr s, VStr t => Ok (String.eqb s t)
        | VList l, VList m => if length l =? length m then items l m else Ok false
        | VTuple l, VTuple m => e <- items l m ;; Ok (e && (length l =? length m))
        | VDict d, VDict d' =>
            if length d =? length d' then
              (fix entries (d : list (key * val)) : result bool :=
                 match d with
                 | [] => Ok true
                 | (k, x) :: r =>
                     match dict_get key_eqb d' k with
                     | None => Ok false
                     | Some y => e <- py_eq x y ;; if e then entries r else Ok false
                     end
                 end) d
            else Ok false
        | _, _ => Ok false
        end
    end.

(** == for the dictionaries of a log. *)
Fixpoint entries_eq (d d' : dict) : result bool :=
  match d with
  | [] => Ok true
  | (k, x) :: r =>
      match dict_get String.eqb d' k with
      | None => Ok false
      | Some y => e <- py_eq x y ;; if e then entries_eq r d' else Ok false
      end
  end.
Definition dict_eq (d d' : dict) : result bool := if length d =? length d' then entries_eq d d' else Ok false.
(** == for lists of dictionaries; a dictionary is equal to itself. *)
Fixpoint runs_eq (w : world) (l m : list nat) : result bool :=
  match l, m with
  | r :: l', s :: m' =>
      e <- (if r =? s then Ok true else d <- get_run w r ;; d' <- get_run w s ;; dict_eq d d') ;;
      if e then runs_eq w l' m' else Ok false
  | _, _ => Ok true
  end.
Definition filename_eqb (f g : option string) : bool :=
  match f, g with Some a, Some b => String.eqb a b | None, None => true | _, _ => false end.

(** logger.py:25-32 for two loggers (isinstance is true). *)
Definition logger_eq (w : world) (i j : nat) : result bool :=
  a <- get_logger w i ;;
  b <- get_logger w j ;;
  if negb (filename_eqb (lg_filename a) (lg_filename b)) then Ok false
  else
    g <- (if i =? j then Ok true else dict_eq (lg_glob a) (lg_glob b)) ;;
    if negb g then Ok false
    else
      e <- (if length (lg_exps a) =? length (lg_exps b) then runs_eq w (lg_exps a) (lg_exps b) else Ok false) ;;
      if negb e then Ok false
      else Ok (set_eqb (lg_exp_keys a) (lg_exp_keys b) && set_eqb (lg_result_keys a) (lg_result_keys b)).
End Eq.
