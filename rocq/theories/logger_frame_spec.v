(** * What one call of the logger leaves as it was. *)

From Coq Require Import List ZArith Bool QArith String.
Import ListNotations.
From Verif Require Import Py logger_model logger_spec.
Local Open Scope nat_scope.

Section Frame.
Context {Arr : Type}.
Notation val := (val Arr).
Notation world := (world Arr).

(** The [p]-th run of logger [i] and the [q]-th run of logger [j] are one
    dictionary (the same one, after runs were appended from another logger). *)
Definition same_run (w : world) (i p j q : nat) : Prop :=
  exists l m r, nth_error (w_logs w) i = Some l /\ nth_error (lg_exps l) p = Some r /\
    nth_error (w_logs w) j = Some m /\ nth_error (lg_exps m) q = Some r.

(** What is left of a heap [w] when [k] gets the value [v] in the [p]-th run of
    logger [i]: this value is seen through all loggers that share the run, all
    other values, the global values and the numbers of runs stay. *)
Definition stored (w w' : world) (i p : nat) (k : string) (v : val) : Prop :=
  (forall j q, same_run w i p j q -> value_at w' j q k = Some v) /\
  (forall j q, ~ same_run w i p j q -> value_at w' j q k = value_at w j q k) /\
  (forall j q k', k' <> k -> value_at w' j q k' = value_at w j q k') /\
  (forall j k', global_at w' j k' = global_at w j k') /\
  (forall j, runs_of w' j = runs_of w j).

(** The registered keys: only those of logger [i] grow, by [more] and [results]. *)
Definition registers (w w' : world) (i : nat) (more results : list string) : Prop :=
  List.length (w_logs w') = List.length (w_logs w) /\
  forall j l l', nth_error (w_logs w) j = Some l -> nth_error (w_logs w') j = Some l' ->
    lg_filename l' = lg_filename l /\
    (forall k, In k (lg_exp_keys l') <-> In k (lg_exp_keys l) \/ (j = i /\ In k more)) /\
    (forall k, In k (lg_result_keys l') <-> In k (lg_result_keys l) \/ (j = i /\ In k results)).

End Frame.
