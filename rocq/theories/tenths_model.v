(** * Model of samples/icdl2013.py and samples/image_sound.py.

    The two scripts differ by the modalities and their loaders only.  The order of the keys of a dictionary is an argument
    of the model ([first_first]), and so are the data and everything that is random (see experiment_model.v). *)

From Coq Require Import List ZArith Reals Bool Arith String QArith.
Import ListNotations.
From Verif Require Import Py logger_model nd_model experiment_model figures_model evalslide_model.
Local Open Scope nat_scope.

(** The double nearest to 0.1, the default of run_mode (experiment.py:45). *)
Definition tenth : QArith_base.Q := 3602879701896397 # 36028797018963968.

(** icdl2013.py:24-26 and image_sound.py:20-22: the loaders [l1] and [l2] under the names [n1] and [n2]. *)
Definition default_experiment (first_first : bool) (n1 n2 : string) (l1 l2 : loader) (debug : bool) : experiment :=
  Exp Two (if first_first then [n1; n2] else [n2; n1]) (if first_first then [l1; l2] else [l2; l1])
    50 None 50 50 false (Ratio tenth) debug.

(** The scripts from their command line (icdl2013.py:19-28, image_sound.py:15-24): the log, the files, the lines of the table that are
    printed and the exception that ends the script, if any.  No name is given to the log. *)
Definition table_script (n1 n2 : string) (argv : list string) (first_first : bool) (l1 l2 : loader) (ord : list string -> list string)
    (rd : random) (f : fs nd) : world * fs nd * list line * result unit :=
  let '(debug, _) := pop_debug argv in
  let x := default_experiment first_first n1 n2 l1 l2 debug in
  match run ord rd x None f with
  | (w, f, Err e) => (w, f, [], Err e)
  | (w, f, Ok _) => let '(rows, r) := print_two w x in (w, f, rows, r)
  end.
Definition icdl2013 := table_script "motion" "sound".
Definition image_sound := table_script "objects" "sound".
