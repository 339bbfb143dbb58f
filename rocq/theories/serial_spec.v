(** * What "the same experiment" means for a file written and read back. *)

From Coq Require Import List ZArith Bool QArith String.
Import ListNotations.
From Verif Require Import Py logger_model logger_spec serial_model.
Local Open Scope nat_scope.

Section Spec.
Context {Arr : Type}.
Notation val := (val Arr).

(** Values made of None, booleans, numbers, strings and lists of those: JSON
    gives them back unchanged. *)
Inductive native : val -> Prop :=
| na_none : native VNone
| na_bool b : native (VBool b)
| na_int z : native (VInt z)
| na_float q : native (VFloat q)
| na_str s : native (VStr s)
| na_list l : (forall x, In x l -> native x) -> native (VList l).

(** The order in which Python lists a set: every element once. *)
Definition lists_sets (ord : list string -> list string) : Prop :=
  forall s x, In x (ord s) <-> In x s.

(** Two loaders of the same dataset with equal parameters: equal speakers,
    equal feature lists (up to what JSON does to the values), the same labels
    as sets. *)
Inductive same_loader : loader Arr -> loader Arr -> Prop :=
| sl_acorns s s' n : json_image s s' ->
    same_loader (mkLoader (LAcorns s) n) (mkLoader (LAcorns s') None)
| sl_choreo2 n : same_loader (mkLoader LChoreo2 n) (mkLoader LChoreo2 None)
| sl_objects f f' ls ls' n : json_image f f' -> (forall x, In x ls <-> In x ls') ->
    same_loader (mkLoader (LObjects f ls) n) (mkLoader (LObjects f' ls') None).

(** [e'] is [e] after a JSON round trip: same modalities in the same order,
    every parameter the JSON image of the original, loaders in the same order,
    of the same datasets and with equal parameters. *)
Definition same_experiment (e e' : exper Arr) : Prop :=
  ex_modalities e' = ex_modalities e /\
  Forall2 same_loader (ex_loaders e) (ex_loaders e') /\
  json_image (ex_k e) (ex_k e') /\
  json_image (ex_coefs e) (ex_coefs e') /\
  json_image (ex_iter_train e) (ex_iter_train e') /\
  json_image (ex_iter_test e) (ex_iter_test e') /\
  json_image (ex_shuffle_labels e) (ex_shuffle_labels e') /\
  json_image (ex_run_mode e) (ex_run_mode e') /\
  json_image (ex_debug e) (ex_debug e').

(** Values JSON can write. *)
Definition writable (v : val) : Prop := exists v', json_image v v'.

(** A loader of one of the three datasets, with parameters JSON can write. *)
Definition known_loader (l : loader Arr) : Prop :=
  match ld_conf l with
  | LAcorns s => writable s
  | LChoreo2 => True
  | LObjects f _ => writable f
  | LUser _ _ => False
  end.

(** A loader class of the user's, under a dataset name of its own. *)
Definition foreign (l : loader Arr) : Prop :=
  match ld_conf l with
  | LUser n c => n <> "acorns"%string /\ n <> "choreo2"%string /\ n <> "objects"%string /\ writable c
  | _ => False
  end.

(** All parameters are values JSON can write. *)
Definition parameters_writable (e : exper Arr) : Prop :=
  writable (ex_k e) /\ writable (ex_coefs e) /\ writable (ex_iter_train e) /\
  writable (ex_iter_test e) /\ writable (ex_shuffle_labels e) /\
  writable (ex_run_mode e) /\ writable (ex_debug e).

(** Experiments made by the constructor from a dictionary of known loaders, all
    parameters of which JSON can write. *)
Definition serializable (e : exper Arr) : Prop :=
  NoDup (ex_modalities e) /\
  List.length (ex_loaders e) = List.length (ex_modalities e) /\
  (forall l, In l (ex_loaders e) -> known_loader l) /\
  parameters_writable e.

End Spec.
