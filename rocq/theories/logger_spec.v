(** * What the logger guarantees are about. *)

From Coq Require Import List ZArith Bool QArith String.
Import ListNotations.
From Verif Require Import Py logger_model.
Local Open Scope nat_scope.

Section Spec.
Context {Arr : Type}.
Notation val := (val Arr).
Notation world := (world Arr).

(** Observations of the logger with reference [i]: the value under key [k] in
    its [p]-th run, its global value under [k], its number of runs. *)
Definition value_at (w : world) (i p : nat) (k : string) : option val :=
  match nth_error (w_logs w) i with
  | None => None
  | Some l =>
      match nth_error (lg_exps l) p with
      | None => None
      | Some r => match nth_error (w_runs w) r with
                  | None => None
                  | Some d => dict_get String.eqb d k
                  end
      end
  end.
Definition global_at (w : world) (i : nat) (k : string) : option val :=
  match nth_error (w_logs w) i with
  | None => None
  | Some l => dict_get String.eqb (lg_glob l) k
  end.
Definition runs_of (w : world) (i : nat) : option nat :=
  option_map (fun l => List.length (lg_exps l)) (nth_error (w_logs w) i).

(** Heap well-formedness: references point to existing run dictionaries and
    no dictionary has a repeated key. *)
Definition wf_world (w : world) : Prop :=
  (forall i l, nth_error (w_logs w) i = Some l ->
     NoDup (map fst (lg_glob l)) /\
     forall r, In r (lg_exps l) -> r < List.length (w_runs w)) /\
  (forall r d, nth_error (w_runs w) r = Some d -> NoDup (map fst d)).

(** The text of a dictionary key in JSON. *)
Inductive key_text : key -> string -> Prop :=
| kt_str s : key_text (KStr s) s
| kt_int z : key_text (KInt z) (string_of_Z z)
| kt_true : key_text (KBool true) "true"
| kt_false : key_text (KBool false) "false"
| kt_none : key_text KNone "null".

(** [json_image v v']: [v] is representable in JSON and comes back as [v']:
    tuples become lists, keys become strings, nothing else changes. *)
Inductive json_image : val -> val -> Prop :=
| ji_none : json_image VNone VNone
| ji_bool b : json_image (VBool b) (VBool b)
| ji_int z : json_image (VInt z) (VInt z)
| ji_float q : json_image (VFloat q) (VFloat q)
| ji_str s : json_image (VStr s) (VStr s)
| ji_list l l' : images l l' -> json_image (VList l) (VList l')
| ji_tuple l l' : images l l' -> json_image (VTuple l) (VList l')
| ji_dict d d' : dict_images d d' -> NoDup (map fst d') ->
    json_image (VDict d) (VDict d')
with images : list val -> list val -> Prop :=
| im_nil : images [] []
| im_cons x y l l' : json_image x y -> images l l' -> images (x :: l) (y :: l')
with dict_images : list (key * val) -> list (key * val) -> Prop :=
| di_nil : dict_images [] []
| di_cons k s x y d d' : key_text k s -> json_image x y -> dict_images d d' ->
    dict_images ((k, x) :: d) ((KStr s, y) :: d').

(** How a value logged directly comes back from disk: arrays as they are. *)
Inductive restored : val -> val -> Prop :=
| re_arr a : restored (VArr a) (VArr a)
| re_json v v' : json_image v v' -> restored v v'.

Definition storable (v : val) : Prop := exists v', restored v v'.

Definition is_array (v : val) : Prop := exists a, v = VArr a.

Definition opt_rel (R : val -> val -> Prop) (a b : option val) : Prop :=
  match a, b with
  | None, None => True
  | Some x, Some y => R x y
  | _, _ => False
  end.

(** Every value held by logger [i] can be saved. *)
Definition all_storable (w : world) (i : nat) : Prop :=
  (forall k v, global_at w i k = Some v -> storable v) /\
  (forall p k v, value_at w i p k = Some v -> storable v).

Definition has_array (w : world) (i : nat) : Prop :=
  (exists k a, global_at w i k = Some (VArr a)) \/
  (exists p k a, value_at w i p k = Some (VArr a)).

Definition has_suffix (f suffix : string) : Prop :=
  exists p, f = (p ++ suffix)%string.

(** An order in which a set may be enumerated. *)
Definition enumerates (ord : list string -> list string) : Prop :=
  forall s k, In k (ord s) <-> In k s.

(** Logger [j] of [w'] has the contents of logger [i] of [w] (Python's ==
    on the attributes glob, exps, exp_keys), up to what a save/load does to
    the values. *)
Definition same_contents (w : world) (i : nat) (w' : world) (j : nat) : Prop :=
  exists l l', nth_error (w_logs w) i = Some l /\ nth_error (w_logs w') j = Some l' /\
  List.length (lg_exps l') = List.length (lg_exps l) /\
  (forall k, opt_rel restored (global_at w i k) (global_at w' j k)) /\
  (forall p k, opt_rel restored (value_at w i p k) (value_at w' j p k)) /\
  (forall k, In k (lg_exp_keys l') <-> In k (lg_exp_keys l)).

(** What a stop after the writing of the archive of logger [i] and before the
    json file leaves, when the json file is the one of logger [o]: the arrays
    of [i] on top of the json values of [o]. *)
Definition mixed (new old got : option val) : Prop :=
  match new with
  | Some (VArr a) => got = Some (VArr a)
  | _ => match old with
         | None => got = None
         | Some (VArr _) => got = None
         | Some v => exists v', got = Some v' /\ json_image v v'
         end
  end.

End Spec.
