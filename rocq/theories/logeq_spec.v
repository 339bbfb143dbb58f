(** * What equality of logs should mean. *)

From Coq Require Import List ZArith Bool QArith String.
Import ListNotations.
From Verif Require Import Py logger_model logger_spec.
Local Open Scope nat_scope.

Section Spec.
Context {Arr : Type}.
Notation val := (val Arr).
Notation world := (world Arr).

(** Keys of dictionaries: True is 1 and False is 0. *)
Definition as_int (k : key) : key := match k with KBool true => KInt 1 | KBool false => KInt 0 | k => k end.
Definition same_key (k k' : key) : Prop := as_int k = as_int k'.
(** [v] is a number with value [q]. *)
Inductive is_number : val -> Q -> Prop :=
| in_true : is_number (VBool true) 1
| in_false : is_number (VBool false) 0
| in_int z : is_number (VInt z) (inject_Z z)
| in_float q : is_number (VFloat q) q.

(** The same contents: equal numbers, equal texts, lists of same length with the same items in the same order,
    dictionaries with the same values for the same keys in any order. *)
Inductive same : val -> val -> Prop :=
| sa_none : same VNone VNone
| sa_number a b p q : is_number a p -> is_number b q -> (p == q)%Q -> same a b
| sa_str s : same (VStr s) (VStr s)
| sa_list l m : sames l m -> same (VList l) (VList m)
| sa_tuple l m : sames l m -> same (VTuple l) (VTuple m)
| sa_dict d d' : (forall k v, In (k, v) d -> exists k' v', In (k', v') d' /\ same_key k k' /\ same v v') ->
    (forall k' v', In (k', v') d' -> exists k v, In (k, v) d /\ same_key k k' /\ same v v') -> same (VDict d) (VDict d')
with sames : list val -> list val -> Prop :=
| ss_nil : sames [] []
| ss_cons x y l m : same x y -> sames l m -> sames (x :: l) (y :: m).

(** Values made of numbers, texts, None, lists, tuples and dictionaries, without arrays and other objects. *)
Inductive plain : val -> Prop :=
| pl_none : plain VNone
| pl_bool b : plain (VBool b)
| pl_int z : plain (VInt z)
| pl_float q : plain (VFloat q)
| pl_str s : plain (VStr s)
| pl_list l : (forall x, In x l -> plain x) -> plain (VList l)
| pl_tuple l : (forall x, In x l -> plain x) -> plain (VTuple l)
| pl_dict d : NoDup (map (fun kv => as_int (fst kv)) d) -> (forall k x, In (k, x) d -> plain x) -> plain (VDict d).

(** Values without tuples whose dictionaries have strings for keys. *)
Inductive json_like : val -> Prop :=
| jl_none : json_like VNone
| jl_bool b : json_like (VBool b)
| jl_int z : json_like (VInt z)
| jl_float q : json_like (VFloat q)
| jl_str s : json_like (VStr s)
| jl_list l : (forall x, In x l -> json_like x) -> json_like (VList l)
| jl_dict d : (forall k x, In (k, x) d -> (exists s, k = KStr s) /\ json_like x) -> json_like (VDict d).

(** All values of logger [i]. *)
Definition all_values (P : val -> Prop) (w : world) (i : nat) : Prop :=
  (forall k v, global_at w i k = Some v -> P v) /\ (forall p k v, value_at w i p k = Some v -> P v).
(** The two logs have the same file name, the same contents and the same sets of keys. *)
Definition same_logs (w : world) (i j : nat) : Prop :=
  exists a b, nth_error (w_logs w) i = Some a /\ nth_error (w_logs w) j = Some b /\
  lg_filename a = lg_filename b /\ (forall k, opt_rel same (global_at w i k) (global_at w j k)) /\
  runs_of w i = runs_of w j /\ (forall p k, opt_rel same (value_at w i p k) (value_at w j p k)) /\
  (forall k, In k (lg_exp_keys a) <-> In k (lg_exp_keys b)) /\ (forall k, In k (lg_result_keys a) <-> In k (lg_result_keys b)).
End Spec.
