(** * C137: importing the names of a compiled module over the Python ones. *)

From Coq Require Import List String Bool.
Import ListNotations.
From Verif Require Import pyimport_model pyimport_spec pyimport_proof.
Local Open Scope string_scope.

(** With the defaults: the public names of the module get its values, the values they had are
    kept under the prefix, nothing else changes, and there is one warning for each public name
    that was not there, in order. *)
Theorem C137_default : forall V (g : @globals V) name attrs, NoDup (map fst attrs) ->
  exists g' ns, import_module g name (Some attrs) default_warn default_prefix default_ignore =
      (g', map (fun a => "No Python implementation of " ++ a) ns, Some true) /\
    those (fun a => ~ starts "_" a /\ g a = None) (map fst attrs) ns /\
    (forall a v, In (a, v) attrs -> ~ starts "_" a -> g' a = Some v) /\
    (forall a old, In a (map fst attrs) -> ~ starts "_" a -> g a = Some old -> g' ("_py_" ++ a) = Some old) /\
    (forall n, (starts "_" n \/ ~ In n (map fst attrs)) ->
       (forall a, n = "_py_" ++ a -> ~ starts "_" a -> In a (map fst attrs) -> g a = None) -> g' n = g n).
Proof. exact @import_default. Qed.
(** With any prefix that no imported name starts with, and any names ignored. *)
Theorem C137_prefix : forall V (g : @globals V) name attrs warn prefix ignore,
  prefix <> "" -> NoDup (map fst attrs) ->
  (forall a, In a (map fst attrs) -> taken_name ignore a -> ~ starts prefix a) ->
  exists g' ns, import_module g name (Some attrs) warn prefix ignore =
      (g', if warn then map (fun a => "No Python implementation of " ++ a) ns else [], Some true) /\
    those (fun a => taken_name ignore a /\ g a = None) (map fst attrs) ns /\
    (forall a v, In (a, v) attrs -> taken_name ignore a -> g' a = Some v) /\
    (forall a old, In a (map fst attrs) -> taken_name ignore a -> g a = Some old -> g' (prefix ++ a) = Some old) /\
    (forall n, ~ (taken_name ignore n /\ In n (map fst attrs)) ->
       (forall a, n = prefix ++ a -> taken_name ignore a -> In a (map fst attrs) -> g a = None) -> g' n = g n).
Proof. exact @import_prefixed. Qed.
(** Without a prefix: the values are replaced, nothing is kept, no warning. *)
Theorem C137_no_prefix : forall V (g : @globals V) name attrs warn ignore, NoDup (map fst attrs) ->
  exists g', import_module g name (Some attrs) warn "" ignore = (g', [], Some true) /\
    (forall a v, In (a, v) attrs -> taken_name ignore a -> g' a = Some v) /\
    (forall n, ~ (taken_name ignore n /\ In n (map fst attrs)) -> g' n = g n).
Proof. exact @import_plain. Qed.
(** A module that cannot be imported changes no name. *)
Theorem C137_failed : forall V (g : @globals V) name warn prefix ignore,
  import_module g name None warn prefix ignore = (g, if warn then ["Failed to import module " ++ name] else [], None).
Proof. exact @import_failed. Qed.
(** "Existing attributes with name clashes are renamed with prefix" does not hold of a second
    import: then the values of the module are what is kept, and those of Python are lost. *)
Theorem C137_twice_refuted : forall V (g : @globals V) name attrs g1 w1 r1, NoDup (map fst attrs) ->
  import_module g name (Some attrs) default_warn default_prefix default_ignore = (g1, w1, r1) ->
  exists g2, import_module g1 name (Some attrs) default_warn default_prefix default_ignore = (g2, [], Some true) /\
    forall a v, In (a, v) attrs -> ~ starts "_" a -> g2 a = Some v /\ g2 ("_py_" ++ a) = Some v.
Proof. exact @import_twice. Qed.
(** When no name is ignored, a value that is kept can replace one of the module: the condition
    on the prefix is needed. *)
Theorem C137_clash_refuted : forall V (g : @globals V) name x old v u warn prefix, prefix <> "" -> g x = Some old ->
  exists g' w r, import_module g name (Some [(prefix ++ x, v); (x, u)]) warn prefix "" = (g', w, r) /\
    g' (prefix ++ x) = Some old.
Proof. exact @import_clash. Qed.

Print Assumptions C137_default.
Print Assumptions C137_prefix.
Print Assumptions C137_no_prefix.
Print Assumptions C137_failed.
Print Assumptions C137_twice_refuted.
Print Assumptions C137_clash_refuted.

Definition before_import : @globals nat := fun n => if String.eqb n "quaternion_slerp" then Some 1 else None.
Definition compiled : list (string * nat) := [("__doc__", 7); ("arcball", 8); ("quaternion_slerp", 9)].
Example compiled_names : NoDup (map fst compiled).
Proof. repeat constructor; cbn; intuition discriminate. Qed.
Example compiled_import :
  let '(g, w, r) := import_module before_import "_transformations" (Some compiled) default_warn default_prefix default_ignore in
  g "quaternion_slerp" = Some 9 /\ g "_py_quaternion_slerp" = Some 1 /\ g "arcball" = Some 8 /\ g "__doc__" = None /\
  w = ["No Python implementation of arcball"] /\ r = Some true.
Proof. repeat split. Qed.
Example compiled_free : forall a, In a (map fst compiled) -> taken_name "_" a -> ~ starts "q_" a.
Proof. intros a H _ (t & E). subst a. cbn in H. intuition discriminate. Qed.
