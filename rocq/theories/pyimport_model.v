(** * Model of _import_module (multimodal/lib/transformations.py:1681-1705).

    The global names are a partial function from names to values.  What __import__ gives is
    an argument: nothing if it raises ImportError, else the attributes of the module, in the
    order of dir, with their values (getattr of a name listed by dir is taken to succeed). *)

From Coq Require Import List String Ascii Bool.
Import ListNotations.
Local Open Scope string_scope.

Section Import.
Context {V : Type}.

(** globals() *)
Definition globals := string -> option V.
(** globals()[name] = v *)
Definition set_global (g : globals) (name : string) (v : V) : globals :=
  fun n => if String.eqb n name then Some v else g n.
(** s.startswith(p) *)
Fixpoint startswith (p s : string) : bool :=
  match p, s with
  | EmptyString, _ => true
  | String a p', String b s' => Ascii.eqb a b && startswith p' s'
  | String _ _, EmptyString => false
  end.
(** The truth value of a string. *)
Definition truth (s : string) : bool := negb (String.eqb s "").

(** The body of the loop (lines 1697-1704): global names and warnings. *)
Definition import_attr (warn : bool) (prefix ignore : string) (st : globals * list string) (av : string * V)
  : globals * list string :=
  let '(g, w) := st in
  let '(attr, v) := av in
  if truth ignore && startswith ignore attr then (g, w)
  else
    let '(g, w) :=
      if truth prefix then
        match g attr with
        | Some old => (set_global g (prefix ++ attr) old, w)
        | None => if warn then (g, (w ++ ["No Python implementation of " ++ attr]%string)%list) else (g, w)
        end
      else (g, w) in
    (set_global g attr v, w).

(** The call (lines 1690-1705): global names, warnings and the value returned, None or True. *)
Definition import_module (g : globals) (module_name : string) (imported : option (list (string * V)))
    (warn : bool) (prefix ignore : string) : globals * list string * option bool :=
  match imported with
  | None => (g, if warn then ["Failed to import module " ++ module_name] else [], None)
  | Some attrs =>
      let '(g', w) := fold_left (import_attr warn prefix ignore) attrs (g, []) in
      (g', w, Some true)
  end.
End Import.
(** The defaults (line 1681). *)
Definition default_warn : bool := true.
Definition default_prefix : string := "_py_".
Definition default_ignore : string := "_".
