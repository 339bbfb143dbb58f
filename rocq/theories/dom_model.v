(** * Model of the XML element of a record (multimodal/db/models/sound.py:61-77).

    Nodes of xml.dom.minidom are trees; an attribute takes any value, a text node only takes
    a string. *)

From Coq Require Import List ZArith Bool String.
Import ListNotations.
From Verif Require Import Py logger_model serial_model sound_model.
Open Scope py_scope.

Section Dom.
Context {Arr : Type}.
Notation val := (val Arr).

Inductive node := Text (s : string) | Element (name : string) (attributes : list (string * val)) (children : list node).

(** createTextNode of minidom. *)
Definition create_text (v : val) : result node :=
  match v with VStr s => Ok (Text s) | _ => Err TypeError end.
Definition create_element (name : string) : node := Element name [] [].
Definition set_attribute (n : node) (k : string) (v : val) : node :=
  match n with Element name a c => Element name (dict_set String.eqb a k v) c | t => t end.
Definition append_child (n c : node) : node :=
  match n with Element name a cs => Element name a (cs ++ [c]) | t => t end.

(** getDom (sound.py:61-77). *)
Definition get_dom (d : database Arr) (r : record Arr) : result node :=
  let rd := set_attribute (create_element "record") "style" (r_style r) in
  t <- create_text (r_audio r) ;;
  let rd := append_child rd (append_child (create_element "audio") t) in
  t <- create_text (r_trans r) ;;
  let rd := append_child rd (append_child (create_element "trans") t) in
  names <- get_tag_names d r ;;
  Ok (fold_left (fun rd t => append_child rd (set_attribute (create_element "tag") "name" (VStr t))) names rd).
End Dom.
Arguments node : clear implicits.
