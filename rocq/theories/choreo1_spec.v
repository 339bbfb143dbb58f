(** * The files of the first choreography dataset. *)

From Coq Require Import List ZArith Bool String.
Import ListNotations.
From Verif Require Import Py logger_model motion_model motion_spec.
Local Open Scope string_scope.

Section Spec.
Context {Arr : Type}.
Notation val := (logger_model.val Arr).

(** A JSON object [v] has the value [x] for the key [k]. *)
Definition has_item (v : val) (k : string) (x : val) : Prop :=
  exists d, v = VDict d /\ In (KStr k, x) d /\ NoDup (map fst d).
(** The entry of a record: the number or name of an array of the archive, and labels. *)
Definition entry_of (arch : list (string * Arr)) (e : val) (a : Arr) (ls : val) : Prop :=
  exists i l t, has_item e "data-id" i /\ (i = VInt l /\ t = string_of_Z l \/ i = VStr t) /\ In (t, a) arch /\ has_item e "labels" ls.
(** The files of a dataset: the description at [f] and the archive beside it. *)
Definition files_of (k : disk Arr) (dir dataset : string) (data : list Arr) (labels : list val) (markers : list string) : Prop :=
  exists meta df arch entries name,
    dict_get String.eqb (k_json k) (dir ++ "/" ++ dataset ++ ".json") = Some (Some meta) /\
    has_item meta "data-file" (VStr df) /\ base_name df /\
    dict_get String.eqb (k_npz k) (dir ++ "/" ++ df) = Some arch /\ NoDup (map fst arch) /\
    has_item meta "records" (VList entries) /\ has_item meta "name" name /\ has_item meta "marker-names" (VList (map VStr markers)) /\
    Forall2 (fun e x => entry_of arch e (fst x) (snd x)) entries (combine data labels) /\ List.length data = List.length labels.
End Spec.
