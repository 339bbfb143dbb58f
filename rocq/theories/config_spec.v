(** * What a configuration holds and where the data is. *)

From Coq Require Import List String Ascii.
Import ListNotations.
From Verif Require Import config_model.
Local Open Scope string_scope.

(** The last assignment to [x] among [l] gave it the value [v]. *)
Definition last_assigned {A} (l : list (key * A)) (x : key) (v : A) : Prop :=
  exists before after, l = (before ++ (x, v) :: after)%list /\ ~ In x (map fst after).
Definition hashable (x : key) : Prop := x <> Unhashable.

(** [base] is [home] without the slashes at its end. *)
Definition without_slashes (home base : string) : Prop :=
  exists slashes, home = base ++ slashes /\ (forall c, In c (list_ascii_of_string slashes) -> c = "/"%char) /\
    ~ exists b, base = b ++ "/".
(** Places of data sets, in the directory db; the others are features. *)
Definition is_database (p : place) : Prop :=
  match p with Acorns | Vctk | Choreo1 | Choreo2 | Objects _ => True | _ => False end.
