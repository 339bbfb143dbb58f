(** * Specification of relative times: [r] is how long after the start of the window [t] is. *)

From Coq Require Import QArith.
Local Open Scope Q_scope.

Definition after (start t r : Q) : Prop := start + r == t.
