(** * Model of relative and absolute times of windows (multimodal/lib/window.py:58-92).

    For all windows, concatenations included; times are exact rationals. *)

From Coq Require Import List ZArith QArith Bool.
Import ListNotations.
From Verif Require Import Py window_model winnest_model.
Open Scope py_scope.
Local Open Scope Q_scope.

Section Times.
Context {O A P : Type}.
Notation tree := (tree O A P).

(** relative_to_absolute_time (window.py:73-74). *)
Definition relative_to_absolute_time (w : tree) (t : Q) : result Q := s <- t_start w ;; Ok (s + t).
(** absolute_to_relative_time (window.py:76-77). *)
Definition absolute_to_relative_time (w : tree) (t : Q) : result Q := s <- t_start w ;; Ok (t - s).
(** mean_time (window.py:79-80). *)
Definition t_mean_time (w : tree) : result Q := e <- t_end w ;; s <- t_start w ;; Ok ((1 # 2) * (e + s)).
(** check_time (window.py:86-92). *)
Definition t_check_time (w : tree) (t : Q) : result unit :=
  s <- t_start w ;; e <- t_end w ;; check_time s e t.
End Times.
