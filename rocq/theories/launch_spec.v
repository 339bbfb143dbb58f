(** * Specification of the command line of the launcher. *)

From Coq Require Import List ZArith Reals Bool Arith String Permutation.
Import ListNotations.
From Verif Require Import Py nd_model logger_model experiment_model figures_model launcher_model launch_model.
From Verif Require logger_spec launcher_spec.
Local Open Scope nat_scope.

(** The counts of a status, written "name: number" and separated by commas. *)
Inductive listed : list (string * string) -> string -> Prop :=
| listed_none : listed [] ""%string
| listed_one a n : listed [(a, n)] (a ++ ": " ++ n)%string
| listed_more a n x l s : listed (x :: l) s -> listed ((a, n) :: x :: l) (a ++ ": " ++ n ++ ", " ++ s)%string.
(** A line with the status read at [t] and the counts read just after. *)
Definition line_at (show : Z -> string) (st : nat -> Z) (counts : nat -> list (string * string)) (t : nat) (line : string) : Prop :=
  exists s, listed (counts (S t)) s /\ line = (show (st t) ++ " (" ++ s ++ ")")%string.

(** The file [file] of the directory [dir]. *)
Definition inside (dir file path : string) : Prop :=
  ((dir = ""%string \/ exists d, dir = (d ++ "/")%string) /\ path = (dir ++ file)%string) \/
  (dir <> ""%string /\ ~ (exists d, dir = (d ++ "/")%string) /\ path = (dir ++ "/" ++ file)%string).

(** The directory of the figures of a command. *)
Definition goes_to (expanduser : string -> string) (a : args) (dir : string) : Prop :=
  match a_dest a with
  | Some p => dir = expanduser p
  | None => dir = expanduser "~/work/doc/illus/results/multimodal/gen/"%string
  end.
(** The four figures and their names. *)
Inductive figure_named (g : figures) : string -> figure -> Prop :=
| named_all_k : figure_named g "one_to_one_all_k" (AllK (fst (fst (fst g))))
| named_all : figure_named g "one_to_one_all" (OneToOne (snd (fst (fst g))))
| named_feats : figure_named g "image_feats" (Feats (snd (fst g)))
| named_three : figure_named g "three_modalities" (ThreeMods (snd g)).
(** The path of one of the four figures of the command [a]. *)
Definition a_path (expanduser : string -> string) (a : args) (path : string) : Prop :=
  exists dir name, goes_to expanduser a dir /\ In name ["one_to_one_all_k"; "one_to_one_all"; "image_feats"; "three_modalities"]%string /\
    inside dir (name ++ "." ++ a_format a) path.

(** The jobs are handed to processes of this computer. *)
Definition by_processes (has_qsub : bool) (a : args) : Prop :=
  a_launcher a = Some Process \/ a_launcher a = None /\ has_qsub = false.

(** The jobs can be run, the names of the files of parameters are distinct, and the pool runs each job. *)
Definition usable (s : setting) : Prop :=
  launcher_spec.runnable (s_labels s) (s_Ks s) (s_n_run s) (s_data s) (s_rd s) /\ logger_spec.enumerates (s_ord s) /\
  (forall a b, s_config s a = s_config s b -> a = b) /\ 0 < s_n_run s /\
  (forall j, In j (s_order s) <-> In j (jobs (s_labels s) (s_Ks s) (s_n_run s))) /\
  (forall l, Permutation l (s_names_order s l)).
