(** * Model of the command line of the launcher (samples/launcher.py, lines 22-66, 122-127
    and 181-253); the experiments, the jobs and the figures are in launcher_model.v.

    The package expjobs is not in the repository.  The attribute status of a pool is
    compared with FAILED and printed, status_counts is a list of pairs of texts: both are
    read again at each use, and [st] and [counts] give the value of each read, counted from
    0 at the start of the command.  The call pool.run() may return before the jobs have
    ended: the files are those found once they have.  A command is the
    arguments that argparse accepts.  matplotlib is known by what it raises for a file of
    parameters ([rc_file]) or for a path to write to ([savefig]). *)

From Coq Require Import List ZArith Reals Bool Arith String.
Import ListNotations.
From Verif Require Import Py nd_model logger_model experiment_model figures_model launcher_model.
From Verif Require serial_model sound_model.
Open Scope py_scope.
Local Open Scope nat_scope.

(** lines 22-38: the choices of the arguments action and --launcher, and the other ones;
    the default format 'svg' is that of a command without --plot-format. *)
Inductive action := Prepare | RunJobs | Resume | Plot | Status.
Inductive launcher := Process | Torque.
Record args := Args {
  a_action : action; a_watch : bool; a_launcher : option launcher; a_save : bool; a_no_plot : bool;
  a_config : option string; a_dest : option string; a_format : string }.

(** What is on the disk: the files of parameters of the jobs, their logs, the figures. *)
Inductive figure :=
| AllK (f : list curve * list (string * curve))
| OneToOne (f : list (string * list box) * (string * list box))
| Feats (f : list (list box))
| ThreeMods (f : list box * list (list box)).
Record disk := Disk { d_params : serial_model.files nd; d_logs : fs nd; d_figures : list (string * figure) }.

(** What a command depends on besides its arguments and the disk.  [s_order] is the order in
    which the pool runs the jobs, [s_names_order] that of the keys of the dictionary by_name. *)
Record setting := Setting {
  s_labels : list string; s_Ks : list nat; s_n_run : nat;
  s_ord : list string -> list string; s_config : string -> string; s_data : serial_model.loader nd -> loader; s_rd : string -> random;
  s_order : list job; s_names_order : list string -> list string;
  s_expanduser : string -> string; s_has_qsub : bool; s_py2 : bool;
  s_FAILED : Z; s_show : Z -> string; s_st : nat -> Z; s_counts : nat -> list (string * string);
  s_rc_file : string -> result unit; s_savefig : string -> result unit }.

(** lines 41-45 *)
Definition WORKDIR (s : setting) : string := s_expanduser s "~/work/data/results/multimodal/".
Definition DEFAULT_FIG_DEST (s : setting) : string := s_expanduser s "~/work/doc/illus/results/multimodal/gen/".
(** lines 63-65 *)
Definition chosen_launcher (s : setting) (a : args) : launcher :=
  match a_launcher a with None => if s_has_qsub s then Torque else Process | Some l => l end.

Section Watch.
Context (FAILED : Z) (show : Z -> string) (st : nat -> Z) (counts : nat -> list (string * string)).
(** lines 181-184: the first read of the pool that is made is number [t]. *)
Definition get_stats (t : nat) : string :=
  (show (st t) ++ " (" ++ join_with ", " (map (fun x => fst x ++ ": " ++ snd x) (counts (S t))) ++ ")")%string.
(** lines 191-195: the texts that are printed.  The loop may not end: [turns] is the number of
    tests that are observed, and Timeout says that the loop goes on. *)
Fixpoint print_refreshed_stats (turns t : nat) : list string * result unit :=
  match turns with
  | 0 => ([], Err Timeout)
  | S turns' =>
      if (st t <? FAILED)%Z then let '(l, r) := print_refreshed_stats turns' (t + 3) in (get_stats (S t) :: l, r)
      else ([get_stats (S t)], Ok tt)
  end.
End Watch.
Definition watch (s : setting) : nat -> nat -> list string * result unit :=
  print_refreshed_stats (s_FAILED s) (s_show s) (s_st s) (s_counts s).

(** lines 238-253 *)
Definition by_name (g : figures) : list (string * figure) :=
  let '(fig_2k, fig_one2one, fig_feats, fig_all_mod) := g in
  [("one_to_one_all_k", AllK fig_2k); ("one_to_one_all", OneToOne fig_one2one); ("image_feats", Feats fig_feats);
   ("three_modalities", ThreeMods fig_all_mod)]%string.
Fixpoint save_figures (savefig : string -> result unit) (dest format : string) (figs : list (string * figure)) (names : list string) (disk : list (string * figure))
  : list (string * figure) * list string * result unit :=
  match names with
  | [] => (disk, [], Ok tt)
  | n :: names' =>
      let path := sound_model.path_join dest (n ++ "." ++ format) in
      match dict_get String.eqb figs n with
      | None => (disk, [], Err KeyError)
      | Some fig =>
          match savefig path with
          | Err e => (disk, [], Err e)
          | Ok _ =>
              let '(disk', l, r) := save_figures savefig dest format figs names' (dict_set String.eqb disk path fig) in
              (disk', ("Written: " ++ path ++ ".")%string :: l, r)
          end
      end
  end.

(** lines 198-253: the new contents of the disk, the lines that are printed and what is raised.
    Nothing is done for 'resume' (there is no branch for it); args.no_plot is only the value of
    the parameter 'interactive' (line 220). *)
Definition main (s : setting) (turns : nat) (a : args) (d : disk) : disk * list string * result unit :=
  match a_action a with
  | Prepare =>
      let '(p, r) := prepare_action (s_labels s) (s_Ks s) (s_n_run s) (s_ord s) (s_config s) (d_params d) in (Disk p (d_logs d) (d_figures d), [], r)
  | RunJobs =>
      let d' := Disk (d_params d) (run_jobs (s_py2 s) (s_ord s) (s_config s) (WORKDIR s) (s_data s) (s_rd s) (d_params d) (d_logs d) (s_order s)) (d_figures d) in
      match chosen_launcher s a, a_watch a with
      | Torque, false => (d', [], Ok tt)
      | _, _ => let '(l, r) := watch s turns 0 in (d', l, r)
      end
  | Status =>
      if a_watch a then let '(l, r) := watch s turns 0 in (d, l, r) else (d, [get_stats (s_show s) (s_st s) (s_counts s) 0], Ok tt)
  | Plot =>
      match match a_config a with None => Ok tt | Some c => s_rc_file s c end with
      | Err e => (d, [], Err e)
      | Ok _ =>
          match plot_action (s_labels s) (s_Ks s) (s_n_run s) (s_py2 s) (WORKDIR s) (d_logs d) empty_world with
          | (_, Err e) => (d, [], Err e)
          | (_, Ok g) =>
              if a_save a then
                let dest := match a_dest a with None => DEFAULT_FIG_DEST s | Some p => s_expanduser s p end in
                let '(figs, l, r) := save_figures (s_savefig s) dest (a_format a) (by_name g) (s_names_order s (map fst (by_name g))) (d_figures d) in
                (Disk (d_params d) (d_logs d) figs, l, r)
              else (d, [], Ok tt)
          end
      end
  | Resume => (d, [], Ok tt)
  end.
