(** * Theorems on the text printed about a motion database (C130). *)

From Coq Require Import List ZArith Bool String Ascii.
Import ListNotations.
From Verif Require Import Py logger_model serial_model sound_model motion_model motioninfo_model motioninfo_spec motioninfo_proof.
Local Open Scope string_scope.

(** What print_info prints: the sizes of the samples of the first record, then one line for
    each marker, in order. *)
Theorem C130_info : forall (Arr : Type) (shape : Arr -> list nat) (d : motion_db Arr) a ls rest,
  m_records d = (a, ls) :: rest -> m_markers d <> [] ->
  print_info shape d = (lines (description (tl (shape a)) (m_markers d)), Ok tt).
Proof. exact @info. Qed.
Print Assumptions C130_info.

(** Without records it prints nothing and raises ValueError. *)
Theorem C130_empty : forall (Arr : Type) (shape : Arr -> list nat) (d : motion_db Arr),
  m_records d = [] -> print_info shape d = ("", Err ValueError).
Proof. exact @info_empty. Qed.
Print Assumptions C130_empty.

(** The text tells the markers and the sizes, if the names of the markers have one line. *)
Theorem C130_read_back : forall (Arr : Type) (shape : Arr -> list nat) (d d' : motion_db Arr) a ls rest a' ls' rest',
  m_records d = (a, ls) :: rest -> m_records d' = (a', ls') :: rest' -> m_markers d <> [] -> m_markers d' <> [] ->
  (forall m, In m (m_markers d) -> one_line m) -> (forall m, In m (m_markers d') -> one_line m) ->
  fst (print_info shape d) = fst (print_info shape d') -> m_markers d = m_markers d' /\ tl (shape a) = tl (shape a').
Proof. exact @info_inj. Qed.
Print Assumptions C130_read_back.

(** It does not tell that there is no marker: a line is printed, as for a marker without
    name. *)
Theorem C130_no_marker_refuted : forall (Arr : Type) (shape : Arr -> list nat) (d : motion_db Arr) a ls rest,
  m_records d = (a, ls) :: rest -> m_markers d = [] ->
  print_info shape d = (lines (description (tl (shape a)) [""]), Ok tt).
Proof. exact @info_no_marker. Qed.
Print Assumptions C130_no_marker_refuted.

(** A verbose loading prints the number of records, the name and the description, and gives
    the database that a silent loading gives; an empty database is counted, and then
    ValueError is raised. *)
Theorem C130_load : forall (Arr : Type) (shape : Arr -> list nat) (k : disk Arr) location d,
  load_from_npz shape k location false = Ok d ->
  (forall a ls rest, m_records d = (a, ls) :: rest -> m_markers d <> [] ->
     load_printing shape k location true =
       (lines (count_line (List.length (m_records d)) (m_name d) :: description (tl (shape a)) (m_markers d)), Ok d)) /\
  (m_records d = [] -> load_printing shape k location true = (lines [count_line 0 (m_name d)], Err ValueError)) /\
  load_printing shape k location false = ("", Ok d).
Proof. exact @load_text. Qed.
Print Assumptions C130_load.

(** What cannot be loaded prints nothing. *)
Theorem C130_load_fails : forall (Arr : Type) (shape : Arr -> list nat) (k : disk Arr) location verbose e,
  load_from_npz shape k location false = Err e -> load_printing shape k location verbose = ("", Err e).
Proof. exact @load_fails. Qed.
Print Assumptions C130_load_fails.

(** The result is that of the loading of C60. *)
Theorem C130_result : forall (Arr : Type) (shape : Arr -> list nat) (k : disk Arr) location verbose,
  snd (load_printing shape k location verbose) = load_from_npz shape k location verbose.
Proof. exact @load_result. Qed.
Print Assumptions C130_result.

(** ** Examples *)
Definition ex_db : motion_db (list nat) := mkMotion "choreo" ["head"; "hand"] [([40; 2; 7], [LInt 3])] DNone.
Example ex_info : print_info (fun l => l) ex_db =
  (lines ["Each data example is a (T, 2, 7) array."; "The second dimension corresponds to markers:"; String "009" "- head"; String "009" "- hand"], Ok tt).
Proof. reflexivity. Qed.
Example ex_hyp : m_records ex_db = ([40; 2; 7], [LInt 3]) :: [] /\ m_markers ex_db <> [] /\ forall m, In m (m_markers ex_db) -> one_line m.
Proof. repeat split; [discriminate|]. intros m [<-|[<-|[]]]; cbv; intuition discriminate. Qed.
Definition ex_disk : disk (list nat) :=
  fst (export (fun l => l) (fun _ s => s) ex_db (mkDisk [] [] [] [] []) "data" None "npz" false).
Example ex_load : load_from_npz (fun l => l) ex_disk "data/choreo.json" false = Ok ex_db /\
  fst (load_printing (fun l => l) ex_disk "data/choreo.json" true) =
  lines ["Loaded 1 examples for ``choreo`` set."; "Each data example is a (T, 2, 7) array."; "The second dimension corresponds to markers:"; String "009" "- head"; String "009" "- hand"].
Proof. split; reflexivity. Qed.
Definition ex_no_records : disk (list nat) :=
  fst (export (fun l => l) (fun _ s => s) (with_motions ex_db []) (mkDisk [] [] [] [] []) "data" None "npz" false).
Example ex_load_empty : load_from_npz (fun l => l) ex_no_records "data/choreo.json" false = Ok (with_motions ex_db []) /\
  load_printing (fun l => l) ex_no_records "data/choreo.json" true = (lines ["Loaded 0 examples for ``choreo`` set."], Err ValueError).
Proof. split; reflexivity. Qed.
Example ex_load_missing : load_from_npz (fun l => l) ex_disk "other.json" false = Err IOError.
Proof. reflexivity. Qed.
