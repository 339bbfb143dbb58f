(** * What the scripts that parse the corpora have to write. *)

From Coq Require Import List ZArith Bool String Sorted.
Import ListNotations.
From Verif Require Import Py logger_model words_spec sound_model sound_spec acorns_model acorns_spec vctk_model vctk_spec.
Local Open Scope nat_scope.
Local Open Scope string_scope.

Section Spec.
Context {Arr : Type}.

(** The years of ACORNS and the names that belong to them. *)
Definition acorns_year (year : Z) (number : string) : Prop := (year = 1%Z /\ number = "1") \/ (year = 2%Z /\ number = "2").
Definition corpus_of (db_dir number : string) : string :=
  path_join (path_join db_dir "ACORNS") ("ACORNS-English-Corpora-ev01/ACORNS-Y" ++ number ++ "-ENG").
(** The file of a year, in the given directory or in the default one. *)
Definition file_of (db_dir : string) (arg : option string) (number : string) : string :=
  path_join (match arg with Some p => p | None => path_join db_dir "ACORNS" end) ("Acorns_Y" ++ number ++ ".json").
(** What load is given: nothing for the default directory. *)
Definition load_file (db_dir : string) (arg : option string) (number : string) : option string :=
  match arg with None => None | Some _ => Some (file_of db_dir arg number) end.

(** A database of a year: one list of records per speaker, made of the XML files of the
    speaker and sorted; the tags are those of the files. *)
Definition described (utts : string -> list utterance) (year : Z) (root : string) (id : nat) (d : database Arr) : Prop :=
  d_id d = id /\ d_root d = VStr root /\ d_spkrs d = get_speakers year /\
  List.length (d_records d) = List.length (get_speakers year) /\
  (forall k s, nth_error (get_speakers year) k = Some s -> exists read rs, nth_error (d_records d) k = Some rs /\
     Forall2 (made_of d k) (utts s) read /\ stably_sorted read rs) /\
  (forall t, In t (d_tags d) <-> exists s u, In s (get_speakers year) /\ In u (utts s) /\ In t (u_tags u)).

(** ** VCTK *)
Definition vctk_file (db_dir : string) (arg : option string) : string :=
  path_join (match arg with Some p => p | None => path_join db_dir "VCTK-Corpus" end) "VCTK.json".
Definition vctk_arg (db_dir : string) (arg : option string) : option string :=
  match arg with None => None | Some _ => Some (vctk_file db_dir arg) end.
(** A sound or a text of the speaker has this name. *)
Definition of_speaker (k : disk) (root s name : string) : Prop :=
  listed k (path_join (path_join root "wav48") ("p" ++ s)) "wav" name \/
  listed k (path_join (path_join root "txt") ("p" ++ s)) "txt" name.
Definition sound_of (root s name : string) : string :=
  path_join (path_join (path_join root "wav48") ("p" ++ s)) (("p" ++ s ++ "_" ++ name) ++ ".wav").
(** A speaker with several records has the sounds of all. *)
Definition no_lone_text (k : disk) (root : string) : Prop := forall s, has_directory k (path_join root "wav48") s ->
  (forall name, of_speaker k root s name -> k_exists k (sound_of root s name) = true) \/
  (forall name name', of_speaker k root s name -> of_speaker k root s name' -> name = name').
(** The database: speakers in order, what is known of them, and for each the records of
    all the names, once each, in the order of the names of the files. *)
Definition catalogue (k : disk) (root : string) (lines : list string) (id : nat) (d : database Arr) : Prop :=
  d_id d = id /\ d_root d = VStr root /\ d_tags d = [] /\
  StronglySorted words_spec.before (d_spkrs d) /\ (forall s, In s (d_spkrs d) <-> has_directory k (path_join root "wav48") s) /\
  Forall2 (info_of lines) (d_spkrs d) (d_spkrs_info d) /\
  List.length (d_records d) = List.length (d_spkrs d) /\
  forall i s, nth_error (d_spkrs d) i = Some s -> exists names rs, nth_error (d_records d) i = Some rs /\
    NoDup names /\ (forall name, In name names <-> of_speaker k root s name) /\
    Forall2 (built k root id i s) names rs /\ StronglySorted (fun a b => ~ sound_spec.before b a) rs.
End Spec.
