(** * What a sound database is, and what it means to save it. *)

From Coq Require Import List ZArith Arith Bool String Ascii Permutation Sorted.
Import ListNotations.
From Verif Require Import Py logger_model logger_spec serial_model serial_spec sound_model.
Local Open Scope nat_scope.

Section Spec.
Context {Arr : Type}.
Notation val := (val Arr).
Notation record := (record Arr).
Notation database := (database Arr).

(** The number of a tag or of a speaker is its position; there is one list of
    records and one information per speaker; records belong to the database. *)
Definition consistent (d : database) : Prop :=
  NoDup (d_tags d) /\
  (forall t i, dict_get String.eqb (d_tag_id d) t = Some i <-> nth_error (d_tags d) i = Some t) /\
  NoDup (d_spkrs d) /\
  List.length (d_records d) = List.length (d_spkrs d) /\
  List.length (d_spkrs_info d) = List.length (d_spkrs d) /\
  (forall rs r, In rs (d_records d) -> In r rs -> r_db r = d_id d).

(** What can happen to a database through its methods, whether they return or
    raise. *)
Inductive step : database -> database -> Prop :=
| st_add_tag d t : step d (fst (add_tag d t))
| st_get_tag_add d t : step d (fst (get_tag_add d t))
| st_add_speaker d name info : step d (fst (add_speaker d name info))
| st_add_record d r : step d (fst (add_record d r))
| st_sort d : step d (fst (sort d))
| st_load d fs filename sorted : step d (fst (load_from fs filename sorted d)).
Inductive reachable : database -> Prop :=
| re_new id : reachable (DataBase id)
| re_step d d' : reachable d -> step d d' -> reachable d'.

(** What can follow. *)
Inductive steps : database -> database -> Prop :=
| ss_none d : steps d d
| ss_more d d' d'' : steps d d' -> step d' d'' -> steps d d''.

Definition prefix {A} (l l' : list A) : Prop := exists more, l' = l ++ more.
(** Every tag and every speaker of [d] has the same number in [d']. *)
Definition extends (d d' : database) : Prop :=
  d_id d' = d_id d /\ prefix (d_tags d) (d_tags d') /\
  prefix (d_spkrs d) (d_spkrs d') /\ prefix (d_spkrs_info d) (d_spkrs_info d').

(** Order of the names of audio files. *)
Definition name_of (r : record) (s : string) : Prop := r_audio r = VStr s.
Definition before (r r' : record) : Prop :=
  exists s s', name_of r s /\ name_of r' s' /\ String.compare s s' = Lt.
(** [l'] is [l], sorted, where records with the same name are kept in order. *)
Definition has_name (s : string) (r : record) : bool :=
  match r_audio r with VStr t => String.eqb s t | _ => false end.
Definition stably_sorted (l l' : list record) : Prop :=
  Permutation l l' /\ StronglySorted (fun a b => ~ before b a) l' /\
  forall s, filter (has_name s) l' = filter (has_name s) l.

(** A database that can be written: tags of records exist, audio files have names or are
    missing, JSON can write the other values. *)
Definition good_record (n_tags : nat) (r : record) : Prop :=
  (forall t, In t (r_tags r) -> (0 <= t < Z.of_nat n_tags)%Z) /\
  (r_audio r = VNone \/ exists s, name_of r s) /\ writable (r_trans r) /\ writable (r_style r).
Definition savable (d : database) : Prop :=
  consistent d /\ writable (d_root d) /\ Forall writable (d_spkrs_info d) /\
  Forall (Forall (good_record (List.length (d_tags d)))) (d_records d).
(** Records can be compared: two records or more of a speaker all have audio files. *)
Definition sortable (d : database) : Prop :=
  forall rs, In rs (d_records d) -> List.length rs <= 1 \/ forall r, In r rs -> exists s, name_of r s.

(** A record read again, for speaker number [k]. *)
Definition same_record (k id : nat) (r r' : record) : Prop :=
  r_db r' = id /\ r_spkr_id r' = Z.of_nat k /\ r_audio r' = r_audio r /\ r_tags r' = r_tags r /\
  json_image (r_trans r) (r_trans r') /\ json_image (r_style r) (r_style r').
(** The database read again, with its records sorted or not. *)
Definition same_database (sorted : bool) (d d' : database) : Prop :=
  json_image (d_root d) (d_root d') /\ d_tags d' = d_tags d /\ d_spkrs d' = d_spkrs d /\
  Forall2 json_image (d_spkrs_info d) (d_spkrs_info d') /\
  List.length (d_records d') = List.length (d_records d) /\
  forall k rs, nth_error (d_records d) k = Some rs ->
    exists read rs', nth_error (d_records d') k = Some rs' /\
      Forall2 (same_record k (d_id d')) rs read /\
      (if sorted then stably_sorted read rs' else rs' = read).

(** How often two different tags occur together. *)
Definition times (t : nat) (r : record) : nat := count_occ Z.eq_dec (r_tags r) (Z.of_nat t).
Definition together (rs : list record) (t u : nat) : nat :=
  if Nat.eqb t u then 0 else list_sum (map (fun r => times t r * times u r) rs).
End Spec.

(** ** Paths *)
Section Paths.
Local Open Scope string_scope.
Definition slash : Ascii.ascii := "/"%char.
(** Names of files and directories: not empty, without "/". *)
Definition plain_name (s : string) : Prop := s <> "" /\ ~ In slash (list_ascii_of_string s).
(** A directory, written without the final "/". *)
Definition directory (s : string) : Prop := exists a c, s = a ++ String c "" /\ c <> slash.
End Paths.
