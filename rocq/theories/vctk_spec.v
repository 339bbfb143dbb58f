(** * Specification of the VCTK databases. *)

From Coq Require Import List Arith ZArith Bool String Ascii Sorted.
Import ListNotations.
From Verif Require Import logger_model sound_model objects_spec words_spec vctk_model.
Local Open Scope nat_scope.
Local Open Scope string_scope.

(** ** Names *)
Definition lacks (c : ascii) (s : string) : Prop := ~ In c (list_ascii_of_string s).
(** [b] is what follows the last [c] of [s], or all of [s]. *)
Definition after_last (c : ascii) (s b : string) : Prop :=
  lacks c b /\ ((lacks c s /\ b = s) \/ exists a, s = a ++ String c b).
(** [a] is what comes before the first [c] of [s], or all of [s]. *)
Definition up_to_first (c : ascii) (s a : string) : Prop :=
  lacks c a /\ (a = s \/ exists b, s = a ++ String c b).
(** The name of the record of a file: what lies between the last "_" of the whole path and
    the next "." *)
Definition record_name (path r : string) : Prop := exists b, after_last "_" path b /\ up_to_first "." b r.
(** The path ends in "." and the extension, capital or small; something else than dots
    comes before in the name of the file. *)
Definition has_extension (path ext : string) : Prop := exists dir stem e,
  path = dir ++ stem ++ "." ++ e /\ (dir = "" \/ exists d, dir = d ++ "/") /\
  lacks "/" stem /\ lacks "/" e /\ lacks "." e /\ lowered e ext /\
  exists c, In c (list_ascii_of_string stem) /\ c <> "."%char.
(** [r] is the name of a record, after the files with extension [ext] of directory [dir]. *)
Definition listed (k : disk) (dir ext r : string) : Prop := exists names f,
  k_list k dir = Some names /\ In f names /\
  k_isfile k (path_join dir f) = true /\ has_extension (path_join dir f) ext /\ record_name (path_join dir f) r.

Section Spec.
Context {Arr : Type}.

(** ** The corpus *)
(** The file of speakers gives four words or more on each line; both directories can be
    listed, no name being given twice. *)
Definition well_formed (k : disk) (root : string) (lines : list string) : Prop :=
  k_lines k (path_join root "speaker-info.txt") = Some lines /\
  (forall l, In l lines -> exists s a g c region, words l (s :: a :: g :: c :: region)) /\
  (exists names, k_list k (path_join root "wav48") = Some names /\ NoDup names) /\
  (exists names, k_list k (path_join root "txt") = Some names /\ NoDup names).
(** The speaker [s] has a directory there. *)
Definition has_directory (k : disk) (dir s : string) : Prop := exists names,
  k_list k dir = Some names /\ In ("p" ++ s) names /\ k_isdir k (path_join dir ("p" ++ s)) = true.
(** The line is about [s]. *)
Definition about (s line : string) : Prop := exists ws, words line (s :: ws).
(** The speakers asked for. *)
Definition wanted (k : disk) (root : string) (lines : list string) (speakers s : string) : Prop :=
  (speakers = "sound" /\ has_directory k (path_join root "wav48") s) \/
  (speakers = "text" /\ has_directory k (path_join root "txt") s) \/
  (speakers = "info" /\ exists l, In l lines /\ about s l).
(** What the last line about [s] says of this speaker; None if there is none. *)
Definition info_of (lines : list string) (s : string) (v : val Arr) : Prop :=
  (exists a l b age genre accent region, lines = (a ++ l :: b)%list /\ words l (s :: age :: genre :: accent :: region) /\
     (forall l', In l' b -> ~ about s l') /\
     v = VDict [(KStr "age", VStr age); (KStr "genre", VStr genre); (KStr "accent", VStr accent);
                (KStr "region", VStr (String.concat " " region))]) \/
  ((forall l, In l lines -> ~ about s l) /\ v = VNone).
(** The record [name] of the speaker [s], number [i] of the database [id]. *)
Definition built (k : disk) (root : string) (id i : nat) (s name : string) (r : record Arr) : Prop :=
  let file := "p" ++ s ++ "_" ++ name in
  let wav := path_join (path_join (path_join root "wav48") ("p" ++ s)) (file ++ ".wav") in
  let txt := path_join (path_join (path_join root "txt") ("p" ++ s)) (file ++ ".txt") in
  r_db r = id /\ r_spkr_id r = Z.of_nat i /\ r_tags r = [] /\ r_style r = VStr "ADS" /\
  (k_exists k wav = true -> r_audio r = VStr (file ++ ".wav")) /\ (k_exists k wav = false -> r_audio r = VNone) /\
  (forall t, k_text k txt = Some t -> r_trans r = VStr t) /\ (k_text k txt = None -> r_trans r = VNone).
(** The whole database. *)
Definition corpus (k : disk) (root : string) (lines : list string) (speakers : string) (id : nat) (d : database Arr) : Prop :=
  d_id d = id /\ d_root d = VStr root /\ d_tags d = [] /\
  StronglySorted before (d_spkrs d) /\ (forall s, In s (d_spkrs d) <-> wanted k root lines speakers s) /\
  Forall2 (info_of lines) (d_spkrs d) (d_spkrs_info d) /\
  List.length (d_records d) = List.length (d_spkrs d) /\
  forall i s, nth_error (d_spkrs d) i = Some s -> exists names rs, nth_error (d_records d) i = Some rs /\
    StronglySorted before names /\
    (forall r, In r names <-> listed k (path_join (path_join root "wav48") ("p" ++ s)) "wav" r \/
                              listed k (path_join (path_join root "txt") ("p" ++ s)) "txt" r) /\
    Forall2 (built k root id i s) names rs.
End Spec.
