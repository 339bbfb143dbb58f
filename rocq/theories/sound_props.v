(** * Theorems on sound databases (C57, C58, C59, C83, C84, C85). *)

From Coq Require Import List ZArith Arith Bool String Ascii Permutation Sorted Lia.
Import ListNotations.
From Verif Require Import Py logger_model logger_spec serial_model serial_spec sound_model sound_spec
  sound_proof sound_file sound_count sound_frame.
Local Open Scope nat_scope.

Section Props.
Context {Arr : Type}.
Notation record := (record Arr).
Notation database := (database Arr).
Notation object := (object Arr).

(** Whatever the history of a database, its registries are consistent. *)
Theorem C57_consistent : forall d : database, reachable d -> consistent d.
Proof. exact reachable_consistent. Qed.
(** Later calls never change the numbers of tags and speakers. *)
Theorem C57_ids_kept : forall d d' : database, reachable d -> steps d d' ->
  d_id d' = d_id d /\
  (forall t i, dict_get String.eqb (d_tag_id d) t = Some i -> dict_get String.eqb (d_tag_id d') t = Some i) /\
  (forall s i, nth_error (d_spkrs d) i = Some s -> nth_error (d_spkrs d') i = Some s) /\
  (forall s i, nth_error (d_spkrs_info d) i = Some s -> nth_error (d_spkrs_info d') i = Some s).
Proof. exact ids_kept. Qed.
(** get_tag_add returns the number of the tag, the same the next time. *)
Theorem C57_get_tag_add : forall (d : database) t, reachable d ->
  exists d' i, get_tag_add d t = (d', Ok i) /\ get_tag_add d' t = (d', Ok i) /\
  nth_error (d_tags d') i = Some t /\
  (In t (d_tags d) -> d' = d) /\ (~ In t (d_tags d) -> i = List.length (d_tags d) /\ d_tags d' = d_tags d ++ [t]).
Proof. exact tag_add. Qed.
(** Tags and speakers that are there already: ValueError, nothing changes. *)
Theorem C57_duplicates : forall d : database, reachable d ->
  (forall t, In t (d_tags d) -> add_tag d t = (d, Err ValueError)) /\
  (forall t, ~ In t (d_tags d) -> exists d', add_tag d t = (d', Ok (List.length (d_tags d))) /\ d_tags d' = d_tags d ++ [t]) /\
  (forall s info, In s (d_spkrs d) -> add_speaker d s info = (d, Err ValueError)) /\
  (forall s info, ~ In s (d_spkrs d) -> exists d', add_speaker d s info = (d', Ok (List.length (d_spkrs d))) /\
     d_spkrs d' = d_spkrs d ++ [s] /\ d_spkrs_info d' = d_spkrs_info d ++ [info] /\ d_records d' = d_records d ++ [[]]).
Proof. exact duplicates. Qed.
(** add_record: refusals leave the database as it was; an accepted record is the
    last one of its speaker. *)
Theorem C57_add_record : forall (d : database) (r : record),
  (r_db r <> d_id d -> add_record d r = (d, Err ValueError)) /\
  ((exists t, In t (r_tags r) /\ (Z.of_nat (List.length (d_tags d)) < t)%Z) -> add_record d r = (d, Err ValueError)) /\
  (r_db r = d_id d -> (forall t, In t (r_tags r) -> (t <= Z.of_nat (List.length (d_tags d)))%Z) ->
    (~ (- Z.of_nat (List.length (d_records d)) <= r_spkr_id r < Z.of_nat (List.length (d_records d)))%Z -> add_record d r = (d, Err IndexError)) /\
    (forall k, r_spkr_id r = Z.of_nat k -> k < List.length (d_records d) ->
       exists d' rs, add_record d r = (d', Ok tt) /\ nth_error (d_records d) k = Some rs /\
         nth_error (d_records d') k = Some (rs ++ [r]) /\
         (forall j, j <> k -> nth_error (d_records d') j = nth_error (d_records d) j) /\
         d_tags d' = d_tags d /\ d_spkrs d' = d_spkrs d)).
Proof. exact add_record_cases. Qed.
(** What the methods leave as it was, whether they return or raise: tags do not touch
    records and speakers; speakers and records do not touch tags. *)
Theorem C57_frame : forall d : database,
  (forall t, let d' := fst (add_tag d t) in
     d_id d' = d_id d /\ d_records d' = d_records d /\ d_root d' = d_root d /\
     d_spkrs d' = d_spkrs d /\ d_spkrs_info d' = d_spkrs_info d) /\
  (forall t, let d' := fst (get_tag_add d t) in
     d_id d' = d_id d /\ d_records d' = d_records d /\ d_root d' = d_root d /\
     d_spkrs d' = d_spkrs d /\ d_spkrs_info d' = d_spkrs_info d) /\
  (forall s info, let d' := fst (add_speaker d s info) in
     d_id d' = d_id d /\ d_tags d' = d_tags d /\ d_tag_id d' = d_tag_id d /\ d_root d' = d_root d) /\
  (forall r, let d' := fst (add_record d r) in
     d_id d' = d_id d /\ d_tags d' = d_tags d /\ d_tag_id d' = d_tag_id d /\ d_root d' = d_root d /\
     d_spkrs d' = d_spkrs d /\ d_spkrs_info d' = d_spkrs_info d) /\
  (let d' := fst (sort d) in
     d_id d' = d_id d /\ d_tags d' = d_tags d /\ d_tag_id d' = d_tag_id d /\ d_root d' = d_root d /\
     d_spkrs d' = d_spkrs d /\ d_spkrs_info d' = d_spkrs_info d).
Proof.
  intros d. split; [apply add_tag_frame|]. split; [apply get_tag_frame|].
  split; [apply add_speaker_frame|]. split; [apply add_record_frame|apply sort_frame].
Qed.
(** sort orders the records of each speaker by their audio files, stably. *)
Theorem C57_sort : forall d : database, sortable d ->
  exists d', sort d = (d', Ok tt) /\ Forall2 stably_sorted (d_records d) (d_records d').
Proof. exact sort_sorts. Qed.
(** The number of a speaker is an index of Python: from -1 on it counts from the last
    speaker. *)
Theorem C57_negative_speaker : forall (d : database) (r : record) k, r_db r = d_id d ->
  (forall t, In t (r_tags r) -> (t <= Z.of_nat (List.length (d_tags d)))%Z) ->
  k < List.length (d_records d) ->
  r_spkr_id r = (Z.of_nat k - Z.of_nat (List.length (d_records d)))%Z ->
  exists d' rs, add_record d r = (d', Ok tt) /\ nth_error (d_records d) k = Some rs /\
    nth_error (d_records d') k = Some (rs ++ [r]) /\
    (forall j, j <> k -> nth_error (d_records d') j = nth_error (d_records d) j).
Proof. exact negative_speaker. Qed.
(** The check of tags is off by one: the number after the last tag is accepted, and
    the names of the tags of the record cannot be read any more. *)
Theorem C57_tags_checked_refuted : forall (d : database) (r : record) k,
  r_db r = d_id d -> r_spkr_id r = Z.of_nat k -> k < List.length (d_records d) ->
  r_tags r = [Z.of_nat (List.length (d_tags d))] ->
  exists d', add_record d r = (d', Ok tt) /\ get_tag_names d' r = Err IndexError.
Proof. exact accepted_tag. Qed.

(** The file written by write_json gives the database back, sorted if the records can be
    compared. *)
Theorem C58_round_trip : forall (d : database) fs filename id sorted, savable d -> (sorted = true -> sortable d) ->
  exists fs' d', write_json d fs filename = (fs', Ok tt) /\
  load_from fs' filename sorted (DataBase id) = (d', Ok tt) /\ d_id d' = id /\ consistent d' /\ same_database sorted d d'.
Proof. exact round_trip. Qed.
(** One record without audio file, among two or more of its speaker, makes the sorted
    reading fail, though the file was written. *)
Theorem C58_no_audio : forall (d : database) fs filename id rs r, savable d ->
  In rs (d_records d) -> 2 <= List.length rs -> In r rs -> r_audio r = VNone ->
  exists fs' d', write_json d fs filename = (fs', Ok tt) /\ load_from fs' filename true (DataBase id) = (d', Err TypeError).
Proof. exact not_sorted. Qed.

(** The operators, for records whose audio files have names... *)
Theorem C59_operators : forall (a b : object) s t, name_of (snd a) s -> name_of (snd b) t ->
  lt a b = Ok (String.ltb s t) /\
  le a b = Ok (Nat.eqb (fst a) (fst b) || String.ltb s t) /\
  gt a b = Ok (negb (Nat.eqb (fst a) (fst b) || String.ltb s t)) /\
  ge a b = Ok (negb (String.ltb s t)).
Proof. exact operators. Qed.
(** ... and when one has none. *)
Theorem C59_no_name : forall a b : object, (forall s, ~ name_of (snd a) s) -> fst a <> fst b ->
  lt a b = Err TypeError /\ lt b a = Err TypeError /\ le a b = Err TypeError /\ gt a b = Err TypeError /\ ge a b = Err TypeError.
Proof. exact operators_none. Qed.
Theorem C59_weak_order : forall (a b c : object) s t u, name_of (snd a) s -> name_of (snd b) t -> name_of (snd c) u ->
  lt a a = Ok false /\
  (lt a b = Ok true -> lt b a = Ok false) /\
  (lt a b = Ok true -> lt b c = Ok true -> lt a c = Ok true) /\
  (lt a b = Ok false -> lt b a = Ok false -> lt b c = Ok false -> lt c b = Ok false -> lt a c = Ok false /\ lt c a = Ok false) /\
  (lt a b = Ok false -> lt b a = Ok false -> s = t).
Proof. exact weak_order. Qed.
Theorem C59_ties : forall (a b : object) s, fst a <> fst b -> name_of (snd a) s -> name_of (snd b) s ->
  lt a b = Ok false /\ lt b a = Ok false /\ le a b = Ok false /\ le b a = Ok false /\
  gt a b = Ok true /\ gt b a = Ok true /\ ge a b = Ok true /\ ge b a = Ok true.
Proof. exact ties. Qed.
(** So that a > b does not mean b < a. *)
Theorem C59_converse_refuted : exists a b : object, gt a b = Ok true /\ lt b a <> Ok true.
Proof. exact ties_refuted. Qed.

(** Numbers of records where two tags occur together. *)
Theorem C83_counts : forall d : database,
  (forall rs r t, In rs (d_records d) -> In r rs -> In t (r_tags r) -> (0 <= t < Z.of_nat (List.length (d_tags d)))%Z) ->
  let n := List.length (d_tags d) in
  exists c, count_by_keywords d = Ok c /\ List.length c = n /\ Forall (fun row => List.length row = n) c /\
    (forall t u, t < n -> u < n -> nth u (nth t c []) 0 = together (List.concat (d_records d)) t u) /\
    (forall t u, t < n -> u < n -> nth u (nth t c []) 0 = nth t (nth u c []) 0) /\
    (forall t, t < n -> nth t (nth t c []) 0 = 0).
Proof. exact counts_ok. Qed.
Theorem C83_size : forall d : database, size d = List.length (List.concat (d_records d)).
Proof. exact size_ok. Qed.

(** statistics never works on a database with a speaker. *)
Theorem C84_statistics : forall d : database, (d_records d <> [] -> statistics d = Err TypeError) /\
  (statistics d = Ok tt <-> d_records d = [] /\ d_tags d = []).
Proof. exact statistics_fails. Qed.

Local Open Scope string_scope.
(** Paths of audio files. *)
Theorem C85_path : forall (d : database) (r : record) root s a, d_root d = VStr root -> directory root ->
  py_nth (d_spkrs d) (r_spkr_id r) = Ok s -> plain_name s -> r_audio r = VStr a -> plain_name a ->
  get_audio_path "" d r = Ok (root ++ "/" ++ s ++ "/" ++ a) /\
  forall wav, plain_name wav -> get_audio_path wav d r = Ok (root ++ "/" ++ wav ++ "/" ++ s ++ "/" ++ a).
Proof. exact audio_path. Qed.
Theorem C85_distinct : forall (d : database) (r r' : record) wav root s s' a a', wav = "" \/ plain_name wav ->
  d_root d = VStr root -> directory root ->
  py_nth (d_spkrs d) (r_spkr_id r) = Ok s -> plain_name s -> r_audio r = VStr a -> plain_name a ->
  py_nth (d_spkrs d) (r_spkr_id r') = Ok s' -> plain_name s' -> r_audio r' = VStr a' -> plain_name a' ->
  get_audio_path wav d r = get_audio_path wav d r' -> s = s' /\ a = a'.
Proof. intros d r r' wav root s s' a a' [->|W]; [apply paths_differ|apply paths_differ_in, W]. Qed.
End Props.
Print Assumptions C57_consistent.
Print Assumptions C57_ids_kept.
Print Assumptions C57_get_tag_add.
Print Assumptions C57_duplicates.
Print Assumptions C57_add_record.
Print Assumptions C57_frame.
Print Assumptions C57_sort.
Print Assumptions C57_negative_speaker.
Print Assumptions C57_tags_checked_refuted.
Print Assumptions C58_round_trip.
Print Assumptions C58_no_audio.
Print Assumptions C59_operators.
Print Assumptions C59_no_name.
Print Assumptions C59_weak_order.
Print Assumptions C59_ties.
Print Assumptions C59_converse_refuted.
Print Assumptions C83_counts.
Print Assumptions C83_size.
Print Assumptions C84_statistics.
Print Assumptions C85_path.
Print Assumptions C85_distinct.

(** ** Cases that meet the hypotheses *)
Local Open Scope string_scope.
(** A database with two tags, two speakers and three records. *)
Definition ex_db : database unit :=
  let d := fst (get_tag_add (fst (get_tag_add (DataBase 0) "car")) "dog") in
  let d := fst (add_speaker (fst (add_speaker d "ann" VNone)) "bob" (VList [VInt 3])) in
  let d := fst (add_record d (mkRecord 0 1%Z (VStr "b.wav") [1; 0]%Z (VStr "dog car") VNone)) in
  let d := fst (add_record d (mkRecord 0 (-1)%Z (VStr "a.wav") [0]%Z VNone (VStr "ADS"))) in
  fst (add_record d (mkRecord 0 0%Z (VStr "b.wav") [0; 1; 1]%Z VNone VNone)).
Example C57_ex : reachable ex_db /\ d_tags ex_db = ["car"; "dog"] /\ d_spkrs ex_db = ["ann"; "bob"] /\
  map (@List.length (record unit)) (d_records ex_db) = [1; 2].
Proof.
  split; [|vm_compute; auto]. unfold ex_db.
  repeat (eapply re_step; [|solve [constructor]]). constructor.
Qed.
Example C58_ex : savable ex_db /\ sortable ex_db.
Proof.
  split; [|intros rs I; right; intros r R; cbn in I; destruct I as [<-|[<-|[]]]; cbn in R; [destruct R as [<-|[]]|destruct R as [<-|[<-|[]]]]; eexists; reflexivity].
  split; [apply C57_consistent, C57_ex|]. split; [exists VNone; constructor|]. split.
  - repeat constructor; [exists VNone; constructor|eexists; repeat constructor].
  - assert (W : forall s, writable (Arr := unit) (VStr s)) by (intros s; eexists; constructor).
    assert (W' : writable (Arr := unit) VNone) by (eexists; constructor).
    assert (G : forall r, In r (List.concat (d_records ex_db)) -> good_record 2 r).
    { intros r I. cbn in I. destruct I as [<-|[<-|[<-|[]]]]; (split; [|split; [right; eexists; reflexivity|split; first [apply W|apply W']]]);
        intros t T; cbn in T; lia. }
    apply Forall_forall. intros rs I. apply Forall_forall. intros r J. apply G, in_concat. eauto.
Qed.
(** Read again, the records of bob are sorted. *)
Example C58_ex_sorted :
  match write_json ex_db [] "db.json" with
  | (fs, Ok _) => match load_from fs "db.json" true (DataBase 7) with
                  | (d, Ok _) => map (map r_audio) (d_records d) = [[VStr "b.wav"]; [VStr "a.wav"; VStr "b.wav"]]
                                 /\ map (map r_spkr_id) (d_records d) = [[0]; [1; 1]]%Z
                  | _ => False end
  | _ => False end.
Proof. vm_compute. auto. Qed.
(** A record without audio file, added for bob. *)
Example C58_ex_no_audio :
  let d := fst (add_record ex_db (mkRecord 0 1%Z VNone [] (VStr "car") VNone)) in
  match write_json d [] "db.json" with
  | (fs, Ok _) => snd (load_from fs "db.json" true (DataBase 7)) = Err TypeError /\ snd (load_from fs "db.json" false (DataBase 7)) = Ok tt
  | _ => False end.
Proof. vm_compute. auto. Qed.
Example C83_ex : count_by_keywords ex_db = Ok [[0; 3]; [3; 0]].
Proof. reflexivity. Qed.
Example C85_ex : get_audio_path "WAV" (with_root ex_db (VStr "/data")) (mkRecord 0 1%Z (VStr "b.wav") [] VNone VNone) = Ok "/data/WAV/bob/b.wav".
Proof. reflexivity. Qed.
Example C85_ex_hyp : directory "/data" /\ plain_name "bob" /\ plain_name "b.wav".
Proof. split; [exists "/dat", "a"%char; split; [reflexivity|discriminate]|]. split; split; try discriminate; cbn; intuition discriminate. Qed.
