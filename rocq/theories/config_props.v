(** * C118: the configuration and the places of the data. *)

From Coq Require Import List ZArith Bool String Ascii.
Import ListNotations.
From Verif Require Import Py config_model config_spec config_proof.
Local Open Scope string_scope.

(** After any sequence of assignments a value is found if and only if the key was
    assigned, and it is the value that was assigned last. *)
Theorem C118_value : forall A (l : list (key * A)) c x v, assign [] l = inl c ->
  (getitem c x = inl v <-> hashable x /\ last_assigned l x v).
Proof. intros A l c x v. apply getitem_value. Qed.

(** A string that was not assigned raises a NoConfigValueError with a message that names
    it; except LookupError catches it, except KeyError does not. *)
Theorem C118_missing : forall A (l : list (key * A)) c s, assign [] l = inl c -> ~ In (KStr s) (map fst l) ->
  exists r, getitem c (KStr s) = inr r /\
    r = NoConfigValueError (KStr s) ("No local configuration value for: '" ++ s ++ "'.") /\
    caught_by "LookupError" r = true /\ caught_by "KeyError" r = false.
Proof.
  intros A l c s H N. eexists. split; [apply getitem_missing; apply (get_none l c (KStr s) H); [discriminate|exact N]|].
  repeat split.
Qed.

(** The message is not what is printed: only the key is. *)
Theorem C118_printed_refuted : forall A (c : config A) s r, getitem c (KStr s) = inr r -> printed r = s /\
  (forall m, r = NoConfigValueError (KStr s) m -> m <> printed r).
Proof. intros A c s r. apply printed_key. Qed.

(** A tuple that was not assigned, unless it has one element, raises TypeError, that
    except LookupError does not catch: the message cannot be made. *)
Theorem C118_tuple_refuted : forall A (l : list (key * A)) c t, assign [] l = inl c -> ~ In (KTuple t) (map fst l) ->
  List.length t <> 1%nat -> exists r, getitem c (KTuple t) = inr r /\ caught_by "LookupError" r = false /\ r = Other TypeError.
Proof.
  intros A l c t H N L. eexists. split; [apply getitem_tuple; [|exact L]; apply (get_none l c (KTuple t) H); [discriminate|exact N]|].
  split; reflexivity.
Qed.

(** A tuple with one element is named by this element; what cannot be hashed raises TypeError. *)
Theorem C118_other_keys : forall A (l : list (key * A)) c, assign [] l = inl c ->
  (forall s, ~ In (KTuple [s]) (map fst l) -> getitem c (KTuple [s]) = inr (NoConfigValueError (KTuple [s]) ("No local configuration value for: '" ++ s ++ "'."))) /\
  getitem c Unhashable = inr (Other TypeError) /\ (forall v, setitem c Unhashable v = inr (Other TypeError)) /\ (forall d, get_default c Unhashable d = inr (Other TypeError)).
Proof.
  intros A l c H. split; [|repeat split]. intros s N. apply (get_none l c (KTuple [s]) H) in N; [|discriminate]. unfold getitem, dict_getitem. now rewrite N.
Qed.

(** get, inherited from dict, never raises for a string. *)
Theorem C118_get : forall A (l : list (key * A)) c s d, assign [] l = inl c ->
  (forall v, last_assigned l (KStr s) v -> get_default c (KStr s) d = inl v) /\
  (~ In (KStr s) (map fst l) -> get_default c (KStr s) d = inl d).
Proof.
  intros A l c s d H. split.
  - intros v L. assert (G : getitem c (KStr s) = inl v) by (apply (getitem_value l c (KStr s) v H); split; [discriminate|exact L]).
    unfold getitem, dict_getitem in G. unfold get_default. destruct (dict_get key_eqb c (KStr s)); [injection G as ->; reflexivity|discriminate].
  - intros N. unfold get_default. apply (get_none l c (KStr s) H) in N; [|discriminate]. now rewrite N.
Qed.

(** With local.py as it is, every default place is in work/data/ of the user's directory,
    slashes at the end of which do not matter: data sets in db/, features in features/. *)
Theorem C118_places : forall home base, without_slashes home base -> exists c, CONFIG home = inl c /\
  forall p, exists name, name <> "" /\
    (is_database p -> path_of c p = inl (base ++ "/work/data/db/" ++ name)) /\
    (~ is_database p -> path_of c p = inl (base ++ "/work/data/features/" ++ name)).
Proof. exact places_ok. Qed.

(** The names of the places. *)
Theorem C118_names : forall home base c, without_slashes home base -> CONFIG home = inl c ->
  path_of c Acorns = inl (base ++ "/work/data/db/ACORNS") /\ path_of c Vctk = inl (base ++ "/work/data/db/VCTK-Corpus") /\
  path_of c Choreo1 = inl (base ++ "/work/data/db/choreo") /\ path_of c Choreo2 = inl (base ++ "/work/data/db/choreo2/choreo2.json") /\
  path_of c (Objects true) = inl (base ++ "/work/data/db/objects/single_object_label.json") /\
  path_of c (Objects false) = inl (base ++ "/work/data/db/objects/single_object_label") /\
  path_of c Choreo2Features = inl (base ++ "/work/data/features/choreo2_angle_hist.npz") /\
  path_of c Codebook = inl (base ++ "/work/data/features/vctk_codebook.mat").
Proof. exact names_ok. Qed.

(** Different data has different places; the features of each speaker of ACORNS too. *)
Theorem C118_distinct : forall home c p q d, CONFIG home = inl c -> path_of c p = inl d -> path_of c q = inl d -> p = q.
Proof. exact path_distinct. Qed.

(** Without the entry for its directory a place raises NoConfigValueError with the name
    of this entry. *)
Theorem C118_no_entry : forall l c p k, assign [] l = inl c -> ~ In (KStr k) (map fst l) ->
  (is_database p -> k = "db-dir") -> (~ is_database p -> k = "feat-dir") ->
  exists m, path_of c p = inr (NoConfigValueError (KStr k) m).
Proof.
  intros l c p k H N H1 H2. eexists. apply (path_missing c p k H1 H2). apply (get_none l c (KStr k) H); [discriminate|exact N].
Qed.

Print Assumptions C118_value.
Print Assumptions C118_missing.
Print Assumptions C118_printed_refuted.
Print Assumptions C118_tuple_refuted.
Print Assumptions C118_other_keys.
Print Assumptions C118_get.
Print Assumptions C118_places.
Print Assumptions C118_names.
Print Assumptions C118_distinct.
Print Assumptions C118_no_entry.

(** A configuration where a key is assigned twice. *)
Definition case_list : list (key * nat) := [(KStr "a", 1); (KTuple ["a"; "b"], 2); (KStr "a", 3)]%nat.
Example C118_case : exists c, assign [] case_list = inl c /\ getitem c (KStr "a") = inl 3%nat /\
  last_assigned case_list (KStr "a") 3%nat /\ ~ In (KStr "b") (map fst case_list) /\ ~ In (KTuple ["b"; "a"]) (map fst case_list).
Proof.
  eexists. split; [reflexivity|]. split; [reflexivity|]. split.
  - exists [(KStr "a", 1); (KTuple ["a"; "b"], 2)]%nat, []. split; [reflexivity|intros []].
  - split; intros [H|[H|[H|[]]]]; discriminate.
Qed.

(** HOME with slashes at its end, and HOME being the root. *)
Example C118_case_home : without_slashes "/home/me//" "/home/me" /\ without_slashes "/" "".
Proof.
  split.
  - exists "//". split; [reflexivity|]. split; [intros c [<-|[<-|[]]]; reflexivity|]. intros (b & E).
    do 8 (destruct b as [|? b]; [discriminate|injection E as _ E]). destruct b; discriminate.
  - exists "/". split; [reflexivity|]. split; [intros c [<-|[]]; reflexivity|]. intros (b & E). destruct b; discriminate.
Qed.

Example C118_case_path : exists c, CONFIG "/home/me//" = inl c /\
  path_of c (AcornsFeatures 1 0) = inl "/home/me/work/data/features/acorns_HAC_Y1_S01_python.mat".
Proof. eexists. split; reflexivity. Qed.
