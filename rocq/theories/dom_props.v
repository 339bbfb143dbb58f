(** * Theorems on the XML element of a record (C132). *)

From Coq Require Import List ZArith Bool String.
Import ListNotations.
From Verif Require Import Py logger_model serial_model sound_model dom_model dom_spec dom_proof.
Local Open Scope string_scope.

(** The element has the style, the file, the transcription and the names of the tags, in order. *)
Theorem C132_element : forall (Arr : Type) (d : database Arr) (r : record Arr) a t names,
  r_audio r = VStr a -> r_trans r = VStr t -> get_tag_names d r = Ok names ->
  exists e, get_dom d r = Ok e /\ element_of (r_style r) a t names e.
Proof. exact @dom_element. Qed.
Print Assumptions C132_element.

(** They can be read back from it. *)
Theorem C132_read_back : forall (Arr : Type) style a t tags style' a' t' tags' (n : node Arr),
  element_of style a t tags n -> element_of style' a' t' tags' n -> style = style' /\ a = a' /\ t = t' /\ tags = tags'.
Proof. exact @element_inj. Qed.
Print Assumptions C132_read_back.

(** Records with the same element, of one database or of two, have the same dictionary. *)
Theorem C132_same : forall (Arr : Type) (d d' : database Arr) (r r' : record Arr) e,
  get_dom d r = Ok e -> get_dom d' r' = Ok e ->
  r_style r = r_style r' /\ r_audio r = r_audio r' /\ r_trans r = r_trans r' /\ get_tag_names d r = get_tag_names d' r' /\ to_dict d r = to_dict d' r'.
Proof. exact @dom_same. Qed.
Print Assumptions C132_same.

(** A record without file or without transcription has a dictionary, but no element. *)
Theorem C132_missing_refuted : forall (Arr : Type) (d : database Arr) (r : record Arr),
  (forall s, r_audio r <> VStr s) \/ (forall s, r_trans r <> VStr s) -> get_dom d r = Err TypeError /\
  (forall names, get_tag_names d r = Ok names -> exists v, to_dict d r = Ok v).
Proof.
  intros Arr d r H. split; [exact (dom_type d r H)|]. intros names N. unfold to_dict. rewrite N. eexists. reflexivity.
Qed.
Print Assumptions C132_missing_refuted.

(** Tags that are not in the database raise IndexError. *)
Theorem C132_tags : forall (Arr : Type) (d : database Arr) (r : record Arr) a t i,
  r_audio r = VStr a -> r_trans r = VStr t -> In i (r_tags r) ->
  (i < - Z.of_nat (List.length (d_tags d)) \/ Z.of_nat (List.length (d_tags d)) <= i)%Z -> get_dom d r = Err IndexError.
Proof. intros Arr d r a t i A T I H. exact (dom_tags d r a t _ A T (names_error d r i I H)). Qed.
Print Assumptions C132_tags.

(** The element does not tell the speaker. *)
Theorem C132_speaker_refuted : forall (Arr : Type) (d : database Arr) n i j a tags t s,
  get_dom d (mkRecord n i a tags t s) = get_dom d (mkRecord n j a tags t s).
Proof. intros. reflexivity. Qed.
Print Assumptions C132_speaker_refuted.

(** ** Examples *)
Definition ex_db : database unit := mkDb 0 [] ["dog"; "cat"] [("dog", 0); ("cat", 1)] VNone ["ann"] [VNone].
Definition ex_r : record unit := mkRecord 0 0 (VStr "a.wav") [1; 0; -1]%Z (VStr "a cat & a dog") (VStr "IDS").
Example ex_dom : get_dom ex_db ex_r = Ok (Element "record" [("style", VStr "IDS")]
  [Element "audio" [] [Text "a.wav"]; Element "trans" [] [Text "a cat & a dog"];
   Element "tag" [("name", VStr "cat")] []; Element "tag" [("name", VStr "dog")] []; Element "tag" [("name", VStr "cat")] []]).
Proof. reflexivity. Qed.
Example ex_names : get_tag_names ex_db ex_r = Ok ["cat"; "dog"; "cat"].
Proof. reflexivity. Qed.
Example ex_element : element_of (VStr "IDS") "a.wav" "a cat & a dog" ["cat"; "dog"; "cat"] (whole (VStr (Arr := unit) "IDS") "a.wav" "a cat & a dog" ["cat"; "dog"; "cat"]).
Proof. apply whole_element. Qed.
Definition ex_none : record unit := mkRecord 0 0 (VStr "a.wav") [] VNone VNone.
Example ex_missing : (forall s, r_trans ex_none <> VStr s) /\ get_dom ex_db ex_none = Err TypeError /\ exists v, to_dict ex_db ex_none = Ok v.
Proof. split; [discriminate|]. split; [reflexivity|]. eexists. reflexivity. Qed.
Example ex_tag : get_dom ex_db (mkRecord 0 0 (VStr "a.wav") [2]%Z (VStr "x") VNone) = Err IndexError.
Proof. reflexivity. Qed.
