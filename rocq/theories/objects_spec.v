(** * What object databases have to contain. *)

From Coq Require Import List ZArith Arith Bool QArith Reals String Ascii Sorted.
Import ListNotations.
From Verif Require Import Py sound_model nd_model nd_spec array_utils_spec motion_model objects_model.
Local Open Scope nat_scope.
Local Open Scope string_scope.

(** ** Text *)
Definition chars (P : ascii -> Prop) (s : string) : Prop := forall c, In c (list_ascii_of_string s) -> P c.
(** White space of Python, below 256. *)
Definition space (c : ascii) : Prop := In (nat_of_ascii c) [9; 10; 11; 12; 13; 28; 29; 30; 31; 32; 133; 160].
Definition blank (s : string) : Prop := chars space s.
Definition word (w : string) : Prop := w <> "" /\ chars (fun c => ~ space c) w.
(** The words of a text. *)
Inductive words : string -> list string -> Prop :=
| words_none b : blank b -> words b []
| words_cons b w r ws : blank b -> word w -> (r = "" \/ exists c r', r = String c r' /\ space c) -> words r ws -> words (b ++ w ++ r) (w :: ws).

Definition dec (c : ascii) : Prop := 48 <= nat_of_ascii c <= 57.
Definition digits (s : string) : Prop := s <> "" /\ chars dec s.
(** The number written in decimal. *)
Inductive decimal : string -> Z -> Prop :=
| decimal_nil : decimal "" 0
| decimal_snoc s c v : decimal s v -> decimal (s ++ String c "") (10 * v + (Z.of_nat (nat_of_ascii c) - 48)).
(** ..._o<label>_<digits><any character><digits>, with or without a newline at the end. *)
Definition named (name label time : string) : Prop :=
  exists pre a c b tail, name = pre ++ "_o" ++ label ++ "_" ++ time ++ tail /\ digits label /\
    time = a ++ String c b /\ digits a /\ digits b /\ c <> newline /\ (tail = "" \/ tail = String newline "").

(** A list without the elements that satisfy [P]. *)
Inductive without {A} (P : A -> Prop) : list A -> list A -> Prop :=
| wo_nil : without P [] []
| wo_skip x l r : P x -> without P l r -> without P (x :: l) r
| wo_keep x l r : ~ P x -> without P l r -> without P (x :: l) (x :: r).
Definition blank_line (l : string) : Prop := l <> "" /\ blank l.

Section Words.
Variable int_of : string -> result Z.
Variable time_of : string -> result Q.
Variable float_of : string -> result R.

(** ** A line of the statistics file *)
(** "name |view|...|view": one character is lost before the first bar; four views are
    stored as five. *)
Definition describes (line : string) (f : frame) : Prop :=
  exists c bs vs label time,
    line = String.concat "|" ((f_name f ++ String c "") :: bs) /\
    (forall b, In b ((f_name f ++ String c "") :: bs) -> chars (fun c => c <> "|"%char) b) /\
    Forall2 (fun b v => exists ws, words b ws /\ Forall2 (fun w z => int_of w = Ok z) ws v) bs vs /\
    named (f_name f) label time /\ decimal label (f_label f) /\ time_of time = Ok (f_time f) /\
    f_views f = ((if (List.length vs =? 4)%nat then [None] else []) ++ map Some vs)%list.

(** ** A file of features *)
Definition numbers (line : string) (x : list R) : Prop := exists ws, words line ws /\ Forall2 (fun w r => float_of w = Ok r) ws x.
Definition feature_file (f : frame) (path : string) : string := path_join (path_join path "histograms") (f_name f).
(** The features of a frame: five for each view, from the last line of the file to the
    first. *)
Definition reads (files : string -> option (list string)) (path : string) (f : frame) (vs : list (list (list R))) : Prop :=
  exists ls L, files (feature_file f path) = Some ls /\ without blank_line ls L /\ List.length L = 5 * List.length (f_views f) /\
    List.length vs = List.length (f_views f) /\
    forall v feats, nth_error vs v = Some feats -> List.length feats = 5 /\
      forall k x, nth_error feats k = Some x ->
        exists line, nth_error L (List.length L - 1 - (5 * v + k)) = Some line /\ numbers line x.
(** A frame left out: no file, or not five lines for each view. *)
Definition left_out (files : string -> option (list string)) (path : string) (f : frame) : Prop :=
  files (feature_file f path) = None \/
  exists ls L, files (feature_file f path) = Some ls /\ without blank_line ls L /\ List.length L <> 5 * List.length (f_views f).
Inductive kept (files : string -> option (list string)) (path : string) : list frame -> list (frame * list (list (list R))) -> Prop :=
| kept_nil : kept files path [] []
| kept_skip f fs r : left_out files path f -> kept files path fs r -> kept files path (f :: fs) r
| kept_keep f vs fs r : reads files path f vs -> kept files path fs r -> kept files path (f :: fs) ((f, vs) :: r).
(** The frames of the statistics file. *)
Definition listed (files : string -> option (list string)) (path : string) (fs : list frame) : Prop :=
  exists ls L, files path = Some ls /\ without blank_line ls L /\ Forall2 describes L fs.
End Words.

(** ** Histograms by frame *)
Definition views (f : frame) : nat := List.length (f_views f).
(** The row of the first view of frame [j]. *)
Definition offset (fs : list frame) (j : nat) : nat := list_sum (map views (firstn j fs)).
Definition mean (l : list R) : R := (lsum l / INR (List.length l))%R.
(** Row [j] of [M] is the mean of the rows of [X] of frame [j]; for a frame without
    view, it is the row that follows. *)
Definition by_frame (fs : list frame) (X M : nd) : Prop :=
  shape M = [List.length fs; nth 1 (shape X) 0] /\
  forall j f c, nth_error fs j = Some f -> c < nth 1 (shape X) 0 ->
    (1 <= views f -> el M [j; c] = mean (map (fun r => el X [r; c]) (seq (offset fs j) (views f)))) /\
    (views f = 0 -> el M [j; c] = el X [offset fs j; c]).

(** Element [c] of a vector padded with zeros. *)
Definition padded_at (x : list R) (c : nat) : R := match nth_error x c with Some v => v | None => 0%R end.
(** The vectors of feature [k] of all views, in order. *)
Definition vectors (k : nat) (r : list (frame * list (list (list R)))) : list (list R) :=
  flat_map (fun fv => map (fun feats => nth k feats []) (snd fv)) r.

(** Matrix [M] of feature [k]: the mean of the vectors of each frame, padded. *)
Definition computed (r : list (frame * list (list (list R)))) (k : nat) (M : nd) : Prop :=
  shape M = [List.length r; longest (vectors k r)] /\
  forall j f vs c, nth_error r j = Some (f, vs) -> c < longest (vectors k r) ->
    (1 <= views f -> el M [j; c] = mean (map (fun feats => padded_at (nth k feats []) c) vs)) /\
    (views f = 0 -> el M [j; c] = padded_at (nth (offset (map fst r) j) (vectors k r) []) c).
(** There is a frame, and the last one has a view. *)
Definition last_seen (r : list (frame * list (list (list R)))) : Prop := exists r' f vs, r = (r' ++ [(f, vs)])%list /\ views f <> 0.

(** ** Frames *)
(** What Frame(...) can give: never exactly four views. *)
Definition constructed (f : frame) : Prop := exists n l t vs, f = Frame n l t vs.

(** ** The loader *)
(** The label of the frame is the number of an entry of the names, which can be None. *)
Definition entry_of (d : object_db) (f : frame) (n : option string) : Prop :=
  exists ns, o_names d = Some ns /\ py_nth ns (f_label f) = Ok n.
Definition name_of (d : object_db) (f : frame) (n : string) : Prop := entry_of d f (Some n).
(** The indices, in order, of the frames whose name is wanted. *)
Definition wanted (d : object_db) (labels : list string) (idx : list nat) : Prop :=
  StronglySorted Peano.lt idx /\ forall i, In i idx <-> exists f n, nth_error (o_frames d) i = Some f /\ name_of d f n /\ In n labels.
(** Every label is the number of an entry. *)
Definition name_ok (d : object_db) : Prop := forall f, In f (o_frames d) -> exists n, entry_of d f n.
(** The matrices by frame of a list of features. *)
Definition histograms (d : object_db) (features : list string) (Ms : list nd) : Prop :=
  Forall2 (fun t M => exists k, dict_get String.eqb FEATURES_INDEX t = Some k /\ nth_error (o_by_frame d) k = Some (Some M)) features Ms.
(** A loader after any calls. *)
Inductive used (l0 : loader) : loader -> Prop :=
| used_new : used l0 l0
| used_data l : used l0 l -> used l0 (fst (get_data l))
| used_labels l : used l0 l -> used l0 (fst (get_labels l)).
