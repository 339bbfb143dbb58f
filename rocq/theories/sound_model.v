(** * Model of the sound databases (multimodal/db/models/sound.py).

    Values are those of logger_model, as for serialized experiments.  Databases
    are objects with an identity ([d_id]), and a record refers to its database by
    this identity.  Methods that change a database return it together with their
    result, so that what is left by an exception is visible.  Simplifications:
    tags and names of speakers are strings; the tags of a record are Python
    integers; comparisons are those of Python 3; getDom, which builds XML, is in
    dom_model, and the printed text is not modelled. *)

From Coq Require Import List ZArith Bool QArith String Ascii.
Import ListNotations.
From Verif Require Import Py logger_model serial_model.
Local Open Scope nat_scope.
Open Scope py_scope.

Section Sound.
Variable Arr : Type.
Notation val := (val Arr).
Notation files := (files Arr).

(** sound.py:14-21 *)
Record record := mkRecord {
  r_db : nat; r_spkr_id : Z; r_audio : val; r_tags : list Z; r_trans : val; r_style : val }.

(** sound.py:90-100.  [d_tag_id] is a dictionary. *)
Record database := mkDb {
  d_id : nat;
  d_records : list (list record);
  d_tags : list string;
  d_tag_id : list (string * nat);
  d_root : val;
  d_spkrs : list string;
  d_spkrs_info : list val }.
Definition DataBase (id : nat) : database := mkDb id [] [] [] VNone [] [].

(** ** Comparisons *)
(** a < b in Python 3, for strings; other values (None in practice) are refused. *)
Definition val_lt (a b : val) : result bool :=
  match a, b with
  | VStr s, VStr t => Ok (String.ltb s t)
  | _, _ => Err TypeError
  end.
(** Record objects, with their identity: without __eq__, == compares identities. *)
Definition object := (nat * record)%type.
Definition same_object (a b : object) : bool := Nat.eqb (fst a) (fst b).
(** sound.py:23-25 *)
Definition lt (a b : object) : result bool := val_lt (r_audio (snd a)) (r_audio (snd b)).
(** sound.py:27-29 *)
Definition le (a b : object) : result bool := if same_object a b then Ok true else lt a b.
(** sound.py:31-32 *)
Definition gt (a b : object) : result bool := x <- le a b ;; Ok (negb x).
(** sound.py:34-35 *)
Definition ge (a b : object) : result bool := x <- lt a b ;; Ok (negb x).

(** ** Tags and speakers *)
(** sound.py:102-103 *)
Definition has_tag (d : database) (t : string) : bool :=
  match dict_get String.eqb (d_tag_id d) t with Some _ => true | None => false end.
(** sound.py:105-111 *)
Definition add_tag (d : database) (t : string) : database * result nat :=
  if has_tag d t then (d, Err ValueError)
  else
    let tags := d_tags d ++ [t] in
    let tagid := List.length tags - 1 in
    (mkDb (d_id d) (d_records d) tags (dict_set String.eqb (d_tag_id d) t tagid)
       (d_root d) (d_spkrs d) (d_spkrs_info d), Ok tagid).
(** sound.py:113-120 *)
Definition get_tag_add (d : database) (t : string) : database * result nat :=
  if negb (has_tag d t) then add_tag d t
  else match dict_get String.eqb (d_tag_id d) t with
       | Some i => (d, Ok i)
       | None => (d, Err KeyError)
       end.
(** sound.py:160-166 *)
Definition add_speaker (d : database) (name : string) (info : val) : database * result nat :=
  if existsb (String.eqb name) (d_spkrs d) then (d, Err ValueError)
  else
    (mkDb (d_id d) (d_records d ++ [[]]) (d_tags d) (d_tag_id d) (d_root d)
       (d_spkrs d ++ [name]) (d_spkrs_info d ++ [info]),
     Ok (List.length (d_spkrs d ++ [name]) - 1)).

Definition with_records (d : database) (rs : list (list record)) : database :=
  mkDb (d_id d) rs (d_tags d) (d_tag_id d) (d_root d) (d_spkrs d) (d_spkrs_info d).
Definition with_root (d : database) (root : val) : database :=
  mkDb (d_id d) (d_records d) (d_tags d) (d_tag_id d) root (d_spkrs d) (d_spkrs_info d).
(** self.records[i].append(r) *)
Definition append_record (d : database) (i : Z) (r : record) : database * result unit :=
  match (rs <- py_nth (d_records d) i ;; py_set (d_records d) i (rs ++ [r])) with
  | Ok rs => (with_records d rs, Ok tt)
  | Err e => (d, Err e)
  end.
(** sound.py:168-174 *)
Definition add_record (d : database) (r : record) : database * result unit :=
  if negb (Nat.eqb (r_db r) (d_id d)) then (d, Err ValueError)
  else if existsb (fun t => (Z.of_nat (List.length (d_tags d)) <? t)%Z) (r_tags r) then (d, Err ValueError)
  else append_record d (r_spkr_id r) r.

(** ** Sorting *)
(** list.sort with __lt__: stable.  With two records or more each of them is
    compared, and only strings can be. *)
Definition audio_lt (a b : record) : bool :=
  match r_audio a, r_audio b with VStr s, VStr t => String.ltb s t | _, _ => false end.
Fixpoint insert (r : record) (l : list record) : list record :=
  match l with
  | [] => [r]
  | x :: l' => if audio_lt x r then x :: insert r l' else r :: l
  end.
Definition stable_sort (l : list record) : list record := fold_right insert [] l.
Definition is_str (v : val) : bool := match v with VStr _ => true | _ => false end.
Definition sort_records (l : list record) : result (list record) :=
  if (2 <=? List.length l) && negb (forallb (fun r => is_str (r_audio r)) l) then Err TypeError
  else Ok (stable_sort l).
(** sound.py:122-124.  A list whose sort fails is left as it was (Python may
    reorder it). *)
Fixpoint sort_all (ls : list (list record)) : list (list record) * result unit :=
  match ls with
  | [] => ([], Ok tt)
  | l :: ls' =>
      match sort_records l with
      | Ok l' => let (ls'', r) := sort_all ls' in (l' :: ls'', r)
      | Err e => (l :: ls', Err e)
      end
  end.
Definition sort (d : database) : database * result unit :=
  let (rs, r) := sort_all (d_records d) in (with_records d rs, r).

(** ** Paths *)
(** os.path.join of two paths, on Unix. *)
Definition starts_with_slash (s : string) : bool :=
  match s with String c _ => Ascii.eqb c "/"%char | EmptyString => false end.
Fixpoint ends_with_slash (s : string) : bool :=
  match s with
  | EmptyString => false
  | String c EmptyString => Ascii.eqb c "/"%char
  | String _ s' => ends_with_slash s'
  end.
Definition path_join (a b : string) : string :=
  if starts_with_slash b then b
  else if match a with EmptyString => true | _ => ends_with_slash a end then (a ++ b)%string
  else (a ++ "/" ++ b)%string.
(** sound.py:126-128; [wav_dir] is the class attribute WAV_DIR (line 88,
    acorns.py:32).  A root that is not a string cannot be joined. *)
Definition get_wav_dir (wav_dir : string) (d : database) (speaker_id : Z) : result string :=
  s <- py_nth (d_spkrs d) speaker_id ;;
  root <- as_string (d_root d) ;;
  Ok (path_join (path_join root wav_dir) s).
(** sound.py:51-52 *)
Definition get_audio_path (wav_dir : string) (d : database) (r : record) : result string :=
  w <- get_wav_dir wav_dir d (r_spkr_id r) ;;
  a <- as_string (r_audio r) ;;
  Ok (path_join w a).

(** ** Files *)
(** sound.py:48-49; [d] is the database of the record. *)
Definition get_tag_names (d : database) (r : record) : result (list string) :=
  mapM (fun i => py_nth (d_tags d) i) (r_tags r).
(** sound.py:54-59 *)
Definition to_dict (d : database) (r : record) : result val :=
  names <- get_tag_names d r ;;
  Ok (VDict [(KStr "audio_file", r_audio r); (KStr "tags", VList (map VStr names));
             (KStr "transcription", r_trans r); (KStr "style", r_style r)])%string.
(** sound.py:131-142 *)
Definition speaker_data (d : database) (s : string * (val * list record)) : result val :=
  rs <- mapM (to_dict d) (snd (snd s)) ;;
  Ok (VDict [(KStr "name", VStr (fst s)); (KStr "info", fst (snd s)); (KStr "records", VList rs)])%string.
Definition to_data (d : database) : result val :=
  ss <- mapM (speaker_data d) (combine (d_spkrs d) (combine (d_spkrs_info d) (d_records d))) ;;
  Ok (VDict [(KStr "root", d_root d); (KStr "tags", VList (map VStr (d_tags d)));
             (KStr "speakers", VList ss)])%string.
(** sound.py:130-144: the file is opened (and emptied) after the data is built. *)
Definition write_json (d : database) (fs : files) (filename : string) : files * result unit :=
  match to_data d with
  | Err e => (fs, Err e)
  | Ok data =>
      match json_rt data with
      | Ok v => (dict_set String.eqb fs filename (Some v), Ok tt)
      | Err e => (dict_set String.eqb fs filename None, Err e)
      end
  end.

(** d.get(k, default) *)
Definition get (v : val) (k : string) (default : val) : result val :=
  match v with
  | VDict _ => match item v k with Ok x => Ok x | Err _ => Ok default end
  | _ => Err AttributeError
  end.

(** Computations on a database. *)
Definition action (A : Type) := database -> database * result A.
Definition ret {A} (x : A) : action A := fun d => (d, Ok x).
Definition lift {A} (x : result A) : action A := fun d => (d, x).
Definition bindA {A B} (x : action A) (f : A -> action B) : action B :=
  fun d => match x d with (d', Ok a) => f a d' | (d', Err e) => (d', Err e) end.
Fixpoint mapA {A B} (f : A -> action B) (l : list A) : action (list B) :=
  match l with
  | [] => ret []
  | x :: l' => bindA (f x) (fun y => bindA (mapA f l') (fun ys => ret (y :: ys)))
  end.
Fixpoint iterA {A} (f : A -> action unit) (l : list A) : action unit :=
  match l with [] => ret tt | x :: l' => bindA (f x) (fun _ => iterA f l') end.

(** sound.py:79-83 *)
Definition from_dict (speaker_id : nat) (v : val) : action record :=
  bindA (lift (get v "audio_file"%string VNone)) (fun audio =>
  bindA (lift (ts <- get v "tags"%string (VList []) ;; iter ts)) (fun ts =>
  bindA (mapA (fun t => bindA (lift (as_string t)) (fun s d => get_tag_add d s)) ts) (fun ids =>
  bindA (lift (get v "transcription"%string VNone)) (fun trans =>
  bindA (lift (get v "style"%string VNone)) (fun style d =>
  (d, Ok (mkRecord (d_id d) (Z.of_nat speaker_id) audio (map Z.of_nat ids) trans style))))))).
(** sound.py:154-156 *)
Definition load_record (spk_id : nat) (v : val) : action unit :=
  bindA (from_dict spk_id v) (fun r d => append_record d (-1) r).
(** sound.py:152-156 *)
Definition load_speaker (s : val) : action unit :=
  bindA (lift (item s "name"%string)) (fun name =>
  bindA (lift (get s "info"%string VNone)) (fun info =>
  bindA (lift (as_string name)) (fun name =>
  bindA (fun d => add_speaker d name info) (fun spk_id =>
  bindA (lift (rs <- item s "records"%string ;; iter rs)) (fun rs =>
  iterA (load_record spk_id) rs))))).
(** sound.py:149-158 *)
Definition load_data (data : val) (sorted : bool) : action unit :=
  bindA (lift (item data "root"%string)) (fun root =>
  bindA (fun d => (with_root d root, Ok tt)) (fun _ =>
  bindA (lift (ts <- get data "tags"%string (VList []) ;; iter ts)) (fun ts =>
  bindA (iterA (fun t => bindA (lift (as_string t)) (fun s =>
                bindA (fun d => add_tag d s) (fun _ => ret tt))) ts) (fun _ =>
  bindA (lift (ss <- item data "speakers"%string ;; iter ss)) (fun ss =>
  bindA (iterA load_speaker ss) (fun _ =>
  if sorted then sort else ret tt)))))).
(** sound.py:146-158 *)
Definition load_from (fs : files) (filename : string) (sorted : bool) : action unit :=
  match dict_get String.eqb fs filename with
  | None => lift (Err IOError)
  | Some None => lift (Err BadFile)
  | Some (Some data) => load_data data sorted
  end.

(** ** Counts *)
(** sound.py:176-177 *)
Definition size (d : database) : nat := list_sum (map (@List.length record) (d_records d)).
(** sound.py:194-197 *)
Definition all_records (d : database) : list record := List.concat (d_records d).
(** counts[t][u] += 1 *)
Definition incr (counts : list (list nat)) (t u : Z) : result (list (list nat)) :=
  row <- py_nth counts t ;; v <- py_nth row u ;; row <- py_set row u (v + 1) ;; py_set counts t row.
(** sound.py:183-192 *)
Definition count_by_keywords (d : database) : result (list (list nat)) :=
  let nb_kw := List.length (d_tags d) in
  foldM (fun counts s => foldM (fun counts r => foldM (fun counts t => foldM (fun counts u =>
      if negb (t =? u)%Z then incr counts t u else Ok counts) (r_tags r) counts)
      (r_tags r) counts) s counts) (d_records d) (repeat (repeat 0 nb_kw) nb_kw).

(** What printing gives: ", ".join of a list of objects that are not strings is a
    TypeError unless the list is empty. *)
Definition join_objects {A} (l : list A) : result string :=
  match l with [] => Ok EmptyString | _ => Err TypeError end.
(** sound.py:199-209 *)
Definition statistics (d : database) : result unit :=
  join_objects (d_records d) ;;;
  foldM (fun counts r => foldM (fun counts t => v <- py_nth counts t ;; py_set counts t (v + 1)) (r_tags r) counts)
        (all_records d) (map (fun _ => 0) (d_tags d)) ;;;
  join_objects (d_tags d) ;;;
  Ok tt.
End Sound.

Arguments r_db {Arr}. Arguments r_spkr_id {Arr}. Arguments r_audio {Arr}. Arguments r_tags {Arr}.
Arguments r_trans {Arr}. Arguments r_style {Arr}. Arguments mkRecord {Arr}. Arguments mkDb {Arr}.
Arguments d_id {Arr}. Arguments d_records {Arr}. Arguments d_tags {Arr}. Arguments d_tag_id {Arr}.
Arguments d_root {Arr}. Arguments d_spkrs {Arr}. Arguments d_spkrs_info {Arr}.
Arguments DataBase {Arr}. Arguments val_lt {Arr}. Arguments same_object {Arr}. Arguments lt {Arr}.
Arguments le {Arr}. Arguments gt {Arr}. Arguments ge {Arr}. Arguments has_tag {Arr}. Arguments add_tag {Arr}.
Arguments get_tag_add {Arr}. Arguments add_speaker {Arr}. Arguments with_records {Arr}. Arguments with_root {Arr}.
Arguments append_record {Arr}. Arguments add_record {Arr}. Arguments audio_lt {Arr}. Arguments insert {Arr}.
Arguments stable_sort {Arr}. Arguments is_str {Arr}. Arguments sort_records {Arr}. Arguments sort_all {Arr}.
Arguments sort {Arr}. Arguments get_wav_dir {Arr}. Arguments get_audio_path {Arr}. Arguments get_tag_names {Arr}.
Arguments to_dict {Arr}. Arguments speaker_data {Arr}. Arguments to_data {Arr}. Arguments write_json {Arr}.
Arguments get {Arr}. Arguments ret {Arr A}. Arguments lift {Arr A}. Arguments bindA {Arr A B}.
Arguments mapA {Arr A B}. Arguments iterA {Arr A}. Arguments from_dict {Arr}. Arguments load_record {Arr}.
Arguments load_speaker {Arr}. Arguments load_data {Arr}. Arguments load_from {Arr}. Arguments size {Arr}.
Arguments all_records {Arr}. Arguments count_by_keywords {Arr}. Arguments statistics {Arr}.
