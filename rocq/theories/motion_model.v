(** * Model of motion databases (multimodal/db/models/kinect_motion.py).

    Simplifications: the name, the names of markers and the descriptions of labels
    are strings, and what is read from a JSON file is checked to have these types
    (TypeError otherwise); arrays are opaque, with a shape and a reshape function,
    and are given back by np.load as they were given to np.savez; files are
    identified by the text of their path, and directories needed to write a file
    exist or are those made by create_text_subdirs.  Printed text is in motioninfo_model. *)

From Coq Require Import List ZArith Bool QArith String Ascii.
Import ListNotations.
From Verif Require Import Py logger_model serial_model sound_model.
Local Open Scope nat_scope.
Open Scope py_scope.

(** Labels: integers, strings, or other hashable objects (such as the integers of
    numpy), which JSON cannot write. *)
Inductive label := LInt (z : Z) | LStr (s : string) | LOther (n : nat).
Definition label_eqb (a b : label) : bool :=
  match a, b with
  | LInt x, LInt y => Z.eqb x y
  | LStr x, LStr y => String.eqb x y
  | LOther x, LOther y => Nat.eqb x y
  | _, _ => false
  end.
(** Descriptions of labels: None, a list or a dictionary. *)
Inductive descriptions := DNone | DList (l : list string) | DDict (d : list (label * string)).
(** descriptions[l] *)
Definition describe (ds : descriptions) (l : label) : result string :=
  match ds with
  | DNone => Err TypeError
  | DList ss => match l with LInt z => py_nth ss z | _ => Err TypeError end
  | DDict d => match dict_get label_eqb d l with Some s => Ok s | None => Err KeyError end
  end.
(** str(z) *)
Definition str_of_int (z : Z) : string := string_of_Z z.

(** os.path.dirname on Unix: the text until the last slash, without the slashes at its
    end unless it has nothing else. *)
Fixpoint head_part (s : string) : string :=
  match s with
  | EmptyString => EmptyString
  | String c s' =>
      match head_part s' with
      | EmptyString => if Ascii.eqb c "/"%char then String c EmptyString else EmptyString
      | h => String c h
      end
  end.
Fixpoint strip_slashes (s : string) : string :=
  match s with
  | EmptyString => EmptyString
  | String c s' =>
      match strip_slashes s' with
      | EmptyString => if Ascii.eqb c "/"%char then EmptyString else String c EmptyString
      | h => String c h
      end
  end.
Definition dirname (s : string) : string :=
  match strip_slashes (head_part s) with EmptyString => head_part s | h => h end.

Section Motion.
Variable Arr : Type.
Variable shape : Arr -> list nat.
Variable reshape : Arr -> list nat -> Arr.
Notation val := (val Arr).
Notation files := (files Arr).

(** kinect_motion.py:56-60; a record is an array and a list of labels. *)
Record motion_db := mkMotion {
  m_name : string; m_markers : list string; m_records : list (Arr * list label); m_desc : descriptions }.
Definition MotionDatabase (name : string) (markers : list string) (ds : descriptions) : motion_db := mkMotion name markers [] ds.
Definition with_motions (d : motion_db) (rs : list (Arr * list label)) : motion_db :=
  mkMotion (m_name d) (m_markers d) rs (m_desc d).

(** kinect_motion.py:62-71 *)
Definition has_label_descriptions (d : motion_db) : bool := match m_desc d with DNone => false | _ => true end.
Definition get_description_safe (d : motion_db) (l : label) : result string :=
  if has_label_descriptions d then
    match describe (m_desc d) l with
    | Err IndexError | Err KeyError => Ok EmptyString
    | r => r
    end
  else Ok EmptyString.
(** kinect_motion.py:73-78 *)
Definition get_data_dimension (d : motion_db) : result (list nat) :=
  match m_records d with [] => Err ValueError | r :: _ => Ok (skipn 1 (shape (fst r))) end.
(** kinect_motion.py:80-98 *)
Definition data (d : motion_db) : list Arr := map fst (m_records d).
Definition labels (d : motion_db) : list (list label) := map snd (m_records d).
Definition add (d : motion_db) (a : Arr) (ls : list label) : motion_db := with_motions d (m_records d ++ [(a, ls)]).
Definition msize (d : motion_db) : nat := List.length (m_records d).

(** kinect_motion.py:100-117.  [ord] is the order in which Python lists the set of
    labels; the list given to all() is built first.  [other] is None when it is not
    a MotionDatabase. *)
Definition occurring (d : motion_db) : list label := List.concat (labels d).
Definition extend (ord : list label -> list label) (d : motion_db) (other : option motion_db) : motion_db * result unit :=
  match other with
  | None => (d, Err AssertionError)
  | Some o =>
      if list_eq_dec string_dec (m_markers d) (m_markers o) then
        match mapM (fun l => a <- describe (m_desc d) l ;; b <- describe (m_desc o) l ;; Ok (String.eqb a b))
                   (ord (occurring d ++ occurring o)) with
        | Err e => (d, Err e)
        | Ok bs => if forallb (fun b => b) bs then (with_motions d (m_records d ++ m_records o), Ok tt) else (d, Err ValueError)
        end
      else (d, Err ValueError)
  end.

(** ** Export *)
Definition label_val (l : label) : val :=
  match l with LInt z => VInt z | LStr s => VStr s | LOther n => VOther n end.
Definition label_key (l : label) : key :=
  match l with LInt z => KInt z | LStr s => KStr s | LOther n => KOther n end.
Definition desc_val (ds : descriptions) : val :=
  match ds with
  | DNone => VNone
  | DList l => VList (map VStr l)
  | DDict d => VDict (map (fun kv => (label_key (fst kv), VStr (snd kv))) d)
  end.
(** What goes into a mat file: name, markers, descriptions, data, labels. *)
Record mat_meta := mkMat {
  t_name : string; t_markers : list string; t_desc : option descriptions; t_data : list Arr; t_labels : list (list label) }.
Inductive meta := MJson (v : val) | MMat (m : mat_meta).

(** kinect_motion.py:175-178 *)
Definition meta_records (d : motion_db) : val :=
  VList (map (fun il => VDict [(KStr "data_id", VInt (Z.of_nat (fst il))); (KStr "labels", VList (map label_val (snd il)))])
             (enumerate (labels d)))%string.
(** kinect_motion.py:169-195 *)
Definition get_meta (d : motion_db) (filename data_type : string) : result meta :=
  let json extra := Ok (MJson (VDict [(KStr "name", VStr (m_name d)); (KStr "marker_names", VList (map VStr (m_markers d)));
                                      (KStr "label_descriptions", desc_val (m_desc d)); extra; (KStr "records", meta_records d)])) in
  if String.eqb data_type "npz" then json (KStr "data_file", VStr (filename ++ "." ++ data_type))
  else if String.eqb data_type "txt" then json (KStr "data_dir", VStr (filename ++ "_data"))
  else if String.eqb data_type "mat" then
    Ok (MMat (mkMat (m_name d) (m_markers d) (if has_label_descriptions d then Some (m_desc d) else None) (data d) (labels d)))
  else Err ValueError.

(** The disk: JSON files, npz archives, text files, mat files, directories. *)
Record disk := mkDisk {
  k_json : files; k_npz : list (string * list (string * Arr)); k_txt : list (string * Arr);
  k_mat : list (string * mat_meta); k_dirs : list string }.
(** json.dump into a new file. *)
Definition dump (k : disk) (path : string) (v : val) : disk * result unit :=
  match json_rt v with
  | Ok v' => (mkDisk (dict_set String.eqb (k_json k) path (Some v')) (k_npz k) (k_txt k) (k_mat k) (k_dirs k), Ok tt)
  | Err e => (mkDisk (dict_set String.eqb (k_json k) path None) (k_npz k) (k_txt k) (k_mat k) (k_dirs k), Err e)
  end.
(** kinect_motion.py:197-201 *)
Definition save_data_npz (d : motion_db) (k : disk) (dest_file : string) : disk :=
  mkDisk (k_json k)
    (dict_set String.eqb (k_npz k) dest_file (map (fun ia => (str_of_int (Z.of_nat (fst ia)), snd ia)) (enumerate (data d))))
    (k_txt k) (k_mat k) (k_dirs k).
(** The array written for [a] (kinect_motion.py:207-219). *)
Definition flat (force_flat : bool) (a : Arr) : result Arr :=
  let s := shape a in
  if negb (Nat.eqb (List.length s) 2) then
    if force_flat && (2 <? List.length s) then Ok (reshape a [hd 0 s; fold_left Nat.mul (skipn 1 s) 1])
    else Err ValueError
  else Ok a.
(** kinect_motion.py:203-220 *)
Fixpoint save_data_txt (k : disk) (data_dir : string) (force_flat : bool) (items : list (nat * Arr)) : disk * result unit :=
  match items with
  | [] => (k, Ok tt)
  | (i, a) :: items' =>
      match flat force_flat a with
      | Err e => (k, Err e)
      | Ok ad =>
          save_data_txt (mkDisk (k_json k) (k_npz k)
            (dict_set String.eqb (k_txt k) (path_join data_dir (str_of_int (Z.of_nat i) ++ ".txt")) ad) (k_mat k) (k_dirs k))
            data_dir force_flat items'
      end
  end.
Definition mkdir (k : disk) (p : string) : disk :=
  if existsb (String.eqb p) (k_dirs k) then k
  else mkDisk (k_json k) (k_npz k) (k_txt k) (k_mat k) (k_dirs k ++ [p]).
(** kinect_motion.py:263-274 *)
Definition create_text_subdirs (k : disk) (destination filename : string) : disk * (string * string) :=
  let dir_name := path_join destination filename in
  let data_dir := path_join dir_name (filename ++ "_data") in
  (mkdir (mkdir k dir_name) data_dir, (dir_name, data_dir)).
(** kinect_motion.py:119-167 *)
Definition export (d : motion_db) (k : disk) (destination : string) (filename : option string) (data_type : string)
    (force_flat : bool) : disk * result unit :=
  let filename := match filename with Some f => f | None => m_name d end in
  match get_meta d filename data_type with
  | Err e => (k, Err e)
  | Ok (MJson v) =>
      if String.eqb data_type "npz" then
        match dump k (path_join destination (filename ++ ".json")) v with
        | (k, Err e) => (k, Err e)
        | (k, Ok _) => (save_data_npz d k (path_join destination (filename ++ "." ++ data_type)), Ok tt)
        end
      else
        let '(k, (dest_dir, data_dir)) := create_text_subdirs k destination filename in
        match dump k (path_join dest_dir (filename ++ ".json")) v with
        | (k, Err e) => (k, Err e)
        | (k, Ok _) => save_data_txt k data_dir force_flat (enumerate (data d))
        end
  | Ok (MMat m) =>
      (mkDisk (k_json k) (k_npz k) (k_txt k) (dict_set String.eqb (k_mat k) (path_join destination (filename ++ ".mat")) m) (k_dirs k), Ok tt)
  end.

(** ** Loading *)
Definition val_label (v : val) : result label :=
  match v with VInt z => Ok (LInt z) | VStr s => Ok (LStr s) | _ => Err TypeError end.
Definition val_desc (v : val) : result descriptions :=
  match v with
  | VNone => Ok DNone
  | VList l => ss <- mapM (@as_string Arr) l ;; Ok (DList ss)
  | VDict d =>
      kvs <- mapM (fun kv => k <- match fst kv with KStr s => Ok (LStr s) | _ => Err TypeError end ;;
                             s <- as_string (snd kv) ;; Ok (k, s)) d ;; Ok (DDict kvs)
  | _ => Err TypeError
  end.
Definition str_of_val (v : val) : result string :=
  match v with VInt z => Ok (str_of_int z) | VStr s => Ok s | _ => Err TypeError end.
Definition load_motion (arch : list (string * Arr)) (r : val) : result (Arr * list label) :=
  i <- item r "data_id"%string ;; i <- str_of_val i ;;
  a <- match dict_get String.eqb arch i with Some a => Ok a | None => Err KeyError end ;;
  ls <- item r "labels"%string ;; ls <- iter ls ;; ls <- mapM val_label ls ;;
  Ok (a, ls).
(** kinect_motion.py:229-261; with verbose, print_info needs the dimension of data. *)
Definition load_from_npz (k : disk) (location : string) (verbose : bool) : result motion_db :=
  meta <- match dict_get String.eqb (k_json k) location with
          | None => Err IOError | Some None => Err BadFile | Some (Some v) => Ok v end ;;
  df <- item meta "data_file"%string ;; df <- as_string df ;;
  arch <- match dict_get String.eqb (k_npz k) (path_join (dirname location) df) with
          | None => Err IOError | Some a => Ok a end ;;
  name <- item meta "name"%string ;; name <- as_string name ;;
  ms <- item meta "marker_names"%string ;; ms <- iter ms ;; ms <- mapM (@as_string Arr) ms ;;
  ds <- item meta "label_descriptions"%string ;; ds <- val_desc ds ;;
  rs <- item meta "records"%string ;; rs <- iter rs ;;
  rs <- mapM (load_motion arch) rs ;;
  let db := mkMotion name ms rs ds in
  if verbose then get_data_dimension db ;;; Ok db else Ok db.
End Motion.

Arguments mkMotion {Arr}. Arguments m_name {Arr}. Arguments m_markers {Arr}. Arguments m_records {Arr}. Arguments m_desc {Arr}.
Arguments MotionDatabase {Arr}. Arguments with_motions {Arr}. Arguments has_label_descriptions {Arr}.
Arguments get_description_safe {Arr}. Arguments get_data_dimension {Arr}. Arguments data {Arr}. Arguments labels {Arr}.
Arguments add {Arr}. Arguments msize {Arr}. Arguments occurring {Arr}. Arguments extend {Arr}. Arguments label_val {Arr}.
Arguments desc_val {Arr}. Arguments mkMat {Arr}. Arguments t_name {Arr}. Arguments t_markers {Arr}. Arguments t_desc {Arr}.
Arguments t_data {Arr}. Arguments t_labels {Arr}. Arguments MJson {Arr}. Arguments MMat {Arr}. Arguments meta_records {Arr}.
Arguments get_meta {Arr}. Arguments mkDisk {Arr}. Arguments k_json {Arr}. Arguments k_npz {Arr}. Arguments k_txt {Arr}.
Arguments k_mat {Arr}. Arguments k_dirs {Arr}. Arguments dump {Arr}. Arguments save_data_npz {Arr}. Arguments flat {Arr}.
Arguments save_data_txt {Arr}. Arguments mkdir {Arr}. Arguments create_text_subdirs {Arr}. Arguments export {Arr}.
Arguments val_label {Arr}. Arguments val_desc {Arr}. Arguments str_of_val {Arr}. Arguments load_motion {Arr}.
Arguments load_from_npz {Arr}.
