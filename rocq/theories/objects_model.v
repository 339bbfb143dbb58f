(** * Model of object databases (multimodal/db/models/objects.py, multimodal/db/objects.py).

    Simplifications: characters are code points below 256; int() and float() of a
    word are given ([int_of], [time_of] and [float_of]), except for int() of a
    string of decimal digits; numbers are exact; a text file is the list of its
    lines, as given by readlines; a sparse matrix other than GrowingLILMatrix is its
    value; tuples and lists of numbers are not distinguished in a view, since JSON
    writes both in the same way; names of objects are strings or None.
    WrongNumberOfFeatures is [WrongFile].  Printed text is not modelled. *)

From Coq Require Import List ZArith Bool QArith Reals String Ascii.
Import ListNotations.
From Verif Require Import Py logger_model serial_model sound_model nd_model sparse_model array_utils_model motion_model.
Local Open Scope nat_scope.
Open Scope py_scope.

(** ** Strings *)
Definition is_space (c : ascii) : bool :=
  let n := nat_of_ascii c in ((9 <=? n) && (n <=? 13)) || ((28 <=? n) && (n <=? 32)) || (n =? 133) || (n =? 160).
Fixpoint all_chars (p : ascii -> bool) (s : string) : bool :=
  match s with EmptyString => true | String c s' => p c && all_chars p s' end.
(** s.isspace() *)
Definition isspace (s : string) : bool := match s with EmptyString => false | _ => all_chars is_space s end.
(** s.split(): the word at the start of [s], and the words after it. *)
Definition cons_word (w : string) (ws : list string) : list string := match w with EmptyString => ws | _ => w :: ws end.
Fixpoint split_ws (s : string) : string * list string :=
  match s with
  | EmptyString => (EmptyString, [])
  | String c s' =>
      let '(w, ws) := split_ws s' in
      if is_space c then (EmptyString, cons_word w ws) else (String c w, ws)
  end.
Definition split (s : string) : list string := let '(w, ws) := split_ws s in cons_word w ws.
(** s.split('|'): the first block and the others. *)
Fixpoint split_bar (s : string) : string * list string :=
  match s with
  | EmptyString => (EmptyString, [])
  | String c s' =>
      let '(b, bs) := split_bar s' in
      if Ascii.eqb c "|"%char then (EmptyString, b :: bs) else (String c b, bs)
  end.
(** s[:-1] *)
Fixpoint drop_last (s : string) : string :=
  match s with
  | EmptyString => EmptyString
  | String c s' => match s' with EmptyString => EmptyString | _ => String c (drop_last s') end
  end.

(** The search of objects.py:76. *)
Definition is_digit (c : ascii) : bool := let n := nat_of_ascii c in (48 <=? n) && (n <=? 57).
Definition newline : ascii := Ascii.ascii_of_nat 10.
Fixpoint span_digits (s : string) : string * string :=
  match s with
  | EmptyString => (EmptyString, EmptyString)
  | String c s' => if is_digit c then let '(a, r) := span_digits s' in (String c a, r) else (EmptyString, s)
  end.
(** [0-9]+.[0-9]+ for the whole of [s]; the point is any character but a newline. *)
Definition is_time (s : string) : bool :=
  let '(a, r) := span_digits s in
  match r with
  | EmptyString => 3 <=? String.length a
  | String c r' =>
      negb (String.eqb a EmptyString) && negb (Ascii.eqb c newline) && negb (String.eqb r' EmptyString) && all_chars is_digit r'
  end.
(** until $, which is the end or a newline at the end. *)
Definition match_time (s : string) : option string :=
  if is_time s then Some s
  else if String.eqb s (drop_last s ++ String newline EmptyString) && is_time (drop_last s) then Some (drop_last s) else None.
Definition match_at (s : string) : option (string * string) :=
  match s with
  | String c1 (String c2 r) =>
      if Ascii.eqb c1 "_"%char && Ascii.eqb c2 "o"%char then
        let '(l, r) := span_digits r in
        match r with
        | String c3 t =>
            if negb (String.eqb l EmptyString) && Ascii.eqb c3 "_"%char then
              match match_time t with Some t => Some (l, t) | None => None end
            else None
        | EmptyString => None
        end
      else None
  | _ => None
  end.
Fixpoint search (s : string) : option (string * string) :=
  match match_at s with
  | Some m => Some m
  | None => match s with EmptyString => None | String _ s' => search s' end
  end.
(** int() of a string of digits. *)
Definition digit (c : ascii) : Z := Z.of_nat (nat_of_ascii c - 48).
Fixpoint int_digits (acc : Z) (s : string) : Z :=
  match s with EmptyString => acc | String c s' => int_digits (10 * acc + digit c)%Z s' end.

(** ** Frames *)
Section Words.
Variable int_of : string -> result Z.
Variable time_of : string -> result Q.
Variable float_of : string -> result R.

(** objects.py:12-23 *)
Definition FEATURE_DIRECTORY : string := "histograms".
Definition FEATURES : list string := ["SURF"; "color"; "SURF_pairs"; "color_pairs"; "color_triplets"]%string.
Definition FEATURES_INDEX : list (string * nat) :=
  [("SURF", 0); ("color", 1); ("SURF_pairs", 2); ("color_pairs", 3); ("color_triplets", 4)]%string.
Definition string_to_object_view (s : string) : result (list Z) := mapM int_of (split s).
Definition string_to_features (s : string) : result (list R) := mapM float_of (split s).

(** objects.py:32-40 *)
Record frame := mkFrame { f_name : string; f_label : Z; f_time : Q; f_views : list (option (list Z)) }.
Definition Frame (name : string) (label : Z) (time : Q) (views : list (option (list Z))) : frame :=
  mkFrame name label time (if List.length views =? 4 then None :: views else views).
(** objects.py:42-43 *)
Definition get_full_path (f : frame) (path : string) : string := path_join (path_join path FEATURE_DIRECTORY) (f_name f).

(** lines.pop() *)
Definition pop (lines : list string) : result (string * list string) :=
  match rev lines with [] => Err IndexError | l :: r => Ok (l, rev r) end.
Fixpoint pop_features (n : nat) (lines : list string) : result (list (list R) * list string) :=
  match n with
  | 0 => Ok ([], lines)
  | S n' =>
      '(l, lines) <- pop lines ;; x <- string_to_features l ;;
      '(xs, lines) <- pop_features n' lines ;; Ok (x :: xs, lines)
  end.
Fixpoint pop_views (n : nat) (lines : list string) : result (list (list (list R)) * list string) :=
  match n with
  | 0 => Ok ([], lines)
  | S n' =>
      '(v, lines) <- pop_features (List.length FEATURES) lines ;;
      '(vs, lines) <- pop_views n' lines ;; Ok (v :: vs, lines)
  end.
(** objects.py:45-53 *)
Definition read_features (files : string -> option (list string)) (f : frame) (path : string) : result (list (list (list R))) :=
  ls <- match files (get_full_path f path) with None => Err IOError | Some ls => Ok ls end ;;
  let lines := rev (filter (fun l => negb (isspace l)) (rev ls)) in
  if negb (List.length lines =? List.length (f_views f) * List.length FEATURES) then Err WrongFile
  else '(vs, _) <- pop_views (List.length (f_views f)) lines ;; Ok vs.

(** objects.py:74-81 *)
Definition parse_filename (name : string) : result (Z * Q) :=
  match search name with
  | Some (l, t) => x <- time_of t ;; Ok (int_digits 0 l, x)
  | None => Err ValueError
  end.
(** objects.py:61-67 *)
Definition from_line (line : string) : result frame :=
  let '(b, bs) := split_bar line in
  let filename := drop_last b in
  views <- mapM (fun s => v <- string_to_object_view s ;; Ok (Some v)) bs ;;
  '(label, time) <- parse_filename filename ;;
  Ok (Frame filename label time views).

(** ** JSON *)
Definition jval := val unit.
Definition view_val (v : option (list Z)) : jval := match v with None => VNone | Some l => VList (map VInt l) end.
(** objects.py:55-59 *)
Definition to_dict (f : frame) : jval :=
  VDict [(KStr "views", VList (map view_val (f_views f))); (KStr "label", VInt (f_label f));
         (KStr "timestamp", VFloat (f_time f)); (KStr "filename", VStr (f_name f))]%string.
Definition val_int (v : jval) : result Z := match v with VInt z => Ok z | _ => Err TypeError end.
Definition val_view (v : jval) : result (option (list Z)) :=
  match v with VNone => Ok None | VList l => zs <- mapM val_int l ;; Ok (Some zs) | _ => Err TypeError end.
(** objects.py:69-72 *)
Definition from_dict (d : jval) : result frame :=
  n <- item d "filename"%string ;; n <- as_string n ;;
  l <- item d "label"%string ;; l <- val_int l ;;
  t <- item d "timestamp"%string ;; t <- match t with VFloat q => Ok q | _ => Err TypeError end ;;
  v <- item d "views"%string ;; v <- iter v ;; v <- mapM val_view v ;;
  Ok (Frame n l t v).

(** ** The database *)
Inductive hist := Growing (m : lil) | Loaded (m : nd).
Definition value (h : hist) : nd := match h with Growing m => lil_toarray m | Loaded m => m end.
(** objects.py:86-90 *)
Record object_db := mkObjects {
  o_frames : list frame; o_histos : list hist; o_by_frame : list (option nd); o_names : option (list (option string)) }.
Definition ObjectDB (names : option (list (option string))) : object_db :=
  mkObjects [] (map (fun _ => Growing lil_new) FEATURES) (map (fun _ => None) FEATURES) names.
(** objects.py:92-93 *)
Definition add_frame (d : object_db) (f : frame) : object_db :=
  mkObjects (o_frames d ++ [f]) (o_histos d) (o_by_frame d) (o_names d).
(** objects.py:95-97; a matrix that was loaded has no add_row. *)
Fixpoint add_rows (feats : list (list R)) (hs : list hist) : result (list hist) :=
  match feats, hs with
  | x :: feats', h :: hs' =>
      h <- match h with Growing m => Ok (Growing (add_row m x)) | Loaded _ => Err AttributeError end ;;
      hs <- add_rows feats' hs' ;; Ok (h :: hs)
  | _, _ => Ok hs
  end.
Definition add_feats (d : object_db) (feats : list (list R)) : result object_db :=
  hs <- add_rows feats (o_histos d) ;; Ok (mkObjects (o_frames d) hs (o_by_frame d) (o_names d)).

Definition feature_index (t : string) : result nat :=
  match dict_get String.eqb FEATURES_INDEX t with Some i => Ok i | None => Err KeyError end.
(** objects.py:114-118 *)
Definition get_histos_matrix (d : object_db) (t : string) : result hist :=
  i <- feature_index t ;; py_nth (o_histos d) (Z.of_nat i).
Definition get_histos_matrix_by_frame (d : object_db) (t : string) : result (option nd) :=
  i <- feature_index t ;; py_nth (o_by_frame d) (Z.of_nat i).

(** np.cumsum, np.roll(., 1) *)
Fixpoint cumsum (acc : nat) (l : list nat) : list nat :=
  match l with [] => [] | x :: l' => (acc + x) :: cumsum (acc + x) l' end.
Definition roll (l : list nat) : list nat := match rev l with [] => [] | x :: r => x :: rev r end.
(** m[idx, :] and h[j, :] = r *)
Definition take_rows (m : nd) (idx : list nat) : result nd :=
  if forallb (fun i => i <? nth 0 (shape m) 0) idx then
    Ok (Nd [List.length idx; nth 1 (shape m) 0] (fun ix => el m [nth (nth 0 ix 0) idx 0; nth 1 ix 0]))
  else Err IndexError.
Definition set_row (h : nd) (j : nat) (r : nat -> R) : nd :=
  Nd (shape h) (fun ix => if nth 0 ix 0 =? j then r (nth 1 ix 0) else el h ix).
(** m[i:k, :].mean(axis=0) *)
Definition mean_rows (m : nd) (i k : nat) (c : nat) : R :=
  let n := Nat.min k (nth 0 (shape m) 0) - i in
  (rsum n (fun r => el m [(i + r)%nat; c]) / INR n)%R.
(** objects.py:120-136 *)
Definition first_rows (d : object_db) : result (list nat) :=
  match roll (cumsum 0 (map (fun f => List.length (f_views f)) (o_frames d))) with
  | [] => Err IndexError
  | _ :: idx => Ok (0 :: idx)
  end.
Definition compute_histos_matrix_by_frame (d : object_db) (t : string) : result object_db :=
  idx_fst <- first_rows d ;;
  orig <- get_histos_matrix d t ;;
  let orig := value orig in
  histos <- take_rows orig idx_fst ;;
  let histos := fold_left (fun h ijf =>
      let '(i, (j, f)) := ijf in
      let n := List.length (f_views f) in
      if 1 <? n then set_row h j (mean_rows orig i (i + n)) else h)
    (combine idx_fst (enumerate (o_frames d))) histos in
  k <- feature_index t ;;
  bf <- py_set (o_by_frame d) (Z.of_nat k) (Some histos) ;;
  Ok (mkObjects (o_frames d) (o_histos d) bf (o_names d)).

(** objects.py:138-171 *)
Definition add_from_files (files : string -> option (list string)) (path : string) (d : object_db) (f : frame) : result object_db :=
  match read_features files f path with
  | Ok vs => d <- foldM add_feats vs d ;; Ok (add_frame d f)
  | Err IOError | Err WrongFile => Ok d
  | Err e => Err e
  end.
Definition build_from (files : string -> option (list string)) (path : string) (names : option (list (option string))) : result object_db :=
  ls <- match files path with None => Err IOError | Some ls => Ok ls end ;;
  frames <- mapM from_line (filter (fun l => negb (isspace l)) ls) ;;
  d <- foldM (add_from_files files (dirname path)) frames (ObjectDB names) ;;
  foldM compute_histos_matrix_by_frame FEATURES d.

(** ** Files *)
(** JSON files and mat files; savemat and loadmat keep names and values, and savemat
    refuses None. *)
Record odisk := mkOdisk { d_json : files unit; d_mat : list (string * list (string * nd)) }.
Definition all_some {A} (l : list (option A)) : option (list A) :=
  fold_right (fun x r => match x, r with Some a, Some l => Some (a :: l) | _, _ => None end) (Some []) l.
(** A name in a JSON file; when loaded, others than strings and null are not modelled. *)
Definition name_val (n : option string) : jval := match n with Some s => VStr s | None => VNone end.
Definition as_name (v : jval) : result (option string) :=
  match v with VStr s => Ok (Some s) | VNone => Ok None | _ => Err TypeError end.
(** objects.py:99-112 *)
Definition save (d : object_db) (k : odisk) (path name : string) : odisk * result unit :=
  let meta_file := path_join path (name ++ ".json") in
  let data_file := path_join path (name ++ ".mat") in
  let v : jval := VDict ((match o_names d with Some ns => [(KStr "object_names"%string, VList (map name_val ns))] | None => [] end) ++
    [(KStr "data_file"%string, VStr (name ++ ".mat")); (KStr "frames"%string, VList (map to_dict (o_frames d)))]) in
  match json_rt v with
  | Err e => (mkOdisk (dict_set String.eqb (d_json k) meta_file None) (d_mat k), Err e)
  | Ok v' =>
      let k := mkOdisk (dict_set String.eqb (d_json k) meta_file (Some v')) (d_mat k) in
      match all_some (o_by_frame d) with
      | None => (k, Err TypeError)
      | Some bs =>
          let matrices := fold_left (fun m kv => dict_set String.eqb m (fst kv) (snd kv))
            (combine FEATURES (map value (o_histos d)) ++ combine (map (fun s => ("by_frame_" ++ s)%string) FEATURES) bs) [] in
          (mkOdisk (d_json k) (dict_set String.eqb (d_mat k) data_file matrices), Ok tt)
      end
  end.
Definition has_item (v : jval) (s : string) : bool :=
  match v with VDict d => existsb (fun kx => match fst kx with KStr t => String.eqb t s | _ => false end) d | _ => false end.
Definition from_mat (mat : list (string * nd)) (s : string) : result nd :=
  match dict_get String.eqb mat s with Some m => Ok m | None => Err KeyError end.
(** objects.py:173-187 *)
Definition load (k : odisk) (path : string) : result object_db :=
  meta <- match dict_get String.eqb (d_json k) path with
          | None => Err IOError | Some None => Err BadFile | Some (Some v) => Ok v end ;;
  names <- (if has_item meta "object_names" then
              ns <- item meta "object_names"%string ;; ns <- iter ns ;; ns <- mapM as_name ns ;; Ok (Some ns)
            else Ok None) ;;
  fs <- item meta "frames"%string ;; fs <- iter fs ;; fs <- mapM from_dict fs ;;
  let d := fold_left add_frame fs (ObjectDB names) in
  if has_item meta "data_file" then
    df <- item meta "data_file"%string ;; df <- as_string df ;;
    mat <- match dict_get String.eqb (d_mat k) (path_join (dirname path) df) with None => Err IOError | Some m => Ok m end ;;
    hs <- mapM (from_mat mat) FEATURES ;;
    bs <- mapM (fun s => from_mat mat ("by_frame_" ++ s)) FEATURES ;;
    Ok (mkObjects (o_frames d) (map Loaded hs) (map Some bs) names)
  else Ok d.

(** ** The loader (multimodal/db/objects.py:52-89, loader.py:1-10), with its database
    already loaded. *)
Record loader := mkLoader {
  l_features : list string; l_labels : list string; l_db : object_db; l_keep_idx : option (list nat); l_n_samples : option nat }.
Definition ObjectsLoader (features labels : list string) (d : object_db) : loader := mkLoader features labels d None None.
(** loader.py:6-10 *)
Definition check_n_samples (s : option nat) (n : nat) : option nat * result unit :=
  match s with None => (Some n, Ok tt) | Some m => (s, if m =? n then Ok tt else Err AssertionError) end.
(** self.db.object_names[f.label] *)
Definition object_name (d : object_db) (f : frame) : result (option string) :=
  match o_names d with None => Err TypeError | Some ns => py_nth ns (f_label f) end.
(** name in labels, for a set of strings *)
Definition in_labels (n : option string) (labels : list string) : bool :=
  match n with Some s => existsb (String.eqb s) labels | None => false end.
(** objects.py:69-76 *)
Definition keep_idx (l : loader) : loader * result (list nat) :=
  match l_keep_idx l with
  | Some idx => (l, Ok idx)
  | None =>
      match mapM (fun f => n <- object_name (l_db l) f ;; Ok (in_labels n (l_labels l))) (o_frames (l_db l)) with
      | Err e => (l, Err e)
      | Ok bs =>
          let idx := map fst (filter snd (enumerate bs)) in
          (mkLoader (l_features l) (l_labels l) (l_db l) (Some idx) (l_n_samples l), Ok idx)
      end
  end.
(** The values of safe_hstack: sparse blocks side by side.  Without block np.hstack
    raises ValueError; only None gives an array without tocsr; None among other blocks
    has no width. *)
Definition nrows (m : nd) : nat := nth 0 (shape m) 0.
Definition ncols (m : nd) : nat := nth 1 (shape m) 0.
Fixpoint beside (ms : list nd) (i c : nat) : R :=
  match ms with
  | [] => 0%R
  | m :: ms' => if c <? ncols m then el m [i; c] else beside ms' i (c - ncols m)
  end.
Definition hstack_values (bs : list (option nd)) : result nd :=
  match bs with
  | [] => Err ValueError
  | _ =>
      if forallb (fun b => match b with None => true | Some _ => false end) bs then Err AttributeError
      else match all_some bs with
           | None => Err ValueError
           | Some ms =>
               if forallb (fun m => nrows m =? nrows (hd (Nd [] (fun _ => 0%R)) ms)) ms then
                 Ok (Nd [nrows (hd (Nd [] (fun _ => 0%R)) ms); fold_right (fun m n => ncols m + n) 0 ms]
                        (fun ix => beside ms (nth 0 ix 0) (nth 1 ix 0)))
               else Err ValueError
           end
  end.
(** objects.py:78-83 *)
Definition get_data (l : loader) : loader * result nd :=
  match mapM (get_histos_matrix_by_frame (l_db l)) (l_features l) with
  | Err e => (l, Err e)
  | Ok bs =>
      match hstack_values bs with
      | Err e => (l, Err e)
      | Ok X =>
          match keep_idx l with
          | (l, Err e) => (l, Err e)
          | (l, Ok idx) =>
              match take_rows X idx with
              | Err e => (l, Err e)
              | Ok X =>
                  let '(s, r) := check_n_samples (l_n_samples l) (nrows X) in
                  (mkLoader (l_features l) (l_labels l) (l_db l) (l_keep_idx l) s, r ;;; Ok X)
              end
          end
      end
  end.
(** objects.py:85-89 *)
Definition get_labels (l : loader) : loader * result (list (option string)) :=
  match keep_idx l with
  | (l, Err e) => (l, Err e)
  | (l, Ok idx) =>
      match mapM (fun i => f <- py_nth (o_frames (l_db l)) (Z.of_nat i) ;; object_name (l_db l) f) idx with
      | Err e => (l, Err e)
      | Ok ls =>
          let '(s, r) := check_n_samples (l_n_samples l) (List.length ls) in
          (mkLoader (l_features l) (l_labels l) (l_db l) (l_keep_idx l) s, r ;;; Ok ls)
      end
  end.
End Words.
