(** * Model of multimodal/lib/logger.py.

    Python objects are modelled with an explicit heap ([world]): logger objects
    and run dictionaries are mutable objects with identity, so that the sharing
    of run dictionaries between loggers (line 105) is visible.  A method takes
    the world and returns the new world together with its result, so the state
    left behind by a method that raises is visible too.

    Simplifications: keys are strings; arrays are opaque values of a type
    [Arr] (dtype=object arrays, which numpy pickles, are excluded); floats are
    rationals and are read back from JSON exactly (Python prints the shortest
    representation that does; nan and infinities are excluded); print_* and
    log are not modelled, get_stats is in figures_model.v. *)

From Coq Require Import List ZArith Bool QArith String Ascii DecimalString Decimal.
Import ListNotations.
From Verif Require Import Py.
Local Open Scope nat_scope.

Section Logger.
Variable Arr : Type.

(** Dictionary keys that can occur inside logged values. [KOther] is any other
    hashable object (a tuple for instance). *)
Inductive key : Type :=
| KStr (s : string) | KInt (z : Z) | KBool (b : bool) | KNone | KOther (n : nat).

(** Python values given to the logger.  [VOther] is any other object (numpy
    integer, set, arbitrary instance...), identified by a number. *)
Inductive val : Type :=
| VNone | VBool (b : bool) | VInt (z : Z) | VFloat (q : Q) | VStr (s : string)
| VList (l : list val) | VTuple (l : list val) | VDict (d : list (key * val))
| VArr (a : Arr) | VOther (n : nat).

Definition dict := list (string * val).

Definition string_of_nat (n : nat) : string :=
  NilZero.string_of_uint (Nat.to_uint n).
Definition string_of_Z (z : Z) : string :=
  NilZero.string_of_int (Z.to_int z).

(** Conversion of dictionary keys by the standard json encoder. *)
Definition json_key (k : key) : result string :=
  match k with
  | KStr s => Ok s
  | KInt z => Ok (string_of_Z z)
  | KBool true => Ok "true"%string
  | KBool false => Ok "false"%string
  | KNone => Ok "null"%string
  | KOther _ => Err TypeError
  end.

Definition as_str_keys (d : list (string * val)) : list (key * val) :=
  map (fun kv => (KStr (fst kv), snd kv)) d.

(** What reading back the text written for a value gives; TypeError when the
    encoder refuses the value.  Repeated keys of an object: the last one wins
    when the text is read. *)
Fixpoint json_rt (v : val) : result val :=
  match v with
  | VNone => Ok VNone
  | VBool b => Ok (VBool b)
  | VInt z => Ok (VInt z)
  | VFloat q => Ok (VFloat q)
  | VStr s => Ok (VStr s)
  | VList l | VTuple l =>
      l' <- (fix go (l : list val) : result (list val) :=
               match l with
               | [] => Ok []
               | x :: r => y <- json_rt x ;; ys <- go r ;; Ok (y :: ys)
               end) l ;; Ok (VList l')
  | VDict d =>
      d' <- (fix go (d : list (key * val)) : result (list (string * val)) :=
               match d with
               | [] => Ok []
               | (k, x) :: r =>
                   s <- json_key k ;; y <- json_rt x ;;
                   ys <- go r ;; Ok ((s, y) :: ys)
               end) d ;;
      Ok (VDict (as_str_keys
        (fold_left (fun acc sv => dict_set String.eqb acc (fst sv) (snd sv)) d' [])))
  | VArr _ => Err TypeError
  | VOther _ => Err TypeError
  end.

(** The same for a dictionary of the logger, whose keys are strings. *)
Definition json_rt_dict (d : dict) : result dict :=
  mapM (fun kv => y <- json_rt (snd kv) ;; Ok (fst kv, y)) d.

(** /repo/multimodal/lib/logger.py:17-22, the attributes of a logger.
    [lg_exps] are references to run dictionaries.  [lg_exp_results] is the
    attribute that only line 124 creates.  Sets are lists without repetition
    whose order has no meaning. *)
Record logger := mkLogger {
  lg_glob : dict;
  lg_exps : list nat;
  lg_exp_keys : list string;
  lg_result_keys : list string;
  lg_filename : option string;
  lg_exp_results : option (list string) }.

Record world := mkWorld { w_runs : list dict; w_logs : list logger }.

Definition set_mem (k : string) (s : list string) : bool :=
  existsb (String.eqb k) s.
Definition set_add (s : list string) (k : string) : list string :=
  if set_mem k s then s else s ++ [k].
Definition set_of_list (l : list string) : list string := fold_left set_add l [].
Definition set_eqb (a b : list string) : bool :=
  forallb (fun k => set_mem k b) a && forallb (fun k => set_mem k a) b.

Definition get_logger (w : world) (i : nat) : result logger :=
  match nth_error (w_logs w) i with Some l => Ok l | None => Err AttributeError end.
Definition get_run (w : world) (r : nat) : result dict :=
  match nth_error (w_runs w) r with Some d => Ok d | None => Err AttributeError end.
Definition put_logger (w : world) (i : nat) (l : logger) : world :=
  mkWorld (w_runs w) (list_set (w_logs w) i l).
Definition put_run (w : world) (r : nat) (d : dict) : world :=
  mkWorld (list_set (w_runs w) r d) (w_logs w).

(** logger.py:17-22. The new object gets the next reference. *)
Definition new_logger (w : world) (filename : option string) : world * result nat :=
  (mkWorld (w_runs w) (w_logs w ++ [mkLogger [] [] [] [] filename None]),
   Ok (List.length (w_logs w))).

(** logger.py:37-38 *)
Definition new_run (w : world) (i : nat) : world * result unit :=
  match get_logger w i with
  | Err e => (w, Err e)
  | Ok l =>
      let r := List.length (w_runs w) in
      (mkWorld (w_runs w ++ [[]])
         (list_set (w_logs w) i
            (mkLogger (lg_glob l) (lg_exps l ++ [r]) (lg_exp_keys l)
               (lg_result_keys l) (lg_filename l) (lg_exp_results l))),
       Ok tt)
  end.

(** logger.py:40-41 *)
Definition store_global (w : world) (i : nat) (k : string) (v : val)
  : world * result unit :=
  match get_logger w i with
  | Err e => (w, Err e)
  | Ok l =>
      (put_logger w i
         (mkLogger (dict_set String.eqb (lg_glob l) k v) (lg_exps l)
            (lg_exp_keys l) (lg_result_keys l) (lg_filename l) (lg_exp_results l)),
       Ok tt)
  end.

(** logger.py:43-50 *)
Definition store (w : world) (i : nat) (k : string) (v : val)
  : world * result unit :=
  match (l <- get_logger w i ;;
         r <- py_nth (lg_exps l) (-1) ;;
         d <- get_run w r ;; Ok (l, r, d)) with
  | Err e => (w, Err e)
  | Ok (l, r, d) =>
      match dict_get String.eqb d k with
      | Some _ => (w, Err ValueError)
      | None =>
          let w1 := put_logger w i
            (mkLogger (lg_glob l) (lg_exps l) (set_add (lg_exp_keys l) k)
               (lg_result_keys l) (lg_filename l) (lg_exp_results l)) in
          (put_run w1 r (dict_set String.eqb d k v), Ok tt)
      end
  end.

(** logger.py:52-54; the argument is_data is not used by the code. *)
Definition store_result (w : world) (i : nat) (k : string) (v : val)
  : world * result unit :=
  match store w i k v with
  | (w1, Err e) => (w1, Err e)
  | (w1, Ok _) =>
      match get_logger w1 i with
      | Err e => (w1, Err e)
      | Ok l =>
          (put_logger w1 i
             (mkLogger (lg_glob l) (lg_exps l) (lg_exp_keys l)
                (set_add (lg_result_keys l) k) (lg_filename l) (lg_exp_results l)),
           Ok tt)
      end
  end.

(** logger.py:56-57 *)
Definition get_values (w : world) (i : nat) (k : string) : result (list val) :=
  l <- get_logger w i ;;
  mapM (fun r => d <- get_run w r ;;
                 Ok (match dict_get String.eqb d k with Some v => v | None => VNone end))
       (lg_exps l).

(** logger.py:59-60 *)
Definition get_value (w : world) (i : nat) (k : string) : result val :=
  l <- get_logger w i ;;
  match dict_get String.eqb (lg_glob l) k with Some v => Ok v | None => Err KeyError end.

(** logger.py:62-63 *)
Definition get_last_value (w : world) (i : nat) (k : string) : result val :=
  l <- get_logger w i ;;
  r <- py_nth (lg_exps l) (-1) ;;
  d <- get_run w r ;;
  match dict_get String.eqb d k with Some v => Ok v | None => Err KeyError end.

(** logger.py:103-105 *)
Definition append_exps_from_other (w : world) (i j : nat) : world * result unit :=
  match (a <- get_logger w i ;; b <- get_logger w j ;; Ok (a, b)) with
  | Err e => (w, Err e)
  | Ok (a, b) =>
      if set_eqb (lg_exp_keys a) (lg_exp_keys b) then
        (put_logger w i
           (mkLogger (lg_glob a) (lg_exps a ++ lg_exps b) (lg_exp_keys a)
              (lg_result_keys a) (lg_filename a) (lg_exp_results a)),
         Ok tt)
      else (w, Err AssertionError)
  end.

(** logger.py:107-114; the result is the reference of the first logger. *)
Fixpoint append_all (w : world) (i : nat) (js : list nat) : world * result nat :=
  match js with
  | [] => (w, Ok i)
  | j :: js' =>
      match append_exps_from_other w i j with
      | (w1, Err e) => (w1, Err e)
      | (w1, Ok _) => append_all w1 i js'
      end
  end.
Definition merge_experiments (w : world) (refs : list nat) : world * result nat :=
  match refs with
  | [] => (w, Err ValueError)
  | i :: js => append_all w i js
  end.

(** ** Files. *)

(** The object written by json.dump (line 101), as it is read back. *)
Record saved := mkSaved {
  sv_glob : dict; sv_exps : list dict; sv_exp_keys : list string;
  sv_result_keys : list string; sv_has_np : bool }.

(** Contents of a file.  [FPartial] is a file that was opened for writing and
    not completely written. *)
Inductive content : Type :=
| FJson (s : saved) | FNpz (m : list (string * Arr)) | FPartial.

(** The file system: the binding at the head is the most recent one. *)
Definition fs := list (string * content).
Definition fs_write (f : fs) (w : string * content) : fs := w :: f.
Definition fs_writes (f : fs) (ws : list (string * content)) : fs :=
  fold_left fs_write ws f.
Definition fs_read (f : fs) (name : string) : option content :=
  dict_get String.eqb f name.

(** logger.py:139-144; np.array(v) is a copy with the same contents. *)
Definition split_for_save (orig : dict) (acc : dict * list (string * Arr))
    (prefix : string) : dict * list (string * Arr) :=
  fold_left (fun (acc : dict * list (string * Arr)) kv =>
    let '(sd, snp) := acc in
    match snd kv with
    | VArr a =>
        (sd, dict_set String.eqb snp (prefix ++ "_" ++ fst kv)%string a)
    | v => (dict_set String.eqb sd (fst kv) v, snp)
    end) orig acc.

Fixpoint split_runs (i : nat) (ds : list dict) (snp : list (string * Arr))
  : list dict * list (string * Arr) :=
  match ds with
  | [] => ([], snp)
  | d :: ds' =>
      let '(sd, snp1) := split_for_save d ([], snp) ("exp_" ++ string_of_nat i)%string in
      let '(sds, snp2) := split_runs (S i) ds' snp1 in
      (sd :: sds, snp2)
  end.

Definition ends_with (s suffix : string) : bool :=
  let n := String.length s in
  let m := String.length suffix in
  (m <=? n) && String.eqb (substring (n - m) m s) suffix.

(** The file that np.savez / np.savez_compressed writes to for a given name. *)
Definition npz_name (filename : string) : string :=
  if ends_with filename ".npz" then filename else (filename ++ ".npz")%string.

(** logger.py:83-93: the object for json and the one for numpy. [ord] is the
    order in which list() enumerates a set. *)
Definition split_all (ord : list string -> list string) (glob : dict) (ds : list dict)
    (exp_keys result_keys : list string)
  : saved * list (string * Arr) :=
  let '(g, np1) := split_for_save glob ([], []) "glob" in
  let '(es, np2) := split_runs 0 ds np1 in
  (mkSaved g es (ord exp_keys) (ord result_keys) (negb (List.length np2 =? 0)), np2).

(** The text of line 101 read back, or TypeError. *)
Definition json_rt_saved (s : saved) : result saved :=
  g <- json_rt_dict (sv_glob s) ;;
  es <- mapM json_rt_dict (sv_exps s) ;;
  Ok (mkSaved g es (sv_exp_keys s) (sv_result_keys s) (sv_has_np s)).

(** logger.py:79-101 as the sequence of changes made to the file system and the
    final outcome.  Each of the two files is first emptied, then written.
    Compression does not change the contents, so [compress] is not an argument. *)
Definition save_writes (ord : list string -> list string) (w : world) (i : nat)
  : list (string * content) * result unit :=
  match (l <- get_logger w i ;;
         f <- (match lg_filename l with None => Err NoFileError | Some f => Ok f end) ;;
         ds <- mapM (get_run w) (lg_exps l) ;; Ok (l, f, ds)) with
  | Err e => ([], Err e)
  | Ok (l, f, ds) =>
      let '(s, np) := split_all ord (lg_glob l) ds (lg_exp_keys l) (lg_result_keys l) in
      let npw := if sv_has_np s
                 then [(npz_name f, FPartial); (npz_name f, FNpz np)] else [] in
      let jn := (f ++ ".json")%string in
      match json_rt_saved s with
      | Ok s' => (npw ++ [(jn, FPartial); (jn, FJson s')], Ok tt)
      | Err e => (npw ++ [(jn, FPartial)], Err e)
      end
  end.

Definition save (ord : list string -> list string) (w : world) (i : nat) (f : fs)
  : fs * result unit :=
  let '(ws, r) := save_writes ord w i in (fs_writes f ws, r).

(** [full_key.split('_', 1)] unpacked into two variables. *)
Fixpoint split_once (s : string) : result (string * string) :=
  match s with
  | EmptyString => Err ValueError
  | String c s' =>
      if Ascii.eqb c "_" then Ok (EmptyString, s')
      else '(p, k) <- split_once s' ;; Ok (String c p, k)
  end.

(** [int(num)], for strings of decimal digits (the only ones save writes). *)
Definition int_of_string (s : string) : result nat :=
  match NilEmpty.uint_of_string s with
  | Some Nil => Err ValueError
  | Some d => Ok (Nat.of_uint d)
  | None => Err ValueError
  end.

(** logger.py:127-133, one archive member. *)
Definition load_member (st : dict * list dict) (ka : string * Arr)
  : result (dict * list dict) :=
  let '(g, es) := st in
  '(p, k) <- split_once (fst ka) ;;
  if String.eqb p "glob" then Ok (dict_set String.eqb g k (VArr (snd ka)), es)
  else if String.eqb p "exp" then
    '(num, name) <- split_once k ;;
    n <- int_of_string num ;;
    match nth_error es n with
    | Some d => Ok (g, list_set es n (dict_set String.eqb d name (VArr (snd ka))))
    | None => Err IndexError
    end
  else Ok (g, es).

(** logger.py:116-136; line 124 sets the attribute exp_results and leaves
    result_keys empty. The new logger gets the next references. *)
Definition load (w : world) (f : fs) (filename : string) (set_filename load_np : bool)
  : world * result nat :=
  match (s <- match fs_read f (filename ++ ".json")%string with
              | None => Err IOError
              | Some (FJson s) => Ok s
              | Some _ => Err ValueError
              end ;;
         st <- (if sv_has_np s && load_np then
                  m <- match fs_read f (filename ++ ".npz")%string with
                       | None => Err IOError
                       | Some (FNpz m) => Ok m
                       | Some _ => Err BadFile
                       end ;;
                  foldM load_member m (sv_glob s, sv_exps s)
                else Ok (sv_glob s, sv_exps s)) ;;
         Ok (s, st)) with
  | Err e => (w, Err e)
  | Ok (s, (g, es)) =>
      let l := mkLogger g (seq (List.length (w_runs w)) (List.length es))
                 (set_of_list (sv_exp_keys s)) []
                 (if set_filename then Some filename else None)
                 (Some (set_of_list (sv_result_keys s))) in
      (mkWorld (w_runs w ++ es) (w_logs w ++ [l]), Ok (List.length (w_logs w)))
  end.

(** ** Call histories. *)
Inductive op : Type :=
| ONew (filename : option string)
| ONewRun (i : nat)
| OStore (i : nat) (k : string) (v : val)
| OStoreResult (i : nat) (k : string) (v : val)
| OStoreGlobal (i : nat) (k : string) (v : val)
| OAppend (i j : nat).

(** The caller may catch every exception, so the history goes on after one. *)
Definition exec (w : world) (o : op) : world :=
  match o with
  | ONew f => fst (new_logger w f)
  | ONewRun i => fst (new_run w i)
  | OStore i k v => fst (store w i k v)
  | OStoreResult i k v => fst (store_result w i k v)
  | OStoreGlobal i k v => fst (store_global w i k v)
  | OAppend i j => fst (append_exps_from_other w i j)
  end.
Definition exec_all (w : world) (h : list op) : world := fold_left exec h w.
Definition empty_world : world := mkWorld [] [].

End Logger.

Arguments VNone {Arr}. Arguments VBool {Arr} _. Arguments VInt {Arr} _.
Arguments VFloat {Arr} _. Arguments VStr {Arr} _. Arguments VList {Arr} _.
Arguments VTuple {Arr} _. Arguments VDict {Arr} _. Arguments VArr {Arr} _.
Arguments VOther {Arr} _. Arguments json_rt {Arr} _. Arguments json_rt_dict {Arr} _.
Arguments mkLogger {Arr} _ _ _ _ _ _. Arguments lg_glob {Arr} _. Arguments lg_exps {Arr} _.
Arguments lg_exp_keys {Arr} _. Arguments lg_result_keys {Arr} _.
Arguments lg_filename {Arr} _. Arguments lg_exp_results {Arr} _.
Arguments mkWorld {Arr} _ _. Arguments w_runs {Arr} _. Arguments w_logs {Arr} _.
Arguments get_logger {Arr} _ _. Arguments get_run {Arr} _ _.
Arguments put_logger {Arr} _ _ _. Arguments put_run {Arr} _ _ _.
Arguments new_logger {Arr} _ _. Arguments new_run {Arr} _ _.
Arguments store_global {Arr} _ _ _ _. Arguments store {Arr} _ _ _ _.
Arguments store_result {Arr} _ _ _ _. Arguments get_values {Arr} _ _ _.
Arguments get_value {Arr} _ _ _. Arguments get_last_value {Arr} _ _ _.
Arguments append_exps_from_other {Arr} _ _ _. Arguments append_all {Arr} _ _ _.
Arguments merge_experiments {Arr} _ _.
Arguments mkSaved {Arr} _ _ _ _ _. Arguments sv_glob {Arr} _. Arguments sv_exps {Arr} _.
Arguments sv_exp_keys {Arr} _. Arguments sv_result_keys {Arr} _. Arguments sv_has_np {Arr} _.
Arguments FJson {Arr} _. Arguments FNpz {Arr} _. Arguments FPartial {Arr}.
Arguments fs_write {Arr} _ _. Arguments fs_writes {Arr} _ _. Arguments fs_read {Arr} _ _.
Arguments split_for_save {Arr} _ _ _. Arguments split_runs {Arr} _ _ _.
Arguments split_all {Arr} _ _ _ _ _. Arguments json_rt_saved {Arr} _.
Arguments save_writes {Arr} _ _ _. Arguments save {Arr} _ _ _ _.
Arguments load_member {Arr} _ _. Arguments load {Arr} _ _ _ _ _.
Arguments ONew {Arr} _. Arguments ONewRun {Arr} _. Arguments OStore {Arr} _ _ _.
Arguments OStoreResult {Arr} _ _ _. Arguments OStoreGlobal {Arr} _ _ _.
Arguments OAppend {Arr} _ _. Arguments exec {Arr} _ _. Arguments exec_all {Arr} _ _.
Arguments empty_world {Arr}. Arguments as_str_keys {Arr} _.
