(** * Model of the serialization of experiments (multimodal/experiment.py) and
    of the parameters of loaders (multimodal/db).

    Values are those of logger_model ([val], with the json round trip
    [json_rt]).  Simplifications: modality names and object labels are strings;
    the data a loader caches ([_db], [_keep_idx]) is not part of the model of a
    loader; the contents of a file are the value json.load reads from it, or
    [None] for a text cut short by an exception of the encoder. *)

From Coq Require Import List ZArith Bool QArith String Ascii.
Import ListNotations.
From Verif Require Import Py logger_model.
Local Open Scope nat_scope.

Section Serial.
Variable Arr : Type.
Notation val := (val Arr).

(** The loaders of /repo/multimodal/db: acorns.py:58-66 (Year1Loader),
    choreo2.py:46-48 (Choreo2Loader), objects.py:52-61 (ObjectsLoader; the set
    of labels is a list without repetition whose order has no meaning).
    [LUser] is a loader class written by a user, with its own dataset name and
    result of serialize(). *)
Inductive loader_conf :=
| LAcorns (speaker : val)
| LChoreo2
| LObjects (features : val) (labels : list string)
| LUser (name : string) (conf : val).

(** A loader object: db/models/loader.py:3-4 adds the attribute n_samples. *)
Record loader := mkLoader { ld_conf : loader_conf; ld_n_samples : option nat }.

(** db/models/loader.py:6-10.  The assertion is kept as it is. *)
Definition check_n_samples (l : loader) (n : nat) : loader * result unit :=
  match ld_n_samples l with
  | None => (mkLoader (ld_conf l) (Some n), Ok tt)
  | Some m => (l, py_assert (Nat.eqb m n))
  end.

(** The constructors: acorns.py:62-65, choreo2.py:46 (inherited),
    objects.py:56-61.  [set(labels)] keeps one of each. *)
Definition Year1Loader (speaker : val) : loader := mkLoader (LAcorns speaker) None.
Definition Choreo2Loader : loader := mkLoader LChoreo2 None.
Definition ObjectsLoader (features : val) (labels : list string) : loader :=
  mkLoader (LObjects features (set_of_list labels)) None.

(** Class attribute dataset_name: acorns.py:60, choreo2.py:48, objects.py:54. *)
Definition dataset_name (l : loader) : string :=
  match ld_conf l with
  | LAcorns _ => "acorns" | LChoreo2 => "choreo2" | LObjects _ _ => "objects"
  | LUser n _ => n
  end%string.

(** serialize: acorns.py:87-88, models/loader.py:15-16 (inherited by
    Choreo2Loader), objects.py:90-92.  [ord] is the order in which Python lists
    the elements of a set. *)
Definition serialize (ord : list string -> list string) (l : loader) : val :=
  match ld_conf l with
  | LAcorns s => s
  | LChoreo2 => VNone
  | LObjects f ls => VDict [(KStr "features", f); (KStr "labels", VList (map VStr (ord ls)))]
  | LUser _ c => c
  end%string.

(** What a [for] loop over a value, or zip, goes through: elements of a list or
    tuple, characters of a string; anything else is refused here (Python also
    goes through the keys of a dictionary). *)
Definition iter (v : val) : result (list val) :=
  match v with
  | VList l | VTuple l => Ok l
  | VStr s => Ok (map (fun c => VStr (String c EmptyString)) (list_ascii_of_string s))
  | _ => Err TypeError
  end.

(** [v[k]] for a string [k]. *)
Definition item (v : val) (k : string) : result val :=
  match v with
  | VDict d =>
      match find (fun kv => match fst kv with KStr s => String.eqb s k | _ => false end) d with
      | Some kv => Ok (snd kv)
      | None => Err KeyError
      end
  | _ => Err TypeError
  end.

Definition as_string (v : val) : result string :=
  match v with VStr s => Ok s | _ => Err TypeError end.

(** get_loader of the loader classes: acorns.py:90-92, models/loader.py:15-17,
    objects.py:94-96. *)
Definition acorns_get_loader (conf : val) : result loader := Ok (Year1Loader conf).
Definition choreo2_get_loader (conf : val) : result loader := Ok Choreo2Loader.
Definition objects_get_loader (conf : val) : result loader :=
  f <- item conf "features"%string ;;
  ls <- item conf "labels"%string ;;
  ls <- iter ls ;;
  ls <- mapM as_string ls ;;
  Ok (ObjectsLoader f ls).

(** experiment.py:198-211 *)
Definition get_loader (dataset conf : val) : result loader :=
  match dataset with
  | VStr s =>
      if String.eqb s "acorns" then acorns_get_loader conf
      else if String.eqb s "choreo2" then choreo2_get_loader conf
      else if String.eqb s "objects" then objects_get_loader conf
      else Err ValueError
  | _ => Err ValueError
  end.

(** Attributes of an experiment (experiment.py:44-55), the logger left out. *)
Record exper := mkExper {
  ex_modalities : list string;
  ex_loaders : list loader;
  ex_k : val;
  ex_coefs : val;
  ex_iter_train : val;
  ex_iter_test : val;
  ex_shuffle_labels : val;
  ex_run_mode : val;
  ex_debug : val }.

(** experiment.py:44-55; [loaders] is an ordered dictionary. *)
Definition init (loaders : list (string * loader)) (k iter_train iter_test coefs
    shuffle_labels run_mode debug : val) : exper :=
  mkExper (map fst loaders) (map snd loaders) k coefs iter_train iter_test
    shuffle_labels run_mode debug.

(** The attribute of a given name: __getattribute__ on the attributes above. *)
Definition getattribute (e : exper) (a : string) : result val :=
  if String.eqb a "modalities" then Ok (VList (map VStr (ex_modalities e)))
  else if String.eqb a "k" then Ok (ex_k e)
  else if String.eqb a "coefs" then Ok (ex_coefs e)
  else if String.eqb a "iter_train" then Ok (ex_iter_train e)
  else if String.eqb a "iter_test" then Ok (ex_iter_test e)
  else if String.eqb a "shuffle_labels" then Ok (ex_shuffle_labels e)
  else if String.eqb a "run_mode" then Ok (ex_run_mode e)
  else if String.eqb a "debug" then Ok (ex_debug e)
  else Err AttributeError.

(** experiment.py:193-196 *)
Definition params_to_store : list string :=
  ["modalities"; "k"; "coefs"; "iter_train"; "iter_test"; "shuffle_labels";
   "run_mode"; "debug"]%string.

(** experiment.py:61-65 *)
Definition parameters_to_dict (e : exper) : result (list (string * val)) :=
  foldM (fun d a => v <- getattribute e a ;; Ok (dict_set String.eqb d a v))
    params_to_store [].

(** experiment.py:182-186 *)
Definition serialize_parameters (ord : list string -> list string) (e : exper)
  : result (list (string * val)) :=
  d <- parameters_to_dict e ;;
  Ok (dict_set String.eqb d "loaders"%string
        (VList (map (fun l => VTuple [VStr (dataset_name l); serialize ord l]) (ex_loaders e)))).

(** Files: path and what reading the text gives. *)
Definition files := list (string * option val).

(** experiment.py:188-191: the destination is opened (and emptied) after the
    parameters are collected, then json.dump writes piece by piece. *)
Definition save_serialized_parameters (ord : list string -> list string) (fs : files)
    (e : exper) (destination : string) : files * result unit :=
  match serialize_parameters ord e with
  | Err x => (fs, Err x)
  | Ok d =>
      match json_rt (VDict (as_str_keys d)) with
      | Ok v => (dict_set String.eqb fs destination (Some v), Ok tt)
      | Err x => (dict_set String.eqb fs destination None, Err x)
      end
  end.

(** Unpacking of one pair (line 216). *)
Definition unpack2 (v : val) : result (val * val) :=
  l <- iter v ;;
  match l with [a; b] => Ok (a, b) | _ => Err ValueError end.

(** experiment.py:213-222 *)
Definition from_serialized (s : val) : result exper :=
  ms <- item s "modalities"%string ;;
  ls <- item s "loaders"%string ;;
  ms <- iter ms ;;
  ls <- iter ls ;;
  loaders <- foldM (fun acc ml =>
      '(dataset, conf) <- unpack2 (snd ml) ;;
      l <- get_loader dataset conf ;;
      m <- as_string (fst ml) ;;
      Ok (dict_set String.eqb acc m l)) (combine ms ls) [] ;;
  k <- item s "k"%string ;;
  iter_train <- item s "iter_train"%string ;;
  iter_test <- item s "iter_test"%string ;;
  coefs <- item s "coefs"%string ;;
  shuffle_labels <- item s "shuffle_labels"%string ;;
  run_mode <- item s "run_mode"%string ;;
  debug <- item s "debug"%string ;;
  Ok (init loaders k iter_train iter_test coefs shuffle_labels run_mode debug).

(** experiment.py:224-228 *)
Definition load_from_serialized (fs : files) (path : string) : result exper :=
  match dict_get String.eqb fs path with
  | None => Err IOError
  | Some None => Err BadFile
  | Some (Some v) => from_serialized v
  end.

End Serial.

Arguments LAcorns {Arr} _. Arguments LChoreo2 {Arr}. Arguments LObjects {Arr} _ _.
Arguments LUser {Arr} _ _. Arguments mkLoader {Arr} _ _. Arguments ld_conf {Arr} _.
Arguments ld_n_samples {Arr} _. Arguments check_n_samples {Arr} _ _.
Arguments Year1Loader {Arr} _. Arguments Choreo2Loader {Arr}. Arguments ObjectsLoader {Arr} _ _.
Arguments dataset_name {Arr} _. Arguments serialize {Arr} _ _. Arguments iter {Arr} _.
Arguments item {Arr} _ _. Arguments as_string {Arr} _. Arguments acorns_get_loader {Arr} _.
Arguments choreo2_get_loader {Arr} _. Arguments objects_get_loader {Arr} _.
Arguments get_loader {Arr} _ _. Arguments mkExper {Arr} _ _ _ _ _ _ _ _ _.
Arguments ex_modalities {Arr} _. Arguments ex_loaders {Arr} _. Arguments ex_k {Arr} _.
Arguments ex_coefs {Arr} _. Arguments ex_iter_train {Arr} _. Arguments ex_iter_test {Arr} _.
Arguments ex_shuffle_labels {Arr} _. Arguments ex_run_mode {Arr} _. Arguments ex_debug {Arr} _.
Arguments init {Arr} _ _ _ _ _ _ _ _. Arguments getattribute {Arr} _ _.
Arguments parameters_to_dict {Arr} _. Arguments serialize_parameters {Arr} _ _.
Arguments save_serialized_parameters {Arr} _ _ _ _. Arguments unpack2 {Arr} _.
Arguments from_serialized {Arr} _. Arguments load_from_serialized {Arr} _ _.
