(** * Model of lib/config.py, of local.py and of the default places of the data.

    Keys are strings, tuples of strings or values that cannot be keys of a
    dictionary.  The messages of other exceptions than NoConfigValueError are left
    out. *)

From Coq Require Import List ZArith Bool String Ascii.
Import ListNotations.
From Verif Require Import Py sound_model motion_model acorns_model.
Local Open Scope string_scope.

Inductive key := KStr (s : string) | KTuple (l : list string) | Unhashable.
Fixpoint strings_eqb (a b : list string) : bool :=
  match a, b with
  | [], [] => true
  | x :: a', y :: b' => String.eqb x y && strings_eqb a' b'
  | _, _ => false
  end.
Definition key_eqb (a b : key) : bool :=
  match a, b with
  | KStr s, KStr t => String.eqb s t
  | KTuple l, KTuple k => strings_eqb l k
  | _, _ => false
  end.

(** Exceptions: NoConfigValueError with its arguments and its attribute message
    (config.py:1-5), or another one. *)
Inductive raised := NoConfigValueError (arg : key) (message : string) | Other (e : exn).
(** The class of an exception and those that it inherits from (up to Exception). *)
Definition classes (r : raised) : list string :=
  match r with
  | NoConfigValueError _ _ => ["NoConfigValueError"; "LookupError"]
  | Other KeyError => ["KeyError"; "LookupError"]
  | Other IndexError => ["IndexError"; "LookupError"]
  | Other TypeError => ["TypeError"]
  | Other _ => []
  end.
(** except c: *)
Definition caught_by (c : string) (r : raised) : bool := existsb (String.eqb c) (classes r ++ ["Exception"]).
(** str(e), printed at the end of a traceback: the text of the only argument, for a
    tuple with one element (without quotes in it) its repr.  The text of other
    exceptions is left out. *)
Definition printed (r : raised) : string :=
  match r with
  | NoConfigValueError (KStr s) _ => s
  | NoConfigValueError (KTuple l) _ => "('" ++ String.concat "', '" l ++ "',)"
  | _ => ""
  end.

(** NoConfigValueError(x) (config.py:3-5): the argument of % fills one place, a tuple
    gives as many values as it has elements. *)
Definition no_value (x : key) : raised :=
  match x with
  | KStr s | KTuple [s] => NoConfigValueError x ("No local configuration value for: '" ++ s ++ "'.")
  | _ => Other TypeError
  end.

Section Config.
Context {A : Type}.
Definition config : Type := list (key * A).
Definition outcome (B : Type) : Type := (B + raised)%type.

(** dict.__getitem__ and Config.__getitem__ (config.py:10-15): only KeyError is caught. *)
Definition dict_getitem (c : config) (x : key) : outcome A :=
  match x with
  | Unhashable => inr (Other TypeError)
  | _ => match dict_get key_eqb c x with Some v => inl v | None => inr (Other KeyError) end
  end.
Definition getitem (c : config) (x : key) : outcome A :=
  match dict_getitem c x with
  | inl v => inl v
  | inr (Other KeyError) => inr (no_value x)
  | inr r => inr r
  end.
(** CONFIG[x] = v, and a sequence of assignments. *)
Definition setitem (c : config) (x : key) (v : A) : outcome config :=
  match x with Unhashable => inr (Other TypeError) | _ => inl (dict_set key_eqb c x v) end.
Fixpoint assign (c : config) (l : list (key * A)) : outcome config :=
  match l with
  | [] => inl c
  | (x, v) :: l' => match setitem c x v with inl c' => assign c' l' | inr r => inr r end
  end.
(** CONFIG.get(x, d), inherited from dict. *)
Definition get_default (c : config) (x : key) (d : A) : outcome A :=
  match x with
  | Unhashable => inr (Other TypeError)
  | _ => match dict_get key_eqb c x with Some v => inl v | None => inl d end
  end.
End Config.
Arguments config : clear implicits.

Definition obind {A B} (o : outcome A) (f : A -> outcome B) : outcome B := match o with inl a => f a | inr r => inr r end.

(** os.path.expanduser of a path that begins with "~/", [home] being the environment
    variable HOME. *)
Definition expanduser (home path : string) : string :=
  match path with
  | String c rest => if Ascii.eqb c "~"%char then strip_slashes home ++ rest else path
  | EmptyString => EmptyString
  end.

(** local.py:10-17 *)
Definition CONFIG (home : string) : outcome (config string) :=
  obind (setitem [] (KStr "data-dir") (expanduser home "~/work/data/")) (fun c =>
  obind (getitem c (KStr "data-dir")) (fun d =>
  obind (setitem c (KStr "db-dir") (path_join d "db")) (fun c =>
  obind (getitem c (KStr "data-dir")) (fun d =>
  setitem c (KStr "feat-dir") (path_join d "features"))))).

(** Default places: default_acorns_dir (acorns.py:27-28), default_vctk_dir
    (vctk.py:26-27), the directory of choreo1.py:85, default_db_file and
    get_default_feature_file (choreo2.py:28-33), get_default_db_file (objects.py:39-43),
    the feature file of acorns.py:110-111 and CODEBOOK_PATH
    (image_sound_eval_sliding.py:31). *)
Inductive place := Acorns | Vctk | Choreo1 | Choreo2 | Choreo2Features | Objects (extension : bool)
  | AcornsFeatures (year speaker : Z) | Codebook.
Definition path_of (c : config string) (p : place) : outcome string :=
  let db := getitem c (KStr "db-dir") in
  let feat := getitem c (KStr "feat-dir") in
  match p with
  | Acorns => obind db (fun d => inl (path_join d "ACORNS"))
  | Vctk => obind db (fun d => inl (path_join d "VCTK-Corpus"))
  | Choreo1 => obind db (fun d => inl (path_join d "choreo"))
  | Choreo2 => obind db (fun d => inl (path_join (path_join d "choreo2") "choreo2.json"))
  | Objects extension => obind db (fun d => inl (path_join (path_join d "objects") ("single_object_label" ++ (if extension then ".json" else ""))))
  | Choreo2Features => obind feat (fun d => inl (path_join d "choreo2_angle_hist.npz"))
  | AcornsFeatures year speaker => obind feat (fun d => inl (path_join d (feature_file_name year speaker)))
  | Codebook => obind feat (fun d => inl (path_join d "vctk_codebook.mat"))
  end.
