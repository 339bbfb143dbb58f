(** * Time windows as mutable objects (multimodal/lib/window.py).

    The heap has four stores, each addressed by position: window objects that are
    not concatenations, Python lists of windows, concatenations (the attribute
    windows of each: a list, window.py:270), and array cells.  The data of an
    array window is the list of the cells its numpy array refers to: a slice of
    an array is a view of the same cells.  The pure functions of window_model.v
    give the new contents of each object.

    Not modelled: a concatenation inside a concatenation, assignment to the
    attributes windows and array, identity of the objects attached to windows.
    An operation on an object of the wrong kind is TypeError here. *)

From Coq Require Import List ZArith QArith Bool.
Import ListNotations.
From Verif Require Import Py window_model.
Open Scope py_scope.

Section Heap.
Context {O A P : Type}.
Notation lf := (leaf O nat P).

Record st := St {
  leafs : list lf; lists : list (list nat); cats : list nat; cells : list A }.

(** Python code that reads and writes the heap and may raise; the heap is kept
    when it raises. *)
Definition M (X : Type) := st -> result X * st.
Definition ret {X} (x : X) : M X := fun s => (Ok x, s).
Definition lift {X} (r : result X) : M X := fun s => (r, s).
Definition bindM {X Y} (m : M X) (f : X -> M Y) : M Y := fun s =>
  match m s with (Ok x, s') => f x s' | (Err e, s') => (Err e, s') end.
Notation "x <-- m ;; k" := (bindM m (fun x => k)) (at level 61, m at next level, right associativity).

Fixpoint mapMM {X Y} (f : X -> M Y) (l : list X) : M (list Y) :=
  match l with
  | [] => ret []
  | x :: l' => y <-- f x ;; ys <-- mapMM f l' ;; ret (y :: ys)
  end.

Definition get_leaf (r : nat) : M lf := fun s =>
  (match nth_error (leafs s) r with Some w => Ok w | None => Err TypeError end, s).
Definition put_leaf (r : nat) (w : lf) : M unit := fun s =>
  (Ok tt, St (list_set (leafs s) r w) (lists s) (cats s) (cells s)).
Definition alloc_leaf (w : lf) : M nat := fun s =>
  (Ok (length (leafs s)), St (leafs s ++ [w]) (lists s) (cats s) (cells s)).
Definition get_list (l : nat) : M (list nat) := fun s =>
  (match nth_error (lists s) l with Some rs => Ok rs | None => Err TypeError end, s).
Definition put_list (l : nat) (rs : list nat) : M unit := fun s =>
  (Ok tt, St (leafs s) (list_set (lists s) l rs) (cats s) (cells s)).
Definition alloc_list (rs : list nat) : M nat := fun s =>
  (Ok (length (lists s)), St (leafs s) (lists s ++ [rs]) (cats s) (cells s)).
Definition get_cat (c : nat) : M nat := fun s =>
  (match nth_error (cats s) c with Some l => Ok l | None => Err TypeError end, s).
Definition alloc_cat (l : nat) : M nat := fun s =>
  (Ok (length (cats s)), St (leafs s) (lists s) (cats s ++ [l]) (cells s)).
Definition read_cell (k : nat) : M A := fun s =>
  (match nth_error (cells s) k with Some x => Ok x | None => Err TypeError end, s).
Definition put_cell (k : nat) (x : A) : M unit := fun s =>
  (Ok tt, St (leafs s) (lists s) (cats s) (list_set (cells s) k x)).
(** A new array with the given contents. *)
Definition alloc_cells (xs : list A) : M (list nat) := fun s =>
  (Ok (seq (length (cells s)) (length xs)), St (leafs s) (lists s) (cats s) (cells s ++ xs)).

(** copy and get_subwindow never read a file: copy of a wav window gives the
    number of samples to the constructor (window.py:249-256). *)
Definition no_files : wavfiles P nat := fun _ => Err IOError.

(** ** Windows that are not concatenations. *)

(** window.py:82-84 *)
Definition leaf_move (r : nat) (delta : Q) : M unit :=
  w <-- get_leaf r ;; put_leaf r (move w delta).

(** Assignment to the attribute obj; on an array or wav window it adds an
    attribute that nothing reads. *)
Definition leaf_set_obj (r : nat) (o : option O) : M unit :=
  w <-- get_leaf r ;;
  match w with
  | LB b => put_leaf r (LB (Basic (b_start b) (b_end b) o))
  | _ => ret tt
  end.

(** Assignments to absolute_start and absolute_end. *)
Definition leaf_set_times (r : nat) (s e : Q) : M unit :=
  w <-- get_leaf r ;;
  put_leaf r match w with
             | LB b => LB (Basic s e (b_obj b))
             | LA a => LA (Arrw s e (a_rate a) (a_data a))
             | LW v => LW (Wavw (v_path v) s e (v_rate v) (v_after v) (v_stop v))
             end.

(** copy (window.py:120-122, 188-189, 249-256): a new object; the array of an
    array window is shared. *)
Definition leaf_copy (r : nat) : M nat :=
  w <-- get_leaf r ;; w' <-- lift (copy no_files w) ;; alloc_leaf w'.

(** get_subwindow (window.py:112-118, 178-183, 244-247).  Basic and wav windows
    modify their fresh copy before returning it; when that raises the copy is
    lost, so it is not allocated here. *)
Definition leaf_sub (r : nat) (a b : Q) : M nat :=
  w <-- get_leaf r ;; w' <-- lift (get_subwindow no_files w a b) ;; alloc_leaf w'.

(** Item assignment in the array of an array window. *)
Definition leaf_write (r : nat) (i : Z) (x : A) : M unit :=
  w <-- get_leaf r ;;
  match w with
  | LA a => k <-- lift (py_nth (a_data a) i) ;; put_cell k x
  | _ => lift (Err AttributeError)
  end.

(** to_array_window (window.py:185-186, 258-261). *)
Definition leaf_to_array (files : wavfiles P A) (r : nat) : M nat :=
  w <-- get_leaf r ;;
  match w with
  | LB _ => lift (Err AttributeError)
  | LA a => a' <-- lift (array_copy a) ;; alloc_leaf (LA a')
  | LW v =>
      content <-- lift (files (v_path v)) ;;
      ks <-- alloc_cells (slice (snd content) (v_after v) (v_stop v)) ;;
      a' <-- lift (new_array_window ks (v_start v) (fst content)) ;;
      alloc_leaf (LA a')
  end.

(** ** Concatenations. *)

(** __init__ (window.py:267-276): the list given is kept, not copied. *)
Definition new_cat (l : nat) : M nat :=
  rs <-- get_list l ;;
  ws <-- mapMM get_leaf rs ;;
  _ <-- lift (new_concat ws) ;;
  alloc_cat l.

Definition cat_windows (c : nat) : M (list nat) := l <-- get_cat c ;; get_list l.

(** window.py:286-288 *)
Definition cat_move (c : nat) (delta : Q) : M unit :=
  rs <-- cat_windows c ;;
  _ <-- mapMM (fun r => leaf_move r delta) rs ;;
  ret tt.

(** copy (window.py:305-306). *)
Definition cat_copy (c : nat) : M nat :=
  rs <-- cat_windows c ;;
  new <-- mapMM leaf_copy rs ;;
  l <-- alloc_list new ;;
  new_cat l.

(** _get_file_index_from_time and get_subwindow_at (window.py:308-316): the
    window itself is returned, not a copy. *)
Definition cat_file_index (c : nat) (t : Q) : M nat :=
  rs <-- cat_windows c ;; ws <-- mapMM get_leaf rs ;; lift (get_file_index ws t).
Definition cat_sub_at (c : nat) (t : Q) : M nat :=
  i <-- cat_file_index c t ;; rs <-- cat_windows c ;; lift (py_nth rs (Z.of_nat i)).

(** get_subwindow (window.py:290-298).  The list of copies is allocated once,
    when it is complete. *)
Definition cat_sub (c : nat) (a b : Q) : M nat :=
  i_start <-- cat_file_index c a ;;
  i_end <-- cat_file_index c b ;;
  rs <-- cat_windows c ;;
  new <-- mapMM leaf_copy (slice rs (Z.of_nat i_start) (1 + Z.of_nat i_end)) ;;
  r0 <-- lift (py_nth new 0) ;;
  w0 <-- get_leaf r0 ;;
  r0' <-- leaf_sub r0 a (w_end w0) ;;
  new <-- lift (py_set new 0 r0') ;;
  r1 <-- lift (py_nth new (-1)) ;;
  w1 <-- get_leaf r1 ;;
  r1' <-- leaf_sub r1 (w_start w1) b ;;
  new <-- lift (py_set new (-1) r1') ;;
  l <-- alloc_list new ;;
  new_cat l.

(** to_array_window (window.py:300-303, 194-201): np.hstack makes a new array. *)
Definition get_array (r : nat) : M (arrw nat) :=
  w <-- get_leaf r ;;
  match w with LA a => ret a | _ => lift (Err AttributeError) end.
Definition cat_to_array (files : wavfiles P A) (c : nat) : M nat :=
  rs <-- cat_windows c ;;
  arrs <-- mapMM (leaf_to_array files) rs ;;
  ws <-- mapMM get_array arrs ;;
  a <-- lift (array_concatenate ws) ;;
  xs <-- mapMM read_cell (a_data a) ;;
  ks <-- alloc_cells xs ;;
  alloc_leaf (LA (Arrw (a_start a) (a_end a) (a_rate a) ks)).

(** align (window.py:318-329): the windows are moved one after the other. *)
Fixpoint align_heap (t : Q) (rs : list nat) : M unit :=
  match rs with
  | [] => ret tt
  | r :: rs' =>
      w <-- get_leaf r ;;
      _ <-- leaf_move r (t - w_start w) ;;
      w' <-- get_leaf r ;;
      align_heap (t + duration w') rs'
  end.
Definition align_list (l : nat) (start : option Q) : M unit :=
  rs <-- get_list l ;;
  t <-- match start with
        | Some t => ret t
        | None => r <-- lift (py_nth rs 0) ;; w <-- get_leaf r ;; ret (w_start w)
        end ;;
  align_heap t rs.

(** ** Programs that use the windows.  A program has variables, numbered in the
    order of their definition, that refer to objects; it can only name an object
    through a variable. *)
Inductive ref := RLeaf (r : nat) | RList (l : nat) | RCat (c : nat).

Inductive op :=
| Move (x : nat) (delta : Q)            (* x.move(delta) *)
| SetObj (x : nat) (o : option O)       (* x.obj = o *)
| SetTimes (x : nat) (s e : Q)          (* x.absolute_start, x.absolute_end = s, e *)
| Copy (x : nat)                        (* x.copy() *)
| Sub (x : nat) (a b : Q)               (* x.get_subwindow(a, b) *)
| SubAt (x : nat) (t : Q)               (* x.get_subwindow_at(t) *)
| ToArray (x : nat)                     (* x.to_array_window() *)
| Windows (x : nat)                     (* x.windows *)
| Item (x : nat) (i : Z)                (* x[i] for a list x *)
| NewList (xs : list nat)               (* [x, ...] *)
| Append (x y : nat)                    (* x.append(y) for a list x *)
| SetItem (x : nat) (i : Z) (y : nat)   (* x[i] = y for a list x *)
| NewCat (x : nat)                      (* ConcatTimeWindow(x) *)
| Align (x : nat) (start : option Q)    (* ConcatTimeWindow.align(x, start) *)
| NewBasic (s e : Q) (o : option O)     (* BasicTimeWindow(s, e, o) *)
| NewArray (data : list A) (start rate : Q) (* ArrayTimeWindow(np.array(data), start, rate) *)
| NewWav (path : P) (start : Q)         (* WavFileTimeWindow(path, start) *)
| Write (x : nat) (i : Z) (v : A).      (* x.array[i] = v *)

Definition var (vars : list ref) (x : nat) : M ref :=
  lift match nth_error vars x with Some r => Ok r | None => Err TypeError end.
Definition leaf_var (vars : list ref) (x : nat) : M nat :=
  v <-- var vars x ;; lift match v with RLeaf r => Ok r | _ => Err TypeError end.
Definition list_var (vars : list ref) (x : nat) : M nat :=
  v <-- var vars x ;; lift match v with RList l => Ok l | _ => Err TypeError end.
Definition cat_var (vars : list ref) (x : nat) : M nat :=
  v <-- var vars x ;; lift match v with RCat c => Ok c | _ => Err TypeError end.

Definition move_ref (v : ref) (d : Q) : M unit :=
  match v with RLeaf r => leaf_move r d | RCat c => cat_move c d | RList _ => lift (Err AttributeError) end.
Definition copy_ref (v : ref) : M ref :=
  match v with
  | RLeaf r => r' <-- leaf_copy r ;; ret (RLeaf r')
  | RCat c => c' <-- cat_copy c ;; ret (RCat c')
  | RList _ => lift (Err TypeError)
  end.
Definition sub_ref (v : ref) (a b : Q) : M ref :=
  match v with
  | RLeaf r => r' <-- leaf_sub r a b ;; ret (RLeaf r')
  | RCat c => c' <-- cat_sub c a b ;; ret (RCat c')
  | RList _ => lift (Err AttributeError)
  end.
Definition array_ref (files : wavfiles P A) (v : ref) : M ref :=
  match v with
  | RLeaf r => r' <-- leaf_to_array files r ;; ret (RLeaf r')
  | RCat c => r' <-- cat_to_array files c ;; ret (RLeaf r')
  | RList _ => lift (Err AttributeError)
  end.

(** The result of an operation, if it has one, is put in a new variable. *)
Definition exec (files : wavfiles P A) (vars : list ref) (o : op) : M (option ref) :=
  match o with
  | Move x d => v <-- var vars x ;; _ <-- move_ref v d ;; ret None
  | SetObj x ob => r <-- leaf_var vars x ;; _ <-- leaf_set_obj r ob ;; ret None
  | SetTimes x s e => r <-- leaf_var vars x ;; _ <-- leaf_set_times r s e ;; ret None
  | Copy x => v <-- var vars x ;; v' <-- copy_ref v ;; ret (Some v')
  | Sub x a b => v <-- var vars x ;; v' <-- sub_ref v a b ;; ret (Some v')
  | SubAt x t => c <-- cat_var vars x ;; r <-- cat_sub_at c t ;; ret (Some (RLeaf r))
  | ToArray x => v <-- var vars x ;; v' <-- array_ref files v ;; ret (Some v')
  | Windows x => c <-- cat_var vars x ;; l <-- get_cat c ;; ret (Some (RList l))
  | Item x i => l <-- list_var vars x ;; rs <-- get_list l ;; r <-- lift (py_nth rs i) ;; ret (Some (RLeaf r))
  | NewList xs => rs <-- mapMM (leaf_var vars) xs ;; l <-- alloc_list rs ;; ret (Some (RList l))
  | Append x y => l <-- list_var vars x ;; r <-- leaf_var vars y ;; rs <-- get_list l ;;
                  _ <-- put_list l (rs ++ [r]) ;; ret None
  | SetItem x i y => l <-- list_var vars x ;; r <-- leaf_var vars y ;; rs <-- get_list l ;;
                     rs' <-- lift (py_set rs i r) ;; _ <-- put_list l rs' ;; ret None
  | NewCat x => l <-- list_var vars x ;; c <-- new_cat l ;; ret (Some (RCat c))
  | Align x start => l <-- list_var vars x ;; _ <-- align_list l start ;; ret (Some (RList l))
  | NewBasic s e ob => r <-- alloc_leaf (LB (Basic s e ob)) ;; ret (Some (RLeaf r))
  | NewArray data start rate =>
      ks <-- alloc_cells data ;; a <-- lift (new_array_window ks start rate) ;;
      r <-- alloc_leaf (LA a) ;; ret (Some (RLeaf r))
  | NewWav path start =>
      v <-- lift (new_wav_window files path start None) ;;
      r <-- alloc_leaf (LW v) ;; ret (Some (RLeaf r))
  | Write x i v => r <-- leaf_var vars x ;; _ <-- leaf_write r i v ;; ret None
  end.

(** A program goes on after an exception (as with try ... except: pass). *)
Fixpoint run (files : wavfiles P A) (h : list op) (s : st) (vars : list ref) : st * list ref :=
  match h with
  | [] => (s, vars)
  | o :: h' =>
      match exec files vars o s with
      | (Ok (Some v), s') => run files h' s' (vars ++ [v])
      | (_, s') => run files h' s' vars
      end
  end.
End Heap.
Arguments st : clear implicits.
Arguments op : clear implicits.
Notation "x <-- m ;; k" := (bindM m (fun x => k)) (at level 61, m at next level, right associativity).
