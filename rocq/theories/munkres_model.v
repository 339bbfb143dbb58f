(** * Model of multimodal/lib/munkres.py (Hungarian method).

    The model is parametric in the arithmetic on weights ([arith]), so that the
    same functions can be instantiated with exact rationals, with rounded
    arithmetic and with numbers including NaN.

    Python lists of fixed length n indexed by vertices (S, T, father, labels,
    matching) are modelled by total functions on [nat] with functional update;
    the code only indexes them with elements of range(n) or with values stored
    in them, and [munkres_proof] shows that these stay below n.  [while] loops
    take a fuel argument and return [Err Timeout] when it is exhausted. *)

From Coq Require Import List Arith Bool ZArith.
Import ListNotations.
From Verif Require Import Py.
Open Scope py_scope.

(** Arithmetic used on weights: +, -, np.maximum, np.minimum, ==, 0 and 1. *)
Record arith := Arith {
  num : Type;
  nadd : num -> num -> num;
  nsub : num -> num -> num;
  nmax : num -> num -> num;
  nmin : num -> num -> num;
  neqb : num -> num -> bool;
  nzero : num;
  none : num
}.

Section Munkres.
Context (A : arith).
Notation num := (num A).

(** np.max / np.min of the elements of an array: ValueError when empty. *)
Definition np_max (l : list num) : result num :=
  match l with [] => Err ValueError | x :: l' => Ok (fold_left (nmax A) l' x) end.
Definition np_min (l : list num) : result num :=
  match l with [] => Err ValueError | x :: l' => Ok (fold_left (nmin A) l' x) end.

(** State of a BipartiteGraph (munkres.py:67-73). *)
Record bgraph := BG {
  bg_n : nat;
  bg_w : nat -> nat -> num;
  lab0 : nat -> num;
  lab1 : nat -> num;
  mat0 : nat -> option nat;
  mat1 : nat -> option nat
}.

(** State of an AlternateTree (munkres.py:9-18), without its reference to the
    graph, which is passed separately. *)
Record tree := Tree {
  tS : nat -> bool;
  tT : nat -> bool;
  tfather : nat -> option nat;
  tstack : list nat
}.

(** BipartiteGraph.slack (munkres.py:84-86). *)
Definition slack (g : bgraph) (u v : nat) : num :=
  nsub A (nadd A (lab0 g u) (lab1 g v)) (bg_w g u v).

(** BipartiteGraph.neighbours_in_G_l (munkres.py:93-95). *)
Definition neighbours (g : bgraph) (u : nat) : list nat :=
  filter (fun v => neqb A (slack g u v) (nzero A)) (seq 0 (bg_n g)).

(** "if father[v] is None: father[v] = u; stack.append(v)"
    (munkres.py:27-29 and 60-62). *)
Definition attach (u : nat) (t : tree) (v : nat) : tree :=
  match tfather t v with
  | None => Tree (tS t) (tT t) (upd (tfather t) v (Some u)) (tstack t ++ [v])
  | Some _ => t
  end.

(** AlternateTree.explore (munkres.py:20-29). *)
Definition explore (g : bgraph) (t : tree) (u : nat) : tree :=
  if tS t u then t
  else fold_left (attach u) (neighbours g u)
         (Tree (upd (tS t) u true) (tT t) (tfather t) (tstack t)).

(** AlternateTree.__init__ (munkres.py:10-18). *)
Definition new_tree (g : bgraph) (root : nat) : tree :=
  explore g (Tree (fun _ => false) (fun _ => false) (fun _ => None) []) root.

(** The "except IndexError" branch of find_augmenting_path
    (munkres.py:43-63): the slack matrix is computed before the labels change,
    alpha is the minimum over S x (complement of T), the argmins are taken over
    the whole matrix in row-major order. *)
Definition augment_labels (g : bgraph) (t : tree) : result (bgraph * tree) :=
  let n := bg_n g in
  let s := filter (fun u => tS t u) (seq 0 n) in
  let nt := filter (fun v => negb (tT t v)) (seq 0 n) in
  alpha <- np_min (flat_map (fun u => map (fun v => slack g u v) nt) s) ;;
  let argmins :=
    filter (fun p => neqb A (slack g (fst p) (snd p)) alpha)
      (flat_map (fun u => map (fun v => (u, v)) (seq 0 n)) (seq 0 n)) in
  let g' := BG n (bg_w g)
      (fun i => if (i <? n) && tS t i then nsub A (lab0 g i) alpha else lab0 g i)
      (fun i => if (i <? n) && tT t i then nadd A (lab1 g i) alpha else lab1 g i)
      (mat0 g) (mat1 g) in
  let t' := fold_left
      (fun t' p => if tS t' (fst p) then attach (fst p) t' (snd p) else t')
      argmins t in
  Ok (g', t').

(** AlternateTree.find_augmenting_path (munkres.py:31-64); returns the updated
    graph (labels), the updated tree and the free vertex found. *)
Fixpoint find_path (fuel : nat) (g : bgraph) (t : tree)
  : result (bgraph * tree * nat) :=
  match fuel with
  | 0 => Err Timeout
  | S fuel' =>
      match tstack t with
      | v :: rest =>
          let t' := Tree (tS t) (upd (tT t) v true) (tfather t) rest in
          match mat1 g v with
          | None => Ok (g, t', v)
          | Some u => find_path fuel' g (explore g t' u)
          end
      | [] =>
          '(g', t') <- augment_labels g t ;; find_path fuel' g' t'
      end
  end.

(** BipartiteGraph.augment_matching (munkres.py:97-104).  A leaf without
    father would make the Python code index a list with None: TypeError. *)
Fixpoint augment_matching (fuel : nat) (father : nat -> option nat)
    (g : bgraph) (v : nat) : result bgraph :=
  match fuel with
  | 0 => Err Timeout
  | S fuel' =>
      match father v with
      | None => Err TypeError
      | Some u =>
          let g' := BG (bg_n g) (bg_w g) (lab0 g) (lab1 g)
                       (upd (mat0 g) u (Some v)) (upd (mat1 g) v (Some u)) in
          match mat0 g u with
          | None => Ok g'
          | Some v' => augment_matching fuel' father g' v'
          end
      end
  end.

(** BipartiteGraph.init_labels (munkres.py:75-77): n >= 1 here, because
    np.max(w) in _min_weight_perm_square has already failed otherwise. *)
Definition init_labels (n : nat) (w : nat -> nat -> num) : result (nat -> num) :=
  ls <- mapM (fun u => np_max (map (w u) (seq 0 n))) (seq 0 n) ;;
  Ok (fun u => nth u ls (nzero A)).

(** The main loop of max_weight_matching (munkres.py:109-121). *)
Fixpoint matching_loop (fuel inner : nat) (g : bgraph) (u : nat) : result bgraph :=
  match fuel with
  | 0 => Err Timeout
  | S fuel' =>
      if u <? bg_n g then
        match mat0 g u with
        | None =>
            '(g', t, v) <- find_path inner g (new_tree g u) ;;
            g'' <- augment_matching inner (tfather t) g' v ;;
            matching_loop fuel' inner g'' u
        | Some _ => matching_loop fuel' inner g (S u)
        end
      else Ok g
  end.

(** BipartiteGraph.max_weight_matching (munkres.py:106-123). *)
Definition max_weight_matching (fuel n : nat) (w : nat -> nat -> num)
  : result (list (option nat)) :=
  l0 <- init_labels n w ;;
  g <- matching_loop fuel fuel
         (BG n w l0 (fun _ => nzero A) (fun _ => None) (fun _ => None)) 0 ;;
  Ok (map (mat0 g) (seq 0 n)).

(** Matrices: list of rows with an explicit number of columns (needed for
    matrices without rows), as w.shape. *)
Record matrix := Matrix { mrows : list (list num); mcols : nat }.
Definition nrows (m : matrix) : nat := length (mrows m).
(** Well-formedness of an array: every row has [mcols] entries. *)
Definition wf_matrix (m : matrix) : Prop :=
  Forall (fun r => length r = mcols m) (mrows m).
Definition mget (m : matrix) (i j : nat) : num :=
  nth j (nth i (mrows m) []) (nzero A).
Definition all_entries (m : matrix) : list num := concat (mrows m).
(** w.T *)
Definition transpose (m : matrix) : matrix :=
  Matrix (map (fun j => map (fun i => mget m i j) (seq 0 (nrows m)))
              (seq 0 (mcols m))) (nrows m).

(** _min_weight_perm_square (munkres.py:157-160). *)
Definition min_weight_perm_square (fuel : nat) (m : matrix)
  : result (list (option nat)) :=
  mx <- np_max (all_entries m) ;;
  max_weight_matching fuel (nrows m) (fun i j => nsub A mx (mget m i j)).

(** reverse_function (munkres.py:144-154).  [s] is the list of values; the
    default size is max(s), where max of an empty list raises ValueError.
    Values are natural numbers (the code passes matchings). *)
Definition list_max_res (s : list nat) : result nat :=
  match s with [] => Err ValueError | x :: l => Ok (fold_left Nat.max l x) end.
Definition reverse_function (s : list nat) (size : option nat)
  : result (list (option nat)) :=
  sz <- match size with Some k => Ok k | None => list_max_res s end ;;
  foldM (fun rev (p : nat * nat) => py_set rev (Z.of_nat (snd p)) (Some (fst p)))
        (enumerate s) (repeat None sz).

(** A matching entry used as list index: None raises TypeError
    (rev[None] = i in reverse_function). *)
Definition as_index (o : option nat) : result nat :=
  match o with Some v => Ok v | None => Err TypeError end.

(** min_weight_perm for n1 <= n2 (munkres.py:135-138 and 141). *)
Definition min_weight_perm_wide (fuel : nat) (m : matrix)
  : result (list (option nat)) :=
  let n1 := nrows m in
  let n2 := mcols m in
  m' <- (if n1 <? n2 then
           mx <- np_max (all_entries m) ;;
           Ok (Matrix (mrows m ++
                 repeat (repeat (nadd A mx (none A)) n2) (n2 - n1)) n2)
         else Ok m) ;;
  p <- min_weight_perm_square fuel m' ;;
  Ok (firstn n1 p).

(** min_weight_perm (munkres.py:126-141); the recursive call of the n1 > n2
    branch is on a matrix with fewer rows than columns, so it is unfolded. *)
Definition min_weight_perm (fuel : nat) (m : matrix)
  : result (list (option nat)) :=
  if mcols m <? nrows m then
    p <- min_weight_perm_wide fuel (transpose m) ;;
    s <- mapM as_index p ;;
    reverse_function s (Some (nrows m))
  else min_weight_perm_wide fuel m.

End Munkres.

Arguments Matrix {A} _ _.
Arguments mrows {A} _.
Arguments mcols {A} _.
Arguments nrows {A} _.
Arguments mget {A} _ _ _.
Arguments wf_matrix {A} _.
Arguments transpose {A} _.
Arguments all_entries {A} _.
Arguments min_weight_perm {A} _ _.

(** all_perms (munkres.py:180-186), a generator, as the list of yielded
    values.  [perm[:i] + [l[0]] + perm[i:]] for i in range(len(l)). *)
Definition insertions {X} (x : X) (p : list X) : list (list X) :=
  map (fun i => firstn i p ++ [x] ++ skipn i p) (seq 0 (S (length p))).
Fixpoint all_perms {X} (l : list X) : list (list X) :=
  match l with
  | [] => [l]
  | [_] => [l]
  | x :: l' => flat_map (insertions x) (all_perms l')
  end.

(** ** Exact rational arithmetic instance, and the functions computing sums of
    weights (munkres.py:163-198). *)
From Coq Require Import QArith.

Definition Qarith : arith :=
  Arith Q Qplus Qminus
    (fun a b => if Qle_bool a b then b else a)
    (fun a b => if Qle_bool a b then a else b)
    Qeq_bool 0%Q 1%Q.

Definition Qmatrix := matrix Qarith.

Definition Qsum_list (l : list Q) : Q := fold_right Qplus 0%Q l.

(** permutation_matrix (munkres.py:163-167): IndexError when an index is not
    below n; entry (i, perm[i]) is 1, others 0. *)
Definition permutation_matrix (perm : list nat) : result Qmatrix :=
  let n := length perm in
  if forallb (fun j => (j <? n)%nat) perm then
    Ok (@Matrix Qarith (map (fun j => map (fun k => if (k =? j)%nat then 1%Q else 0%Q)
                                (seq 0 n)) perm : list (list Q)) n)
  else Err IndexError.

(** One axis of numpy broadcasting: equal sizes, or one of them is 1. *)
Definition broadcast_dim (a b : nat) : result nat :=
  if (a =? b)%nat then Ok a
  else if (a =? 1)%nat then Ok b
  else if (b =? 1)%nat then Ok a
  else Err ValueError.
Definition bidx (size i : nat) : nat := if (size =? 1)%nat then 0%nat else i.

(** weight (munkres.py:170-171): sum of the elementwise product, with numpy
    broadcasting. *)
Definition weight (perm : list nat) (w : Qmatrix) : result Q :=
  p <- permutation_matrix perm ;;
  r <- broadcast_dim (nrows w) (nrows p) ;;
  c <- broadcast_dim (mcols w) (mcols p) ;;
  Ok (Qsum_list (flat_map (fun i => map (fun j =>
        (mget w (bidx (nrows w) i) (bidx (mcols w) j) *
         mget p (bidx (nrows p) i) (bidx (mcols p) j))%Q)
      (seq 0 c)) (seq 0 r))).

(** min_weight (munkres.py:174-177). A matching containing None cannot index
    the permutation matrix: IndexError. *)
Definition min_weight (fuel : nat) (w : Qmatrix) : result Q :=
  p <- min_weight_perm fuel w ;;
  s <- mapM (fun o => match o with Some v => Ok v | None => Err IndexError end) p ;;
  weight s w.

(** min_weight_perm_brute_force (munkres.py:189-198). *)
Definition min_weight_perm_brute_force (w : Qmatrix) : result (list nat) :=
  let n := nrows w in
  let diag := Qsum_list (map (fun i => mget w i i)
                             (seq 0 (Nat.min n (mcols w)))) in
  r <- foldM (fun (acc : Q * list nat) perm =>
          cur <- weight perm w ;;
          Ok (if Qle_bool (fst acc) cur then acc else (cur, perm)))
        (all_perms (seq 0 n)) (diag, seq 0 n) ;;
  Ok (snd r).

(** ** Rationals extended with NaN: [None] is NaN, every operation propagates
    it and every comparison with it is false (np.max / np.min propagate NaN). *)
Definition lift2 (f : Q -> Q -> Q) (a b : option Q) : option Q :=
  match a, b with Some x, Some y => Some (f x y) | _, _ => None end.
Definition NaNarith : arith :=
  Arith (option Q) (lift2 Qplus) (lift2 Qminus)
    (lift2 (fun a b => if Qle_bool a b then b else a))
    (lift2 (fun a b => if Qle_bool a b then a else b))
    (fun a b => match a, b with Some x, Some y => Qeq_bool x y | _, _ => false end)
    (Some 0%Q) (Some 1%Q).
