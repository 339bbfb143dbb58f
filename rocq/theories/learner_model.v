(** * Model of multimodal/learner.py.

    Data matrices have two axes and are dense or sparse; names of modalities
    are strings.  [rnd] gives the numbers of np.random.random, see nmf_model;
    [c] is the number of calls of np.random.random before. *)

From Coq Require Import List ZArith Reals Bool Arith String.
Import ListNotations.
From Verif Require Import Py nd_model sparse_model nmf_model.
Open Scope py_scope.
Local Open Scope R_scope.
Notation length := List.length.

(** np.hstack of matrices (array_utils.py:9): all of them need the same number of
    rows, and there must be one. *)
Definition rows_of (x : matrix) : nat := nth 0 (mshape x) 0%nat.
Definition cols_of (x : matrix) : nat := nth 1 (mshape x) 0%nat.
Definition total_cols (bs : list matrix) : nat := list_sum (map cols_of bs).
Fixpoint hcat_at (bs : list matrix) (i j : nat) : R :=
  match bs with
  | [] => 0
  | b :: bs' => if (j <? cols_of b)%nat then el (mvalue b) [i; j] else hcat_at bs' i (j - cols_of b)
  end.
Definition same_rows (n : nat) (bs : list matrix) : bool :=
  forallb (fun b => (List.length (mshape b) =? 2)%nat && (rows_of b =? n)%nat) bs.
Definition np_hstack (bs : list matrix) : result matrix :=
  match bs with
  | [] => Err ValueError
  | b :: _ =>
      if same_rows (rows_of b) bs then
        Ok (Dense (Nd [rows_of b; total_cols bs] (fun idx => hcat_at bs (nth 0 idx 0%nat) (nth 1 idx 0%nat))))
      else Err ValueError
  end.

(** sp.hstack (array_utils.py:7): a coo_matrix with the elements of the blocks, those
    of a dense block being the elements that are not zero.  A coo_matrix is modelled
    by the csr_matrix to which the factorisation converts it
    (sklearn_utils.py:92). *)
Definition stored (b : matrix) : list line :=
  match b with
  | Dense a => lines (of_dense (nth 0 (shape a) 0%nat) (nth 1 (shape a) 0%nat) a)
  | Sparse s => lines s
  end.
Fixpoint hcat_line (bs : list matrix) (off i : nat) : line :=
  match bs with
  | [] => []
  | b :: bs' => map (fun p => ((off + fst p)%nat, snd p)) (nth i (stored b) []) ++ hcat_line bs' (off + cols_of b) i
  end.
Definition sp_hstack (bs : list matrix) : result matrix :=
  match bs with
  | [] => Err ValueError
  | b :: _ =>
      if same_rows (rows_of b) bs then
        Ok (Sparse (coo_tocsr (total_cols bs) (map (hcat_line bs 0) (seq 0 (rows_of b)))))
      else Err ValueError
  end.

(** safe_hstack (array_utils.py:5-9). *)
Definition is_sparse_matrix (x : matrix) : bool := match x with Dense _ => false | Sparse _ => true end.
Definition safe_hstack (bs : list matrix) : result matrix :=
  if existsb is_sparse_matrix bs then sp_hstack bs else np_hstack bs.

(** c * m. *)
Definition mscale (c : R) (x : matrix) : matrix :=
  match x with
  | Dense a => Dense (map1 (fun v => c * v) a)
  | Sparse s => Sparse (Csr (ncol s) (map (map (fun p => (fst p, c * snd p))) (lines s)))
  end.

(** fit_coefficients (learner.py:11-15). *)
Definition fit_coefficients (rnd : nat -> list nat -> R) (c : nat) (data_obs : matrix) (dictionary : nd) (iter_nmf : Z) : result nd :=
  let o := set_components dictionary (nmf_new (Some (nth 0 (shape dictionary) 0%nat)) 0 iter_nmf c) in
  '(w, _, _, _) <- snd (transform rnd o data_obs 1 true) ;;
  Ok w.

(** The attributes mod, dim, coef, k, sparseness (whether it is not None) and dico
    (learner.py:20-29); sp_coef and nmf_train are not used. *)
Record learner := Learner {
  mods : list string;
  dims : list nat;
  coefs : list R;
  lk : nat;
  sparseness : bool;
  dico : option nd }.

Definition learner_new (ms : list string) (ds : list nat) (cs : list R) (k : nat) (sparse : bool) : learner :=
  Learner ms ds cs k sparse None.

(** get_index (learner.py:64-65). *)
Definition get_index (l : learner) (modality : string) : result nat := list_index String.eqb (mods l) modality 0.

(** get_axis_range (learner.py:58-62). *)
Definition get_axis_range (l : learner) (modality : string) : result (nat * nat) :=
  idx <- get_index l modality ;;
  let start := list_sum (firstn idx (dims l)) in
  d <- py_nth (dims l) (Z.of_nat idx) ;;
  Ok (start, (start + d)%nat).

(** a[:, start:stop] of a matrix. *)
Definition slice_cols (a : nd) (start stop : nat) : nd :=
  let m := nth 1 (shape a) 0%nat in
  Nd [nth 0 (shape a) 0%nat; (Nat.min stop m - Nat.min start m)%nat] (fun idx => el a [nth 0 idx 0%nat; (Nat.min start m + nth 1 idx 0)%nat]).

(** get_dico of a modality (learner.py:43-48); None cannot be indexed. *)
Definition get_dico (l : learner) (modality : string) : result nd :=
  '(start, stop) <- get_axis_range l modality ;;
  match dico l with
  | None => Err TypeError
  | Some d => Ok (slice_cols d start stop)
  end.

(** get_stacked_dicos (learner.py:50-51). *)
Definition get_stacked_dicos (l : learner) (ms : list string) : result matrix :=
  ds <- mapM (get_dico l) ms ;;
  safe_hstack (map Dense ds).

(** stack_data (learner.py:53-56). *)
Definition stack_data (l : learner) (ms : list string) (data : list matrix) : result matrix :=
  cs <- mapM (fun m => idx <- get_index l m ;; py_nth (coefs l) (Z.of_nat idx)) ms ;;
  safe_hstack (map (fun p => mscale (snd p) (fst p)) (combine data cs)).

(** train (learner.py:31-41): the learner afterwards and whether it raised; "raise
    NotImplemented" is a TypeError. *)
Definition train (rnd : nat -> list nat -> R) (c : nat) (l : learner) (data : list matrix) (iterations : Z) : learner * result unit :=
  let r :=
    match data with
    | [] => Err IndexError
    | x :: _ =>
        _ <- py_assert (forallb (fun p => opt_list_eqb (mshape (fst p)) [rows_of x; snd p]) (combine data (dims l))) ;;
        v <- stack_data l (mods l) data ;;
        if sparseness l then Err TypeError
        else
          let '(o, r) := fit_transform rnd (nmf_new (Some (lk l)) 0 iterations c) v 1 true true in
          _ <- r ;;
          Ok (components o)
    end in
  match r with
  | Ok d => (Learner (mods l) (dims l) (coefs l) (lk l) (sparseness l) d, Ok tt)
  | Err e => (l, Err e)
  end.

(** The assertions of reconstruct_internal_multi (learner.py:72-73). *)
Fixpoint check_columns (l : learner) (mds : list (string * matrix)) : result unit :=
  match mds with
  | [] => Ok tt
  | (m, x) :: mds' =>
      d' <- py_nth (mshape x) 1 ;;
      idx <- get_index l m ;;
      d <- py_nth (dims l) (Z.of_nat idx) ;;
      _ <- py_assert (d' =? d)%nat ;;
      check_columns l mds'
  end.

(** reconstruct_internal_multi and reconstruct_internal (learner.py:67-78). *)
Definition reconstruct_internal_multi (rnd : nat -> list nat -> R) (c : nat) (l : learner) (orig_mods : list string) (test_data : list matrix)
  (iterations : Z) : result nd :=
  _ <- check_columns l (combine orig_mods test_data) ;;
  stacked_dico <- get_stacked_dicos l orig_mods ;;
  stacked_data <- stack_data l orig_mods test_data ;;
  fit_coefficients rnd c stacked_data (mvalue stacked_dico) iterations.
Definition reconstruct_internal (rnd : nat -> list nat -> R) (c : nat) (l : learner) (orig_mod : string) (test_data : matrix) (iterations : Z) : result nd :=
  reconstruct_internal_multi rnd c l [orig_mod] [test_data] iterations.

(** reconstruct_modality and reconstruct_modalities (learner.py:80-84). *)
Definition reconstruct_modality (l : learner) (dest_mod : string) (internal : nd) : result nd :=
  d <- get_dico l dest_mod ;; dot internal d.
Definition reconstruct_modalities (l : learner) (dest_mods : list string) (internal : nd) : result nd :=
  d <- get_stacked_dicos l dest_mods ;; dot internal (mvalue d).

(** modalities_to_modalities and modality_to_modality (learner.py:86-94). *)
Definition modalities_to_modalities (rnd : nat -> list nat -> R) (c : nat) (l : learner) (orig_mods dest_mods : list string)
  (test_data : list matrix) (iterations : Z) : result nd :=
  internal <- reconstruct_internal_multi rnd c l orig_mods test_data iterations ;;
  reconstruct_modalities l dest_mods internal.
Definition modality_to_modality (rnd : nat -> list nat -> R) (c : nat) (l : learner) (orig_mod dest_mod : string)
  (test_data : matrix) (iterations : Z) : result nd :=
  modalities_to_modalities rnd c l [orig_mod] [dest_mod] [test_data] iterations.
