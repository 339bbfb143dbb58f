(** * Model of safe_vstack (lib/array_utils.py) and of safe_sparse_dot
    (lib/sklearn_utils.py) for matrices that are dense or sparse.

    Numbers are reals.  Sparse matrices are csr_matrix objects, see sparse_model. *)

From Coq Require Import List Reals Bool Arith.
Import ListNotations.
From Verif Require Import Py nd_model sparse_model nmf_model learner_model.
Open Scope py_scope.
Local Open Scope R_scope.

(** A block of a stack as a matrix: np.atleast_2d, which np.vstack applies
    to each array and coo_matrix to a dense block of sp.vstack. *)
Definition as_block (b : matrix) : matrix :=
  match b with Dense a => Dense (atleast2d a) | Sparse s => Sparse s end.

(** np.vstack (array_utils.py:16): there must be a block and all blocks need the
    same number of columns.  Blocks with more than two axes are left out (they
    are refused here). *)
Definition total_rows (bs : list matrix) : nat := list_sum (map rows_of bs).
Fixpoint vcat_at (bs : list matrix) (i j : nat) : R :=
  match bs with
  | [] => 0
  | b :: bs' => if (i <? rows_of b)%nat then el (mvalue b) [i; j] else vcat_at bs' (i - rows_of b) j
  end.
Definition same_cols (m : nat) (bs : list matrix) : bool :=
  forallb (fun b => (List.length (mshape b) =? 2)%nat && (cols_of b =? m)%nat) bs.
Definition np_vstack (bs : list matrix) : result matrix :=
  match bs with
  | [] => Err ValueError
  | b :: _ =>
      if same_cols (cols_of b) bs then
        Ok (Dense (Nd [total_rows bs; cols_of b] (fun idx => vcat_at bs (nth 0 idx 0%nat) (nth 1 idx 0%nat))))
      else Err ValueError
  end.

(** sp.vstack (array_utils.py:14): the coo_matrix is given as the csr_matrix to which
    it is converted. *)
Definition sp_vstack (bs : list matrix) : result matrix :=
  match bs with
  | [] => Err ValueError
  | b :: _ =>
      if same_cols (cols_of b) bs then Ok (Sparse (coo_tocsr (cols_of b) (flat_map stored bs)))
      else Err ValueError
  end.

(** safe_vstack (array_utils.py:12-16). *)
Definition safe_vstack (bs : list matrix) : result matrix :=
  if existsb is_sparse_matrix bs then sp_vstack (map as_block bs) else np_vstack (map as_block bs).

(** Product of two csr_matrix objects: for each row the rows of the second one are
    added up, multiplied by the stored values of the row.  The order of the
    stored columns, not sorted by scipy, is simplified. *)
Definition line_times (b : list line) (l : line) : line :=
  canonical_line (flat_map (fun p => map (fun q => (fst q, snd p * snd q)) (nth (fst p) b [])) l).
Definition sparse_sparse_dot (x y : csr) : result csr :=
  if (ncol x =? List.length (lines y))%nat then Ok (Csr (ncol y) (map (line_times (lines y)) (lines x)))
  else Err ValueError.

(** safe_sparse_dot (sklearn_utils.py:102-110): a * b and np.dot(a, b); a product with a
    dense factor is an array, that has no toarray. *)
Definition safe_sparse_dot (a b : matrix) (dense_output : bool) : result matrix :=
  match a, b with
  | Dense a, Dense b => r <- dot a b ;; Ok (Dense r)
  | Sparse s, Dense b => r <- sparse_dense_dot s b ;; Ok (Dense r)
  | Dense a, Sparse s => r <- dense_sparse_dot a s ;; Ok (Dense r)
  | Sparse s, Sparse t => r <- sparse_sparse_dot s t ;; Ok (if dense_output then Dense (toarray r) else Sparse r)
  end.
