(** * Model of concatenations that contain concatenations (multimodal/lib/window.py:264-329),
    and of the wav files that windows are written to (lines 191-192 and 338-342).

    The windows of window_model.v are the leaves. As there, times are exact rationals and
    windows are values that do not change. *)

From Coq Require Import List ZArith QArith Bool.
Import ListNotations.
From Verif Require Import Py window_model.
Open Scope py_scope.
Local Open Scope Q_scope.

Inductive tree (O A P : Type) := TLeaf (w : leaf O A P) | TCat (ws : list (tree O A P)).
Arguments TLeaf {O A P} _.
Arguments TCat {O A P} _.

(** A list of calls, in order; the first exception ends it. *)
Definition sequence {X} (l : list (result X)) : result (list X) := mapM (fun x => x) l.

Section Nested.
Context {O A P : Type} (files : wavfiles P A).
Notation tree := (tree O A P).

(** absolute_start and absolute_end (window.py:278-284); __init__ refuses an empty list. *)
Fixpoint t_start (w : tree) : result Q :=
  match w with
  | TLeaf l => Ok (w_start l)
  | TCat ws => match ws with [] => Err IndexError | w0 :: _ => t_start w0 end
  end.
Fixpoint t_end (w : tree) : result Q :=
  match w with
  | TLeaf l => Ok (w_end l)
  | TCat ws => (fix at_last (ws : list tree) : result Q :=
                  match ws with [] => Err IndexError | [w1] => t_end w1 | _ :: ws' => at_last ws' end) ws
  end.

(** __init__ (window.py:267-276). *)
Definition new_cat (ws : list tree) : result tree :=
  if (length ws <? 1)%nat then Err ValueError
  else
    starts <- mapM t_start (slice_from ws 1) ;;
    ends <- mapM t_end ws ;;
    if Qlt_bool TOL (Qmax_list (map (fun p => Qabs_diff (fst p) (snd p)) (combine (slice_to ends (-1)) starts)))
    then Err ValueError else Ok (TCat ws).

(** move (window.py:286-288). *)
Fixpoint t_move (w : tree) (delta : Q) : tree :=
  match w with TLeaf l => TLeaf (move l delta) | TCat ws => TCat (map (fun w => t_move w delta) ws) end.

(** duration (window.py:65-66). *)
Definition t_duration (w : tree) : result Q := e <- t_end w ;; s <- t_start w ;; Ok (e - s).

(** copy (window.py:305-306). *)
Fixpoint t_copy (w : tree) : result tree :=
  match w with
  | TLeaf l => l' <- copy files l ;; Ok (TLeaf l')
  | TCat ws => ws' <- sequence (map t_copy ws) ;; new_cat ws'
  end.

(** to_array_window (window.py:300-303). *)
Fixpoint t_to_array (w : tree) : result (arrw A) :=
  match w with
  | TLeaf l => to_array_window files l
  | TCat ws => l <- sequence (map t_to_array ws) ;; array_concatenate l
  end.

(** _get_file_index_from_time (window.py:314-316). *)
Definition t_index (ws : list tree) (t : Q) : result nat :=
  s <- t_start (TCat ws) ;;
  e <- t_end (TCat ws) ;;
  check_time s e t ;;;
  ends <- mapM t_end ws ;;
  Ok (bisect_left ends t).

(** How deep concatenations are nested: the depth of the recursion of get_subwindow. *)
Fixpoint depth (w : tree) : nat :=
  match w with TLeaf _ => 0 | TCat ws => S (list_max (map depth ws)) end.

(** get_subwindow (window.py:290-298). [fuel] is as large as [depth] says; the method calls
    itself on copies of the windows, which have the same depth. *)
Fixpoint t_sub (fuel : nat) (w : tree) (ts te : Q) : result tree :=
  match w with
  | TLeaf l => l' <- get_subwindow files l ts te ;; Ok (TLeaf l')
  | TCat ws =>
      match fuel with
      | 0%nat => Err Timeout
      | S fuel =>
          i_start <- t_index ws ts ;;
          i_end <- t_index ws te ;;
          new <- mapM t_copy (slice ws (Z.of_nat i_start) (1 + Z.of_nat i_end)) ;;
          w0 <- py_nth new 0 ;;
          e0 <- t_end w0 ;;
          w0' <- t_sub fuel w0 ts e0 ;;
          new <- py_set new 0 w0' ;;
          w1 <- py_nth new (-1) ;;
          s1 <- t_start w1 ;;
          w1' <- t_sub fuel w1 s1 te ;;
          new <- py_set new (-1) w1' ;;
          new_cat new
      end
  end.
Definition t_get_subwindow (w : tree) (ts te : Q) : result tree := t_sub (depth w) w ts te.

(** ** Wav files.  [same] tells whether two paths are the same file. *)
(** scipy.io.wavfile.write: later reads of the path give what was written. *)
Definition wav_write (same : P -> P -> bool) (path : P) (rate : Q) (samples : list A) : wavfiles P A :=
  fun p => if same p path then Ok (rate, samples) else files p.
(** ArrayTimeWindow.write_as_wav (window.py:191-192). *)
Definition write_as_wav (same : P -> P -> bool) (w : arrw A) (path : P) : wavfiles P A :=
  wav_write same path (a_rate w) (a_data w).
(** save_wav (window.py:338-342), with the file that is written; the windows may be
    concatenations: only sampled windows have a rate, and only concatenations have windows.
    The rate is any number here; a wav file holds an integer. *)
Definition t_save_wav (same : P -> P -> bool) (path : P) (w : tree) : result (wavfiles P A) :=
  match w with
  | TLeaf _ => Err AttributeError
  | TCat ws =>
      w0 <- py_nth ws 0 ;;
      rate <- match w0 with
              | TCat _ => Err AttributeError
              | TLeaf (LB _) => Err AttributeError
              | TLeaf (LA a) => Ok (a_rate a)
              | TLeaf (LW v) => Ok (v_rate v)
              end ;;
      a <- t_to_array w ;;
      Ok (wav_write same path rate (a_data a))
  end.
End Nested.
