(** * Model of associate_to_window (multimodal/pairing.py:65-94).

    Frame indices have any type [I]; labels are integers.  The outcome of
    random.shuffle on bucket number [k] is the oracle [shuf k]. *)

From Coq Require Import List ZArith QArith Bool.
Import ListNotations.
From Verif Require Import Py window_model pairing_model.
Open Scope py_scope.

Section Framing.
Context {I A P : Type}.

(** The attribute obj of a window; only basic windows have one. *)
Definition get_obj {O} (w : leaf O A P) : result (option O) :=
  match w with LB b => Ok (b_obj b) | _ => Err AttributeError end.

(** list.pop() on the list at index [x] (pairing.py:90); a negative index counts
    from the end. *)
Definition pop_from (buckets : list (list I)) (x : Z) : result (I * list (list I)) :=
  k <- norm_index (length buckets) x ;;
  match nth_error buckets k with
  | None => Err IndexError
  | Some b =>
      match rev b with
      | [] => Err IndexError
      | i :: _ => Ok (i, list_set buckets k (removelast b))
      end
  end.

(** One frame (pairing.py:86-93): indexing a list with None raises TypeError,
    IndexError is replaced by ValueError. *)
Definition frame_step (labels : list (leaf Z A P)) (buckets : list (list I)) (f : leaf I A P)
  : result (leaf I A P * list (list I)) :=
  w <- get_subwindow_at labels (w_start f) ;;
  label <- get_obj w ;;
  '(i, buckets') <-
     match label with
     | None => Err TypeError
     | Some x => match pop_from buckets x with
                 | Err IndexError => Err ValueError
                 | r => r
                 end
     end ;;
  match f with
  | LB b => Ok (LB (Basic (b_start b) (b_end b) (Some i)), buckets')
  | _ => Err AttributeError
  end.

Fixpoint frame_loop (labels : list (leaf Z A P)) (buckets : list (list I)) (fs : list (leaf I A P))
  : result (list (leaf I A P)) :=
  match fs with
  | [] => Ok []
  | f :: fs' =>
      '(g, buckets') <- frame_step labels buckets f ;;
      gs <- frame_loop labels buckets' fs' ;;
      Ok (g :: gs)
  end.

(** pairing.py:65-94.  The label window is a concatenation. *)
Definition associate_to_window (shuf : nat -> list I -> list I) (labels : list (leaf Z A P))
    (frame_index : list I) (frame_labels : list Z) (frame_rate : Q)
  : result (list (leaf I A P)) :=
  grouped <- organize_indexed frame_labels None frame_index ;;
  let grouped := map (fun p => shuf (fst p) (snd p)) (enumerate grouped) in
  s <- concat_start labels ;;
  e <- concat_end labels ;;
  framed <- concat_of_frames s e frame_rate ;;
  frame_loop labels grouped framed.
End Framing.
