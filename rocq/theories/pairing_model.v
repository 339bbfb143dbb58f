(** * Model of multimodal/pairing.py (except associate_to_window, which is in
    [framing_model] because it depends on the window classes).

    Iteration order of a set and the outcome of random.shuffle are oracles:
    [names] arguments are the list obtained from list(set(...)) (shuffled or
    not), and [shuf] arguments give the outcome of each call to random.shuffle.
    The theorems quantify over all of them. *)

From Coq Require Import List ZArith Arith Bool.
Import ListNotations.
From Verif Require Import Py.
Open Scope py_scope.

Section Pairing.
Context {L : Type} (eqb : L -> L -> bool).

(** The dictionary (n, i) for i, n in enumerate(names) (pairing.py:15); a later
    duplicate key overrides an earlier one. *)
Definition inversion_dict (names : list L) : list (L * nat) :=
  fold_left (fun d p => dict_set eqb d (snd p) (fst p)) (enumerate names) [].

(** named_labels_to_range (pairing.py:11-16), [names] being the value of the
    local variable after the optional shuffle. *)
Definition named_labels_to_range (names sample_labels : list L)
  : result (list L * list nat) :=
  ls <- mapM (fun n => match dict_get eqb (inversion_dict names) n with
                       | Some i => Ok i | None => Err KeyError end) sample_labels ;;
  Ok (names, ls).

(** Number of distinct values: len(set(l)). *)
Fixpoint count_distinct (l : list L) : nat :=
  match l with
  | [] => 0
  | x :: l' => if existsb (eqb x) l' then count_distinct l' else S (count_distinct l')
  end.
End Pairing.

Section Organize.
Context {I : Type}.

(** The loop "for i, x in enum: buckets[x].append(i)" (pairing.py:29-30). *)
Definition bucket_step (buckets : list (list I)) (p : I * Z) : result (list (list I)) :=
  let '(i, x) := p in
  k <- norm_index (length buckets) x ;;
  match nth_error buckets k with
  | Some b => Ok (list_set buckets k (b ++ [i]))
  | None => Err IndexError
  end.

(** organize_by_values (pairing.py:24-31) with explicit indices; [indices] is
    range(len(l)) when the argument is None (see below). *)
Definition organize_indexed (l : list Z) (nb_values : option nat) (indices : list I)
  : result (list (list I)) :=
  let n := match nb_values with Some n => n | None => count_distinct Z.eqb l end in
  foldM bucket_step (combine indices l) (repeat [] n).
End Organize.

(** organize_by_values with indices=None: enumerate(l). *)
Definition organize_by_values (l : list Z) (nb_values : option nat)
  : result (list (list nat)) :=
  organize_indexed l nb_values (seq 0 (length l)).

(** associate (pairing.py:34-36); tuples are lists with one entry per
    modality. *)
Definition associate {I} (l : list (list (list I))) : list (list (list I)) :=
  map (fun buckets_tuple => zip_star buckets_tuple) (zip_star l).

(** flatten (pairing.py:39-40): sum(l, []). *)
Definition flatten {X} (l : list (list X)) : list X := fold_left (fun a x => a ++ x) l [].

(** enumerate-and-map, for the nested shuffling loops (pairing.py:56-58): each
    call of random.shuffle is identified by (modality, label). *)
Definition shuffle_all {I} (shuf : nat -> nat -> list I -> list I)
    (by_labels : list (list (list I))) : list (list (list I)) :=
  map (fun p => map (fun q => shuf (fst p) (fst q) (snd q)) (enumerate (snd p)))
      (enumerate by_labels).

(** associate_samples (pairing.py:43-62).  [orders] gives for each modality the
    list of names used.  Unpacking the empty list of associate_labels raises
    ValueError. *)
Definition associate_samples {L} (eqb : L -> L -> bool)
    (orders : list (list L)) (shuf : nat -> nat -> list nat -> list nat)
    (labels_by_modality : list (list L))
  : result (list (list L) * list nat * list (list nat)) :=
  pairs <- mapM (fun p => named_labels_to_range eqb (fst p) (snd p))
                (combine orders labels_by_modality) ;;
  match pairs with
  | [] => Err ValueError
  | (names0, _) :: _ =>
      let names := map fst pairs in
      let new_labels := map snd pairs in
      let n_labels := length names0 in
      py_assert (forallb (fun l => length l =? n_labels) names) ;;;
      by_labels <- mapM (fun l => organize_by_values (map Z.of_nat l) (Some n_labels))
                        new_labels ;;
      let associated := associate (shuffle_all shuf by_labels) in
      let labels := map (fun p => repeat (fst p) (length (snd p))) (enumerate associated) in
      Ok (names, flatten labels, flatten associated)
  end.
