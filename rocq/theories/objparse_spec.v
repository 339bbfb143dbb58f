(** * What is expected of the objects dataset, once parsed (C108). *)

From Coq Require Import List ZArith Arith Bool String Reals Sorted.
Import ListNotations.
From Verif Require Import Py nd_model objects_model objects_spec.
Local Open Scope string_scope.

(** The numbers that have a name. *)
Definition table : list (Z * string) :=
  [(0, "hand"); (1, "blue octopus"); (2, "red pooh"); (3, "pink octopus"); (4, "yellow car"); (5, "blue and yellow whale");
   (6, "blue-eyes-green-yellow"); (7, "orange fish"); (8, "brown and white squirrel"); (9, "mouse?"); (10, "dark green and white cube");
   (11, "blue on red wagon"); (13, "white bottle"); (14, "ketchup bottle"); (16, "donkey"); (20, "pink moose"); (21, "orangina can");
   (25, "multicolor ball"); (26, "giraffe"); (27, "green car"); (28, "red hammer"); (29, "blue rake"); (30, "green spade"); (32, "light green box")]%Z.
(** The objects that are kept by default. *)
Definition usual (l : Z) : Prop := (1 <= l <= 10)%Z.
(** The file of the directory of the objects. *)
Definition in_objects (home f : string) : string := home ++ "/work/data/db/objects/" ++ f.

(** There is something at path [p]: a saved database or, as [other] tells, anything else. *)
Definition taken (other : string -> bool) (k : odisk) (p : string) : Prop :=
  (exists x, dict_get String.eqb (d_json k) p = Some x) \/ (exists x, dict_get String.eqb (d_mat k) p = Some x) \/ other p = true.

(** [t] is the name of feature [k]. *)
Definition position (t : string) (k : nat) : Prop :=
  nth_error ["SURF"; "color"; "SURF_pairs"; "color_pairs"; "color_triplets"] k = Some t.
(** [M] is the matrix of feature [t] computed from the frames and vectors [r]. *)
Definition feature_of (r : list (frame * list (list (list R)))) (t : string) (M : nd) : Prop := exists k, position t k /\ computed r k M.
(** The database of the frames and vectors [r]. *)
Definition parsed (r : list (frame * list (list (list R)))) (d : object_db) : Prop :=
  o_frames d = map fst r /\
  (forall f l n, f_label f = l -> In (l, n) table -> name_of d f n) /\
  (forall f l n, f_label f = l -> (0 <= l)%Z -> name_of d f n -> In (l, n) table) /\
  (forall f, (0 <= f_label f)%Z -> ((exists o, entry_of d f o) <-> (f_label f <= 32)%Z)) /\
  forall features, Forall (fun t => exists k, position t k) features ->
    exists Ms, histograms d features Ms /\ Forall2 (feature_of r) features Ms.
