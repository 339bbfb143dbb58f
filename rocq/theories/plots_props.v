(** * Theorems about the plots of similarities along time. *)

From Coq Require Import List ZArith QArith Bool String Sorted.
Import ListNotations.
From Verif Require Import Py window_model window_spec plots_model plots_spec plots_proof.
Local Open Scope Q_scope.

(** ** C90: each point is drawn at the middle of the window of which it is the similarity.
    [a] and [b] are any bounds of the axis: those of the constructor (0 and 20), those set
    by the sliders, those of one sentence. *)
Theorem C90_points : forall (O A P : Type) (files : wavfiles P A) records sliding rows labels (rc : list (string * bool)) t (p : @score_plot O A P) a b d,
  NoDup (map fst rc) ->
  new_score_plot records sliding (Array rows) labels (Some rc) t = Ok p -> draw files (with_current p a b) = Ok d ->
  exists idx, let o := origin (chosen rc "use_relative_time" false) a in
    visible a b sliding idx /\
    Forall2 (fun i x => exists w, nth_error sliding i = Some w /\ x == middle w - o) idx (d_times d) /\
    Forall2 (fun i row => nth_error rows i = Some row) idx (d_rows d) /\
    Forall2 (fun i s => exists w row, nth_error sliding i = Some w /\ nth_error rows i = Some row /\
               clipped a b w (fst (fst s) + o, snd (fst s) + o) /\ largest (snd s) row) idx (d_segments d) /\
    fst (d_axis d) == a - o /\ snd (d_axis d) == b - o /\ d_legend d = labels.
Proof. exact @points. Qed.
Print Assumptions C90_points.

(** Windows without row are refused; rows without window are ignored. *)
Theorem C90_sizes : forall (O A P : Type) (records : list (leaf O A P)) sliding rows labels rc t,
  ((length rows < length sliding)%nat -> new_score_plot records sliding (Array rows) labels (Some rc) t = Err IndexError) /\
  ((length sliding <= length rows)%nat -> exists p, new_score_plot records sliding (Array rows) labels (Some rc) t = Ok p).
Proof. exact (fun O A P r s x l rc t => conj (too_few r s x l (Some rc) t) (made r s x l rc t)). Qed.
Print Assumptions C90_sizes.

(** plot_one_sentence shows the windows whose middle is in the sentence, with times from
    its beginning. *)
Theorem C90_one_sentence : forall (O A P : Type) (files : wavfiles P A) (w : basic O) sliding rows labels (rc : list (string * bool)),
  NoDup (map fst rc) -> (forall row, In row rows -> row <> []) -> (length sliding <= length rows)%nat ->
  b_start w <= b_end w -> b_obj w <> None ->
  exists p d, plot_one_sentence files (LB w) sliding (Array rows) labels rc = Ok (p, d) /\
  exists idx, let o := origin (chosen rc "use_relative_time" true) (b_start w) in
    visible (b_start w) (b_end w) sliding idx /\
    Forall2 (fun i x => exists w, nth_error sliding i = Some w /\ x == middle w - o) idx (d_times d) /\
    Forall2 (fun i row => nth_error rows i = Some row) idx (d_rows d) /\
    fst (d_axis d) == b_start w - o /\ snd (d_axis d) == b_end w - o.
Proof. exact @one_sentence. Qed.
Print Assumptions C90_one_sentence.

(** ** C91: any part of the recordings can be drawn, with the sentences it contains. *)
Theorem C91_drawn : forall (O A P : Type) (files : wavfiles P A) (bs : list (basic O)) lo hi sliding rows labels (rc : list (string * bool)) t
    (p : @score_plot O A P) a b,
  NoDup (map fst rc) -> (forall row, In row rows -> row <> []) -> recordings bs lo hi ->
  new_score_plot (map LB bs) sliding (Array rows) labels (Some rc) t = Ok p -> lo <= a -> a <= b -> b <= hi ->
  exists d i pieces, draw files (with_current p a b) = Ok d /\ let o := origin (chosen rc "use_relative_time" false) a in
    cut bs a b i pieces /\
    (if chosen rc "print_sentences" true
     then sentences_of (fun r => match t with None => true | Some f => f r end) o (segment bs i (i + length pieces)) pieces (d_sentences d)
     else d_sentences d = []) /\
    (if chosen rc "draw_sentence_boundaries" true
     then Forall2 (fun piece x => x == snd piece - o) pieces (d_lines d)
     else d_lines d = []).
Proof. exact @drawn. Qed.
Print Assumptions C91_drawn.

(** A part that goes beyond the recordings cannot. *)
Theorem C91_outside : forall (O A P : Type) (files : wavfiles P A) (bs : list (basic O)) lo hi sliding rows labels (rc : list (string * bool)) t
    (p : @score_plot O A P) a b,
  NoDup (map fst rc) -> (forall row, In row rows -> row <> []) -> recordings bs lo hi ->
  new_score_plot (map LB bs) sliding (Array rows) labels (Some rc) t = Ok p -> ~ (within lo hi a /\ within lo hi b) ->
  draw files (with_current p a b) = Err TimeOutOfBound.
Proof. exact @outside. Qed.
Print Assumptions C91_outside.

(** InteractivePlot is built when the recordings last at least 20 seconds, and redrawn as
    long as the sliders stay inside. *)
Theorem C91_interactive : forall (O A P : Type) (files : wavfiles P A) (bs : list (basic O)) hi sliding rows labels (rc : list (string * bool)) t,
  NoDup (map fst rc) -> (forall row, In row rows -> row <> []) -> recordings bs 0 hi -> (length sliding <= length rows)%nat -> 20 <= hi ->
  exists p d, new_interactive files (map LB bs) sliding (Array rows) labels t (Some rc) = Ok (p, d) /\
    new_score_plot (map LB bs) sliding (Array rows) labels (Some rc) t = Ok p /\
    forall start width, 0 <= start -> 0 <= width -> start + width <= hi -> exists d', snd (update files p start width) = Ok d'.
Proof. exact @interactive_made. Qed.
Print Assumptions C91_interactive.

(** It cannot be built for shorter recordings, although nothing is wrong with them. *)
Theorem C91_short_refuted : forall (O A P : Type) (files : wavfiles P A) (bs : list (basic O)) hi sliding rows labels (rc : list (string * bool)) t,
  NoDup (map fst rc) -> (forall row, In row rows -> row <> []) -> recordings bs 0 hi -> (length sliding <= length rows)%nat -> hi < 20 ->
  new_interactive files (map LB bs) sliding (Array rows) labels t (Some rc) = Err TimeOutOfBound.
Proof. exact @interactive_short. Qed.
Print Assumptions C91_short_refuted.

(** The sliders, that go up to the end of the recordings for the start, can be moved where
    redrawing raises. *)
Theorem C91_slider_refuted : forall (O A P : Type) (files : wavfiles P A) (bs : list (basic O)) hi sliding rows labels (rc : list (string * bool)) t
    (p : @score_plot O A P) start width,
  NoDup (map fst rc) -> (forall row, In row rows -> row <> []) -> recordings bs 0 hi ->
  new_score_plot (map LB bs) sliding (Array rows) labels (Some rc) t = Ok p -> hi < start + width ->
  snd (update files p start width) = Err TimeOutOfBound.
Proof. exact @slider_fails. Qed.
Print Assumptions C91_slider_refuted.
(** The keys: with 'right' the shown part starts in the middle of the one before, with
    'left' the one before starts in the middle of it; other keys do nothing. *)
Theorem C91_keys : forall (start width : Q),
  (exists s, on_key "right" start width = Some s /\ 2 * s == start + (start + width))%Q /\
  (exists s, on_key "left" start width = Some s /\ 2 * start == s + (s + width))%Q /\
  forall key, key <> "right"%string -> key <> "left"%string -> on_key key start width = None.
Proof. exact keys_move. Qed.
Print Assumptions C91_keys.
Example C91_ex_keys : on_key "left" 7 4 = Some (7 + - (1) * (1 # 2) * 4)%Q /\ (7 + - (1) * (1 # 2) * 4 == 5)%Q.
Proof. split; reflexivity. Qed.


(** ** C92: the parameters example_labels and similarities have each other's names. *)
Theorem C92_names_refuted : forall (O A P : Type) (files : wavfiles P A) (records : list (leaf O A P)) sliding rows names rc t,
  sliding <> [] -> new_interactive files records sliding (Names names) (Array rows) t rc = Err TypeError.
Proof. exact @named. Qed.
Print Assumptions C92_names_refuted.

Theorem C92_sentence_names_refuted : forall (O A P : Type) (files : wavfiles P A) (w : leaf O A P) sliding rows names rc,
  sliding <> [] -> plot_one_sentence files w sliding (Names names) (Array rows) rc = Err TypeError.
Proof. exact @sentence_named. Qed.
Print Assumptions C92_sentence_names_refuted.

(** Nor does InteractivePlot work with its default plot_rc. *)
Theorem C92_default_refuted : forall (O A P : Type) (files : wavfiles P A) (records : list (leaf O A P)) sliding rows labels t,
  (length sliding <= length rows)%nat -> new_interactive files records sliding (Array rows) labels t None = Err TypeError.
Proof. exact @default_rc_fails. Qed.
Print Assumptions C92_default_refuted.

(** ** A case: two records of 15 seconds, four windows. *)
Definition ex_files : wavfiles unit unit := fun _ => Err IOError.
Definition ex_bs : list (basic nat) := [Basic 0 15 (Some 7%nat); Basic 15 30 (Some 8%nat)].
Definition ex_sliding : list (Q * Q) := [(0, 10); (8, 18); (16, 26); (20, 30)].
Definition ex_rows : list (list Q) := [[1; 2]; [4; 3]; [5; 6]; [8; 7]].
Definition ex_test (r : nat) : bool := Nat.eqb r 8.

Example C91_ex_recordings : recordings ex_bs 0 30.
Proof. split; [discriminate|]. split; [cbn; repeat split; discriminate|]. intros b [<-|[<-|[]]]; discriminate. Qed.
Example C90_ex_drawn : match new_score_plot (map (@LB nat unit unit) ex_bs) ex_sliding (Array ex_rows) (Names ["a"; "b"]%string) (Some [("use_relative_time", true)]%string) (Some ex_test) with
  | Ok p => match draw ex_files (with_current p 10 24) with
            | Ok d => (map Qred (d_times d), d_rows d, map (fun s => snd (fst s)) (d_sentences d), map snd (d_sentences d), map Qred (d_lines d)) =
                      ([3; 11], [[4; 3]; [5; 6]], [7; 8]%nat, [false; true], [5; 14])
            | Err _ => False end
  | Err _ => False end.
Proof. reflexivity. Qed.
Example C91_ex_short : new_interactive ex_files (map (@LB nat unit unit) [Basic 0 15 (Some 7%nat)]) ex_sliding (Array ex_rows) (Names ["a"; "b"]%string) None (Some []) = Err TimeOutOfBound.
Proof. reflexivity. Qed.
