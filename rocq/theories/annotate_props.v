(** * Theorems on the annotations of a plot (C131). *)

From Coq Require Import List ZArith QArith Bool String Lqa.
Import ListNotations.
From Verif Require Import Py pairing_model window_model window_spec plots_model plots_spec annotate_model annotate_spec annotate_proof plots_proof.
Local Open Scope Q_scope.

(** The plot of one sentence has its transcription as title, the spans of the annotations in
    order, and each text in the middle of its span; all the texts are at the height of the top of
    the curves, and room is made for them. *)
Theorem C131_one_sentence : forall (O A P : Type) (files : wavfiles P A) (trans : O -> string) limits (w : basic O) r
    sliding labels similarities rc annotations p d,
  plot_one_sentence (A := A) (P := P) files (LB w) sliding labels similarities rc = Ok (p, d) -> b_obj w = Some r -> 0 <= snd (limits d) ->
  exists st, plot_annotated files trans limits (LB w) sliding labels similarities rc annotations = Ok (p, d, st) /\
    x_title (n_axes st) = Some (trans r) /\ x_spans (n_axes st) = map snd annotations /\
    Forall2 (centred (snd (limits d))) annotations (x_texts (n_axes st)) /\
    (annotations = [] -> x_ylim (n_axes st) = limits d) /\
    (annotations <> [] -> x_ylim (n_axes st) = (0, snd (limits d) + (3 # 100))).
Proof. exact @sentence_annotated. Qed.
Print Assumptions C131_one_sentence.

(** A window without record raises AttributeError; a plot that cannot be drawn is not annotated. *)
Theorem C131_without_record : forall (O A P : Type) (files : wavfiles P A) (trans : O -> string) limits (w : basic O)
    sliding labels similarities rc annotations p d,
  plot_one_sentence (A := A) (P := P) files (LB w) sliding labels similarities rc = Ok (p, d) -> b_obj w = None ->
  plot_annotated files trans limits (LB w) sliding labels similarities rc annotations = Err AttributeError.
Proof. exact @sentence_without. Qed.
Print Assumptions C131_without_record.

Theorem C131_error : forall (O A P : Type) (files : wavfiles P A) (trans : O -> string) limits (w : leaf O A P)
    sliding labels similarities rc annotations e,
  plot_one_sentence files w sliding labels similarities rc = Err e ->
  plot_annotated files trans limits w sliding labels similarities rc annotations = Err e.
Proof. exact @sentence_error. Qed.
Print Assumptions C131_error.

(** Whatever is drawn and annotated afterwards, every text is at the height of the top of the
    axis at the first annotation. *)
Theorem C131_one_height : forall before lim b t after,
  (forall a, In a before -> exists l, a = Draw l) ->
  forall u, In u (x_texts (n_axes (act_all new_annotated (before ++ Draw lim :: Annotate b t :: after)))) -> snd (snd u) = snd lim.
Proof. exact history. Qed.
Print Assumptions C131_one_height.

(** Without any drawing the height is that of empty axes, 1. *)
Theorem C131_undrawn : forall b t after,
  (forall u, In u (x_texts (n_axes (act_all new_annotated (Annotate b t :: after)))) -> snd (snd u) = 1) /\
  x_ylim (n_axes (act_all new_annotated [Annotate b t])) = (0, 1 + (3 # 100)).
Proof. exact undrawn. Qed.
Print Assumptions C131_undrawn.

(** So an annotation made after the plot is drawn again may be above the axis: the height is
    not computed again, and no room is made. *)
Theorem C131_redraw_refuted : forall b t lim lim' b' t', snd lim' < snd lim ->
  let st := act_all new_annotated [Draw lim; Annotate b t; Draw lim'; Annotate b' t'] in
  x_ylim (n_axes st) = lim' /\ exists u, x_texts (n_axes st) = [u] /\ fst u = t' /\ snd (x_ylim (n_axes st)) < snd (snd u).
Proof.
  intros b t lim lim' b' t' H st. split; [reflexivity|]. eexists. split; [reflexivity|]. split; [reflexivity|exact H].
Qed.
Print Assumptions C131_redraw_refuted.

(** The spans are not moved, though times are relative to the beginning of the sentence by
    default: an annotation given with the times of the recording is not on the drawn sentence, if it
    starts later than the duration of the sentence. *)
Theorem C131_absolute_refuted : forall (O A P : Type) (files : wavfiles P A) (trans : O -> string) limits (w : basic O) r
    sliding rows labels text,
  (forall row, In row rows -> row <> []) -> (List.length sliding <= List.length rows)%nat ->
  b_start w <= b_end w -> b_obj w = Some r -> (forall d, 0 <= snd (limits d)) -> b_end w - b_start w < b_start w ->
  exists p d st, plot_annotated (A := A) (P := P) files trans limits (LB w) sliding (Array rows) labels [] [(text, (b_start w, b_end w))] = Ok (p, d, st) /\
    fst (d_axis d) == 0 /\ snd (d_axis d) == b_end w - b_start w /\
    x_spans (n_axes st) = [(b_start w, b_end w)] /\ snd (d_axis d) < b_start w.
Proof.
  intros O A P files trans limits w r sliding rows labels text R L B Ob Lim H.
  destruct (@one_sentence O A P files w sliding rows labels []) as (p & d & E & idx & F); auto; [constructor|congruence|].
  cbn in F. destruct F as (_ & _ & _ & F1 & F2).
  destruct (sentence_annotated files trans limits w r sliding (Array rows) labels [] [(text, (b_start w, b_end w))] p d E Ob (Lim d)) as (st & S & _ & Sp & _).
  exists p, d, st. split; [exact S|]. cbn in F1, F2, Sp. repeat split; auto; try lra.
Qed.
Print Assumptions C131_absolute_refuted.

(** ** Examples *)
Definition ex_files : wavfiles unit unit := fun _ => Err IOError.
Definition ex_w : basic string := Basic 30 34 (Some "a dog"%string).
Definition ex_plot := plot_annotated (A := unit) (P := unit) ex_files (fun r : string => r) (fun _ => (0, 1 # 2)) (LB ex_w) [(30, 32); (31, 33)]
  (Array [[1 # 3; 1 # 2]; [1 # 4; 1 # 5]]) (Names ["dog"; "cat"]%string) [] [("dog"%string, (1, 2)); ("end"%string, (3, 4))].
Example ex_annotated : match ex_plot with
  | Ok (_, _, st) => x_spans (n_axes st) = [(1, 2); (3, 4)] /\ x_title (n_axes st) = Some "a dog"%string /\ map fst (x_texts (n_axes st)) = ["dog"; "end"]%string
  | Err _ => False end.
Proof. vm_compute. auto. Qed.
Example ex_redraw : snd (0, 1 # 2) < snd (0, 1 : Q).
Proof. reflexivity. Qed.
Example ex_history : forall a, In a [Draw (0, 1); Draw (0, 2)] -> exists l, a = Draw l.
Proof. intros a [<-|[<-|[]]]; eauto. Qed.
Example ex_absolute : b_end ex_w - b_start ex_w < b_start ex_w /\ b_start ex_w <= b_end ex_w /\ b_obj ex_w = Some "a dog"%string.
Proof. repeat split. discriminate. Qed.
