(** * Proofs about the annotations of a plot. *)

From Coq Require Import List ZArith QArith Bool String Lqa Lia.
Import ListNotations.
From Verif Require Import Py pairing_model window_model window_spec window_proof plots_model plots_spec plots_proof annotate_model annotate_spec.
Local Open Scope Q_scope.

Definition add_all (st : annotated) (l : list (string * (Q * Q))) : annotated := fold_left (fun st a => annotate st (snd a) (fst a)) l st.
Definition text_of (y : Q) (a : string * (Q * Q)) : string * (Q * Q) := (fst a, ((1 # 2) * (fst (snd a) + snd (snd a)), y)).

Lemma add_some l : forall st y, n_y st = Some y -> add_all st l =
  Annotated (Axes (x_title (n_axes st)) (x_spans (n_axes st) ++ map snd l) (x_texts (n_axes st) ++ map (text_of y) l) (x_ylim (n_axes st))) (Some y).
Proof.
  induction l as [|(t, b) l IH]; intros [[ti sp te li] yy] y E; cbn in E; subst yy.
  - cbn. now rewrite !app_nil_r.
  - unfold add_all. cbn [fold_left]. change (fold_left _ l ?s) with (add_all s l). rewrite (IH _ y); [|reflexivity]. cbn. now rewrite <- !app_assoc.
Qed.
Lemma set_ybound_up x y : 0 <= y + (3 # 100) -> x_ylim (set_ybound x 0 (y + (3 # 100))) = (0, y + (3 # 100)).
Proof. intros H. cbn [set_ybound x_ylim]. destruct (Qlt_bool_spec (y + (3 # 100)) 0); [lra|reflexivity]. Qed.
Lemma add_none st l : n_y st = None -> l <> [] -> 0 <= snd (x_ylim (n_axes st)) + (3 # 100) ->
  let y := snd (x_ylim (n_axes st)) in add_all st l =
  Annotated (Axes (x_title (n_axes st)) (x_spans (n_axes st) ++ map snd l) (x_texts (n_axes st) ++ map (text_of y) l) (0, y + (3 # 100))) (Some y).
Proof.
  intros E N H y. destruct l as [|(t, b) l]; [contradiction|]. unfold add_all. cbn [fold_left]. change (fold_left _ l ?s) with (add_all s l).
  destruct st as [[ti sp te li] yy]. cbn in E, H, y. subst yy.
  rewrite (add_some l _ y); [|reflexivity]. subst y. cbn [annotate n_axes n_y x_ylim x_title x_spans x_texts fst snd].
  rewrite set_ybound_up by exact H. cbn. now rewrite <- !app_assoc.
Qed.
Lemma text_centred y a : centred y a (text_of y a).
Proof. destruct a as (t, (b, e)). repeat split; cbn; try reflexivity. ring. Qed.
Lemma texts_centred y l : Forall2 (centred y) l (map (text_of y) l).
Proof. induction l; cbn; constructor; auto using text_centred. Qed.

Section Sentence.
Context {O A P : Type}.
Variable files : wavfiles P A.

Lemma sentence_annotated trans limits (b : basic O) r sliding labels similarities rc annotations p d :
  plot_one_sentence (A := A) (P := P) files (LB b) sliding labels similarities rc = Ok (p, d) -> b_obj b = Some r -> 0 <= snd (limits d) ->
  exists st, plot_annotated files trans limits (LB b) sliding labels similarities rc annotations = Ok (p, d, st) /\
    x_title (n_axes st) = Some (trans r) /\ x_spans (n_axes st) = map snd annotations /\
    Forall2 (centred (snd (limits d))) annotations (x_texts (n_axes st)) /\
    (annotations = [] -> x_ylim (n_axes st) = limits d) /\
    (annotations <> [] -> x_ylim (n_axes st) = (0, snd (limits d) + (3 # 100))).
Proof.
  intros E R H. unfold plot_annotated. rewrite E. cbn [bind]. rewrite R. cbn [bind].
  eexists. split; [reflexivity|]. set (st := set_title _ _). change (fold_left _ annotations st) with (add_all st annotations).
  destruct annotations as [|a l].
  - cbn. repeat split; auto. intros X. contradiction.
  - rewrite add_none; [|reflexivity|discriminate|cbn; lra]. cbn [n_axes x_title x_spans x_texts x_ylim]. subst st. cbn [set_title redraw new_annotated n_axes x_title x_spans x_texts x_ylim n_y].
    repeat split; auto.
    + apply (texts_centred _ (a :: l)).
    + discriminate.
Qed.
Lemma sentence_without trans limits (b : basic O) sliding labels similarities rc annotations p d :
  plot_one_sentence (A := A) (P := P) files (LB b) sliding labels similarities rc = Ok (p, d) -> b_obj b = None ->
  plot_annotated files trans limits (LB b) sliding labels similarities rc annotations = Err AttributeError.
Proof. intros E R. unfold plot_annotated. rewrite E. cbn [bind]. now rewrite R. Qed.
Lemma sentence_error trans limits (w : leaf O A P) sliding labels similarities rc annotations e :
  plot_one_sentence files w sliding labels similarities rc = Err e ->
  plot_annotated files trans limits w sliding labels similarities rc annotations = Err e.
Proof. intros E. unfold plot_annotated. now rewrite E. Qed.
End Sentence.

(** ** Histories *)
Lemma act_app l1 l2 st : act_all st (l1 ++ l2) = act_all (act_all st l1) l2.
Proof. apply fold_left_app. Qed.
Lemma draws l : forall st, (forall a, In a l -> exists lim, a = Draw lim) -> n_y (act_all st l) = n_y st.
Proof.
  induction l as [|a l IH]; intros st N; [auto|]. destruct (N a (or_introl eq_refl)) as (lim & ->).
  change (act_all st (Draw lim :: l)) with (act_all (redraw st lim) l). rewrite IH; [reflexivity|]. intros b B. apply N. now right.
Qed.
Lemma same_height l : forall st y, n_y st = Some y -> (forall t, In t (x_texts (n_axes st)) -> snd (snd t) = y) ->
  n_y (act_all st l) = Some y /\ forall t, In t (x_texts (n_axes (act_all st l))) -> snd (snd t) = y.
Proof.
  induction l as [|a l IH]; intros st y E H; [auto|]. cbn [act_all fold_left]. change (fold_left act l ?s) with (act_all s l). apply IH.
  - destruct a as [lim|b t]; [exact E|]. unfold act, annotate. now rewrite E.
  - destruct a as [lim|b t]; [intros t []|]. unfold act, annotate. rewrite E. cbn. intros u U. apply in_app_iff in U. destruct U as [U|[<-|[]]]; auto.
Qed.
Lemma history before lim b t after : (forall a, In a before -> exists l, a = Draw l) ->
  forall u, In u (x_texts (n_axes (act_all new_annotated (before ++ Draw lim :: Annotate b t :: after)))) -> snd (snd u) = snd lim.
Proof.
  intros N. rewrite act_app. change (act_all ?s (Draw ?x :: ?a :: ?l)) with (act_all (act (redraw s x) a) l).
  pose proof (draws before new_annotated N) as E. cbn in E.
  apply same_height; unfold act, annotate; cbn [redraw n_y]; rewrite E; [reflexivity|].
  cbn. intros u [<-|[]]. reflexivity.
Qed.
Lemma redrawn st lim l y : n_y st = Some y ->
  let st' := add_all (redraw st lim) l in
  x_ylim (n_axes st') = lim /\ x_spans (n_axes st') = map snd l /\ Forall2 (centred y) l (x_texts (n_axes st')).
Proof.
  intros E st'. subst st'. rewrite (add_some _ _ y) by exact E. cbn. auto using texts_centred.
Qed.
Lemma undrawn b t after : (forall u, In u (x_texts (n_axes (act_all new_annotated (Annotate b t :: after)))) -> snd (snd u) = 1) /\
  x_ylim (n_axes (act_all new_annotated [Annotate b t])) = (0, 1 + (3 # 100)).
Proof.
  split; [|reflexivity]. change (act_all new_annotated (Annotate b t :: after)) with (act_all (annotate new_annotated b t) after).
  apply same_height; [reflexivity|]. cbn. intros u [<-|[]]. reflexivity.
Qed.
