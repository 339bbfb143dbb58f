(** * Lemmas about the figures and tables: what is drawn and printed. *)

From Coq Require Import List ZArith Reals Bool Arith String QArith Qreals Lia Lra.
Import ListNotations.
From Verif Require Import Py Py_proof nd_model nd_spec logger_model logger_spec logger_load experiment_model experiment_spec experiment_proof
  figures_model figures_spec figures_proof.
From Verif Require pairing_proof.
Local Open Scope nat_scope.

(** ** Lists *)
Lemma mapM_each {A B} (f : A -> result B) (P : A -> B -> Prop) l :
  (forall a, In a l -> exists b, f a = Ok b /\ P a b) -> exists ys, mapM f l = Ok ys /\ Forall2 P l ys.
Proof.
  induction l as [|a l IH]; intro H; [exists []; split; [reflexivity|constructor]|].
  destruct (H a (or_introl eq_refl)) as (b & E & Pb). destruct IH as (ys & EY & FY); [intros; apply H; now right|].
  exists (b :: ys). cbn [mapM]. rewrite E. cbn [bind]. rewrite EY. cbn [bind]. split; [reflexivity|constructor; assumption].
Qed.
Lemma f2_nth {A B} (P : A -> B -> Prop) l l' : Forall2 P l l' ->
  forall i a, nth_error l i = Some a -> exists b, nth_error l' i = Some b /\ P a b.
Proof.
  induction 1 as [|x y l l' Pxy F IH]; intros [|i] a E; try discriminate; cbn in *; [|now apply IH]. exists y. split; [reflexivity|congruence].
Qed.
Lemma f2_len {A B} (P : A -> B -> Prop) l l' : Forall2 P l l' -> List.length l = List.length l'.
Proof. induction 1; cbn; congruence. Qed.
Lemma f2_of_nth {A B} (P : A -> B -> Prop) l : forall l', List.length l = List.length l' ->
  (forall i a b, nth_error l i = Some a -> nth_error l' i = Some b -> P a b) -> Forall2 P l l'.
Proof.
  induction l as [|a l IH]; intros [|b l'] L H; try discriminate; constructor; [exact (H 0 a b eq_refl eq_refl)|]. apply IH; [cbn in L; lia|].
  intros i. exact (H (S i)).
Qed.
Lemma mapM_first_err {A B} (f : A -> result B) (e : exn) l : (forall a, In a l -> (exists b, f a = Ok b) \/ f a = Err e) ->
  (exists a, In a l /\ f a = Err e) -> mapM f l = Err e.
Proof.
  induction l as [|a l IH]; intros H (x & I & E); [destruct I|]. cbn [mapM]. destruct (H a (or_introl eq_refl)) as [[b Eb]|Eb]; rewrite Eb; cbn [bind]; [|reflexivity].
  rewrite IH; [reflexivity|intros; apply H; now right|]. destruct I as [->|I]; [congruence|]. eauto.
Qed.

(** ** Curves *)
Definition curve_key (a b : string) : string := ("score_" ++ a ++ "2" ++ b)%string.
Lemma curve_values w loggers a b (ks : list nat) (P : nat -> list val -> Prop) :
  (forall i k, nth_error ks i = Some k -> exists lg vs, nth_error loggers i = Some lg /\ get_values w lg (curve_key a b) = Ok vs /\ P i vs) ->
  exists vss, mapM (fun ik => bind (py_nth loggers (Z.of_nat (fst ik))) (fun lg =>
                         get_values w lg ("score_" ++ join [a] ++ "2" ++ join [b])%string)) (enumerate ks) = Ok vss /\
    List.length vss = List.length ks /\ forall i vs, nth_error vss i = Some vs -> P i vs.
Proof.
  intro H. destruct (mapM_each (fun ik => bind (py_nth loggers (Z.of_nat (fst ik))) (fun lg =>
                         get_values w lg ("score_" ++ join [a] ++ "2" ++ join [b])%string)) (fun ik vs => P (fst ik) vs) (enumerate ks)) as (vss & E & F).
  - intros [i k] I. apply In_nth_error in I as [j Ej]. rewrite pairing_proof.nth_error_enumerate in Ej. destruct (nth_error ks j) as [k'|] eqn:Ek; [|discriminate].
    cbn in Ej. assert (j = i) by congruence. subst j. destruct (H i k' Ek) as (lg & vs & El & Ev & Pv). exists vs. cbn [fst]. rewrite py_nth_nat, El. cbn [bind].
    split; [exact Ev|exact Pv].
  - exists vss. split; [exact E|]. pose proof (f2_len _ _ _ F) as L. unfold enumerate in L. rewrite combine_length, seq_length in L.
    split; [lia|]. intros i vs Ev. assert (Hi : i < List.length ks) by (assert (X : nth_error vss i <> None) by congruence; apply nth_error_Some in X; lia).
    destruct (nth_error ks i) as [k|] eqn:Ek; [|apply nth_error_None in Ek; lia].
    destruct (f2_nth _ _ _ F i (i, k)) as (vs' & Ev' & Pv); [now rewrite pairing_proof.nth_error_enumerate, Ek|]. cbn in Pv. congruence.
Qed.
Lemma rectangular_iff {A} (y : list (list A)) : rectangular y = true <-> y <> [] /\ exists n, forall r, In r y -> List.length r = n.
Proof.
  destruct y as [|r y]; cbn; [split; [discriminate|intros [N _]; congruence]|]. rewrite forallb_forall. split.
  - intro H. split; [discriminate|]. exists (List.length r). intros r' [<-|I]; [reflexivity|]. specialize (H r' I). now apply Nat.eqb_eq in H.
  - intros [_ (n & H)] r' I. apply Nat.eqb_eq. rewrite (H r'), (H r); auto.
Qed.
Lemma plot_one_ok w loggers a b ks metric st bars n xss c : get_color_for_modalities [a] [b] true = Ok c -> ks <> [] -> n <> 0 ->
  List.length xss = List.length ks ->
  (forall i xs, nth_error xss i = Some xs -> List.length xs = n /\ exists lg, nth_error loggers i = Some lg /\ scored w lg (curve_key a b) xs) ->
  plot_one_curve w loggers ([a], [b]) ks metric st bars = Ok (Curve (combine ks (map np_mean xss)) (map np_std xss) bars c st).
Proof.
  intros Hc Nk Nn L H. unfold plot_one_curve. cbn [fst snd].
  destruct (curve_values w loggers a b ks (fun i vs => exists xs, nth_error xss i = Some xs /\ List.length vs = n /\ mapM number vs = Ok xs)) as (vss & -> & Lv & Hv).
  { intros i k Ek. destruct (nth_error xss i) as [xs|] eqn:Ex; [|apply nth_error_None in Ex; assert (Z : nth_error ks i <> None) by congruence; apply nth_error_Some in Z; lia].
    destruct (H i xs Ex) as (Lx & lg & El & S). destruct (scored_get _ _ _ _ S) as (vs & E1 & E2 & E3). exists lg, vs. repeat split; auto. exists xs. repeat split; auto; congruence. }
  cbn [bind]. rewrite Hc. cbn [bind]. unfold plot_var.
  assert (R : rectangular vss = true). { apply rectangular_iff. split; [destruct vss, ks; cbn in *; congruence|]. exists n. intros r I. apply In_nth_error in I as [i I]. destruct (Hv i r I) as (xs & _ & X & _). exact X. }
  rewrite R. cbn [bind].
  assert (M : mapM (mapM number) vss = Ok xss). { apply mapM_ok. apply f2_of_nth; [congruence|]. intros i vs xs E1 E2. destruct (Hv i vs E1) as (xs' & E3 & _ & E4). congruence. }
  rewrite M. cbn [bind]. rewrite L, Nat.eqb_refl. reflexivity.
Qed.
Lemma nth_error_comb {A B} (l : list A) : forall (l' : list B) i a b, nth_error l i = Some a -> nth_error l' i = Some b -> nth_error (combine l l') i = Some (a, b).
Proof. induction l as [|x l IH]; intros [|y l'] [|i] a b E E'; try discriminate; cbn in *; [congruence|]. now apply IH. Qed.

Lemma curve_drawn w loggers a b ks metric st bars n xss : known a -> known b -> a <> b -> ks <> [] -> n <> 0 ->
  List.length xss = List.length ks ->
  (forall i xs, nth_error xss i = Some xs -> List.length xs = n /\ exists lg, nth_error loggers i = Some lg /\ scored w lg ("score_" ++ a ++ "2" ++ b)%string xs) ->
  exists c, plot_one_curve w loggers ([a], [b]) ks metric st bars = Ok c /\ c_style c = st /\ c_bars c = bars /\
    List.length (c_points c) = List.length ks /\ List.length (c_var c) = List.length ks /\
    forall i k xs, nth_error ks i = Some k -> nth_error xss i = Some xs -> exists m s,
      nth_error (c_points c) i = Some (k, m) /\ nth_error (c_var c) i = Some s /\ average_of xs m /\ deviation_of xs m s.
Proof.
  intros Ka Kb N Nk Nn L H. destruct (color_some a b Ka Kb N) as (c & Hc). eexists. split; [exact (plot_one_ok w loggers a b ks metric st bars n xss c Hc Nk Nn L H)|].
  cbn. split; [reflexivity|]. split; [reflexivity|]. split; [rewrite combine_length, map_length; lia|]. split; [rewrite map_length; lia|].
  intros i k xs Ek Ex. exists (np_mean xs), (np_std xs).
  assert (Nx : xs <> []). { destruct (H i xs Ex) as (Lx & _). destruct xs; [cbn in Lx; congruence|discriminate]. }
  split; [apply nth_error_comb; [exact Ek|]; now rewrite nth_error_map, Ex|]. split; [now rewrite nth_error_map, Ex|]. split; [now apply mean_average|now apply std_deviation].
Qed.

(** Loggers whose numbers of runs differ. *)
Lemma values_length (w : world) i key n : wf_world w -> runs_of w i = Some n -> exists vs, get_values w i key = Ok vs /\ List.length vs = n.
Proof.
  intros W R. unfold runs_of in R. destruct (nth_error (w_logs w) i) as [l|] eqn:El; [|discriminate]. cbn in R.
  destruct (get_values_ok w i l key W El) as (vs & E & L & _). exists vs. split; [exact E|congruence].
Qed.
Lemma curve_ragged w loggers a b ks metric st bars i j ni nj : known a -> known b -> a <> b -> wf_world w ->
  (forall i, i < List.length ks -> exists lg n, nth_error loggers i = Some lg /\ runs_of w lg = Some n) ->
  i < List.length ks -> j < List.length ks ->
  (exists lg, nth_error loggers i = Some lg /\ runs_of w lg = Some ni) -> (exists lg, nth_error loggers j = Some lg /\ runs_of w lg = Some nj) -> ni <> nj ->
  plot_one_curve w loggers ([a], [b]) ks metric st bars = Err ValueError.
Proof.
  intros Ka Kb N W H Hi Hj (li & Eli & Ri) (lj & Elj & Rj) D. unfold plot_one_curve. cbn [fst snd].
  destruct (curve_values w loggers a b ks (fun i vs => exists lg, nth_error loggers i = Some lg /\ runs_of w lg = Some (List.length vs))) as (vss & -> & Lv & Hv).
  { intros q k Ek. destruct (H q) as (lg & n & El & R); [apply nth_error_Some; congruence|]. destruct (values_length w lg (curve_key a b) n W R) as (vs & E & L).
    exists lg, vs. repeat split; auto. exists lg. split; [exact El|congruence]. }
  cbn [bind]. destruct (color_some a b Ka Kb N) as (c & ->). cbn [bind]. unfold plot_var.
  destruct (rectangular vss) eqn:R; [|reflexivity]. exfalso. apply rectangular_iff in R as [_ (n & R)]. apply D.
  destruct (nth_error vss i) as [vi|] eqn:Ei; [|apply nth_error_None in Ei; lia]. destruct (nth_error vss j) as [vj|] eqn:Ej; [|apply nth_error_None in Ej; lia].
  destruct (Hv i vi Ei) as (l1 & E1 & R1). destruct (Hv j vj Ej) as (l2 & E2 & R2). pose proof (R vi (nth_error_In _ _ Ei)). pose proof (R vj (nth_error_In _ _ Ej)). congruence.
Qed.
(** A run without the score. *)
Lemma number_total (v : val) : (exists x, number v = Ok x) \/ number v = Err TypeError.
Proof. destruct v; cbn; eauto. Qed.
Lemma numbers_total (vs : list val) : (exists x, mapM number vs = Ok x) \/ mapM number vs = Err TypeError.
Proof.
  induction vs as [|v vs IH]; cbn [mapM]; [left; eauto|]. destruct (number_total v) as [[x ->]| ->]; cbn [bind]; [|auto].
  destruct IH as [[xs ->]| ->]; cbn [bind]; eauto.
Qed.
Lemma curve_missing w loggers a b ks metric st bars i lg q n : known a -> known b -> a <> b -> wf_world w ->
  (forall i, i < List.length ks -> exists lg, nth_error loggers i = Some lg /\ runs_of w lg = Some n) ->
  i < List.length ks -> nth_error loggers i = Some lg -> q < n -> value_at w lg q ("score_" ++ a ++ "2" ++ b)%string = None ->
  plot_one_curve w loggers ([a], [b]) ks metric st bars = Err TypeError.
Proof.
  intros Ka Kb N W H Hi El Hq V. unfold plot_one_curve. cbn [fst snd].
  destruct (curve_values w loggers a b ks (fun j vs => List.length vs = n /\ (j = i -> In VNone vs))) as (vss & -> & Lv & Hv).
  { intros j k Ek. destruct (H j) as (lg' & El' & R); [apply nth_error_Some; congruence|]. destruct (values_length w lg' (curve_key a b) n W R) as (vs & E & L).
    exists lg', vs. repeat split; auto. intros ->. assert (lg' = lg) by congruence. subst lg'. unfold runs_of in R. destruct (nth_error (w_logs w) lg) as [l|] eqn:Ell; [|discriminate].
    cbn in R. apply (lacking_values w lg l (curve_key a b) q vs Ell); auto. assert (List.length (lg_exps l) = n) by congruence. lia. }
  cbn [bind]. destruct (color_some a b Ka Kb N) as (c & ->). cbn [bind]. unfold plot_var.
  assert (R : rectangular vss = true). { apply rectangular_iff. split; [destruct vss; cbn in *; [lia|discriminate]|]. exists n. intros r I. apply In_nth_error in I as [j I]. now apply (Hv j). }
  rewrite R. cbn [bind]. rewrite (mapM_first_err (mapM number) TypeError); [reflexivity| |].
  - intros vs _. apply numbers_total.
  - destruct (nth_error vss i) as [vi|] eqn:Ei; [|apply nth_error_None in Ei; lia]. exists vi. split; [eapply nth_error_In; eauto|]. apply none_number. now apply (Hv i).
Qed.

(** ** Boxes *)
Lemma boxes_ok w i ps pairs (P : list string * list string -> list R -> Prop) :
  (forall m, In m ps -> (exists xs, scored w i ("score_" ++ join (fst m) ++ "2" ++ join (snd m) ++ "_cosine")%string xs /\ P m xs) /\
     exists c, get_color_for_modalities (fst m) (snd m) pairs = Ok c) ->
  exists bs, plot_boxes_one_exp true w i ps pairs = Ok bs /\
    Forall2 (fun m b => P m (b_values b) /\ get_color_for_modalities (fst m) (snd m) pairs = Ok (b_color b) /\
      b_label b = (join_with ", " (fst m) ++ " $\rightarrow$ " ++ join_with ", " (snd m))%string) ps bs.
Proof.
  intro H. unfold plot_boxes_one_exp.
  destruct (mapM_each (fun m => get_values w i ("score_" ++ join (fst m) ++ "2" ++ join (snd m) ++ "_cosine")%string) (fun m vs => exists xs, mapM number vs = Ok xs /\ P m xs) ps) as (vss & -> & F).
  { intros m I. destruct (H m I) as [(xs & Sc & Px) _]. destruct (scored_get _ _ _ _ Sc) as (vs & E & E2 & _). eauto. }
  cbn [bind].
  assert (M : exists xss, mapM (mapM number) vss = Ok xss /\ Forall2 P ps xss).
  { clear H. induction F as [|m vs ps vss (xs & E & Px) F (xss & M & G)]; [exists []; split; [reflexivity|constructor]|].
    exists (xs :: xss). cbn [mapM]. rewrite E. cbn [bind]. rewrite M. cbn [bind]. split; [reflexivity|constructor; auto]. }
  destruct M as (xss & -> & G). cbn [bind]. clear F vss.
  induction G as [|m xs ps xss Px G IH]; [exists []; split; [reflexivity|constructor]|]. destruct IH as (bs & E & F); [intros; apply H; now right|].
  destruct (H m (or_introl eq_refl)) as [_ [c Hc]]. cbn [combine mapM]. rewrite Hc. cbn [bind]. rewrite E. cbn [bind]. eexists. split; [reflexivity|]. constructor; auto.
Qed.
Lemma boxes_python3 w i m ps pairs :
  (forall m', In m' (m :: ps) -> exists xs, scored w i ("score_" ++ join (fst m') ++ "2" ++ join (snd m') ++ "_cosine")%string xs) ->
  (exists c, get_color_for_modalities (fst m) (snd m) pairs = Ok c) ->
  plot_boxes_one_exp false w i (m :: ps) pairs = Err TypeError.
Proof.
  intros H (c & Hc). unfold plot_boxes_one_exp.
  destruct (mapM_each (fun m => get_values w i ("score_" ++ join (fst m) ++ "2" ++ join (snd m) ++ "_cosine")%string) (fun m vs => exists xs, mapM number vs = Ok xs) (m :: ps)) as (vss & -> & F).
  { intros m' I. destruct (H m' I) as [xs Sc]. destruct (scored_get _ _ _ _ Sc) as (vs & E & E2 & _). eauto. }
  cbn [bind]. inversion F as [|? vs ? vss' (xs & E1) F']; subst.
  assert (M : exists xss, mapM (mapM number) vss' = Ok xss).
  { clear - F'. induction F' as [|m' vs ps vss (xs & E) F (xss & M)]; [eexists; reflexivity|]. cbn [mapM]. rewrite E. cbn [bind]. rewrite M. eexists. reflexivity. }
  destruct M as [xss M]. cbn [mapM]. rewrite E1. cbn [bind]. rewrite M. cbn [bind combine mapM]. rewrite Hc. reflexivity.
Qed.

(** ** Several curves *)
Definition both (w : world) (ks : list nat) (metric : string) (st : style) (bars : bool) (e : (string * string) * list nat) (c1 c2 : curve) : Prop :=
  plot_one_curve w (snd e) ([fst (fst e)], [snd (fst e)]) ks metric st bars = Ok c1 /\
  plot_one_curve w (snd e) ([snd (fst e)], [fst (fst e)]) ks metric st bars = Ok c2.
Lemma graphs_ok w d ks metric : (forall e, In e d -> exists c1 c2, both w ks metric Solid false e c1 c2) ->
  exists cs, plot_k_graphs w d ks metric = Ok (List.concat cs) /\ Forall2 (fun e l => exists c1 c2, l = [c1; c2] /\ both w ks metric Solid false e c1 c2) d cs.
Proof.
  intro H. unfold plot_k_graphs.
  destruct (mapM_each (fun l : (string * string) * list nat => let '((mod1, mod2), logs) := l in
    bind (plot_one_curve w logs ([mod1], [mod2]) ks metric Solid false) (fun c1 =>
    bind (plot_one_curve w logs ([mod2], [mod1]) ks metric Solid false) (fun c2 => Ok [c1; c2]))) (fun e l => exists c1 c2, l = [c1; c2] /\ both w ks metric Solid false e c1 c2) d) as (cs & E & F).
  { intros [[m1 m2] lg] I. destruct (H _ I) as (c1 & c2 & B). pose proof B as [E1 E2]. cbn [fst snd] in E1, E2. rewrite E1. cbn [bind]. rewrite E2. cbn [bind]. eauto 10. }
  rewrite E. cbn [bind]. eauto.
Qed.
