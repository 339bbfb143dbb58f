(** * Coefficients of a sample and the other samples of the data: lemmas. *)

From Coq Require Import List ZArith Reals Bool Lra Lia.
Import ListNotations.
From Verif Require Import Py nd_model nd_spec nd_proof sparse_model nmf_model nmf_spec nmf_proof nmf_laws nmf_fit.
Local Open Scope R_scope.

Lemma sum_to_same n f g : (forall i, (i < n)%nat -> f i = g i) -> sum_to n f = sum_to n g.
Proof. intro H. unfold sum_to. apply lsum_ext. intros i Hi. apply in_seq in Hi. apply H. lia. Qed.

Section Rows.
Context (x x' : matrix) (n n' k m i i' : nat).
Context (Hi : (i < n)%nat) (Hi' : (i' < n')%nat) (Hs : is_sparse x' = is_sparse x).
Context (Hx : forall j, (j < m)%nat -> el (mvalue x') [i'; j] = el (mvalue x) [i; j]).

Lemma same_ratio eps w w' h j : (j < m)%nat -> (forall l, (l < k)%nat -> el w' [i'; l] = el w [i; l]) ->
  ratio_of x' eps k (mvalue x') w' h i' j = ratio_of x eps k (mvalue x) w h i j.
Proof using Hs Hx.
  intros Hj Hw. assert (P : prod k w' h i' j = prod k w h i j) by (unfold prod; apply sum_to_same; intros l Hl; now rewrite Hw).
  assert (R : ratio eps k (mvalue x') w' h i' j = ratio eps k (mvalue x) w h i j) by (unfold ratio; now rewrite Hx, P).
  destruct x as [a|a], x' as [b|b]; try discriminate Hs; cbn [ratio_of]; auto. unfold ratio_sparse. now rewrite Hx, R.
Qed.
Lemma same_rows w h errs v g : runs x n k m false w h errs v g -> forall w' errs' v' g', runs x' n' k m false w' h errs' v' g' ->
  length errs' = length errs -> (forall l, (l < k)%nat -> el w' [i'; l] = el w [i; l]) ->
  forall l, (l < k)%nat -> el v' [i'; l] = el v [i; l].
Proof using All.
  induction 1 as [w h|w h w1 h1 errs w2 h2 S R IH]; intros w' errs' v' g' R' L Hw.
  - destruct errs'; [|discriminate]. inversion R'; subst. exact Hw.
  - inversion R' as [|w0 h0 w1' h1' errs0 w2' h2' S' R'']; subst; [discriminate|]. cbn in L. injection L as L.
    destruct S as (_ & _ & Sw & Sh), S' as (_ & _ & Sw' & Sh'). subst h1 h1'.
    apply (IH _ _ _ _ R'' L). intros l Hl. rewrite Sw, Sw' by auto. unfold new_coefficient. rewrite Hw by auto. f_equal.
    apply sum_to_same. intros j Hj. now rewrite (same_ratio _ w w').
Qed.
End Rows.

Lemma transform_rows rnd rnd' (o : nmf) x x' weights weights' sw sw' n n' m c : proper x n m -> proper x' n' m -> is_sparse x' = is_sparse x ->
  nonneg (mvalue x) -> nonneg (mvalue x') -> components o = Some c -> shape c = [number o m; m] -> nonneg c -> (1 <= max_iter o)%Z ->
  forall o1 w errs b y o1' w' errs' b' y', transform rnd o x weights sw = (o1, Ok (w, errs, b, y)) ->
  transform rnd' o x' weights' sw' = (o1', Ok (w', errs', b', y')) -> length errs' = length errs ->
  forall i i', (i < n)%nat -> (i' < n')%nat -> (forall j, (j < m)%nat -> el (mvalue x') [i'; j] = el (mvalue x) [i; j]) ->
  forall l, (l < number o m)%nat -> el w' [i'; l] = el w [i; l].
Proof.
  intros P P' Hs N N' Hc Sc Nc Hm o1 w errs b y o1' w' errs' b' y' E E' L i i' Hi Hi' Hx.
  unfold transform in E, E'. rewrite Hc in E, E'. set (o2 := set_init (Some c) o) in *.
  assert (K : number o2 m = number o m) by reflexivity. assert (C2 : components o2 = Some c) by exact Hc.
  assert (I2 : forall d, init_dictionary o2 = Some d -> shape d = [number o2 m; m] /\ nonneg d) by (intros d H; injection H as <-; auto).
  assert (F2 : false = false -> exists c, components o2 = Some c /\ shape c = [number o2 m; m] /\ nonneg c) by (intros _; eauto).
  destruct (call_runs rnd o2 x weights sw false n m P N I2 F2 Hm o1 w errs b y E)
    as (w0 & h0 & hs & h & F & _ & _ & FC & _ & Eh & _ & _ & R & _).
  destruct (call_runs rnd' o2 x' weights' sw' false n' m P' N' I2 F2 Hm o1' w' errs' b' y' E')
    as (w0' & h0' & hs' & h' & F' & _ & _ & FC' & _ & Eh' & _ & _ & R' & _).
  cbn [first_dictionary init_dictionary o2 set_init] in F, F'. unfold first_dictionary in F, F'. cbn in F, F'. subst h0 h0'.
  rewrite C2 in Eh, Eh'. injection Eh as <-. injection Eh' as <-.
  apply (same_rows x x' n n' _ m i i' Hi Hi' Hs Hx w0 c errs w h R w0' errs' w' h' R' L).
  intros l Hl. rewrite (proj2 FC), (proj2 FC') by auto. apply sum_to_same. intros j Hj. now rewrite Hx.
Qed.
