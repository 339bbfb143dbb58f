(** * Lemmas about the end of the loop of fit_transform. *)

From Coq Require Import List ZArith Reals Bool Arith Lia Lra Sorted.
Import ListNotations.
From Verif Require Import Py Py_proof nd_model nd_spec nd_proof sparse_model array_utils_model array_utils_proof
  metrics_model metrics_proof nmf_model nmf_spec nmf_proof nmf_laws nmf_fit.
Local Open Scope R_scope.

Lemma ends_with_cons (e p : R) l : ends_with l p -> ends_with (e :: l) p.
Proof. intros (l0 & ->). now exists (e :: l0). Qed.

Lemma iterate_stop fuel : forall x w h prev t fit errs n k m h' x' w' all limit,
  proper x n m -> shape w = [n; k] -> shape h = [k; m] ->
  iterate fuel x w h prev t fit errs = (h', Ok (x', w', all, limit)) ->
  exists errs', all = (errs ++ errs')%list /\ (fit = false -> h' = h) /\ limit = (fuel <=? S (length errs'))%nat /\
    (length errs' = fuel \/
     exists p, (ends_with errs' p \/ errs' = [] /\ prev = Some p) /\ p - divergence EPS n k m (mvalue x) w' h' < t).
Proof.
  induction fuel as [|fuel IH]; intros x w h prev t fit errs n k m h' x' w' all limit P Sw Sh; cbn [iterate].
  - intro E. injection E as <- <- <- <- <-. exists []. rewrite app_nil_r. auto.
  - destruct (error_value x w h n k m P Sw Sh) as (x1 & -> & A). set (e := divergence EPS n k m (mvalue x) w h).
    destruct (match prev with None => false | Some p => Rlt_bool (p - e) t end) eqn:B.
    + intro E. injection E as <- <- <- <- <-. exists []. rewrite app_nil_r. split; auto. split; auto. split; [destruct fuel; reflexivity|].
      right. destruct prev as [p|]; [|discriminate]. exists p. split; auto. fold e. unfold Rlt_bool in B. destruct (Rlt_dec (p - e) t); [lra|discriminate].
    + destruct (update_value EPS x1 w h n k m fit (proj1 (proj2 A)) Sw Sh) as (w1 & h1 & Eu & S). rewrite Eu. cbn iota.
      pose proof S as (S1 & S2 & _). intro E.
      destruct (IH x1 w1 h1 (Some e) t fit (errs ++ [e])%list n k m h' x' w' all limit (proj1 (proj2 A)) S1 S2 E) as (errs' & Ea & Hh & El & Hs).
      exists (e :: errs'). rewrite <- app_assoc in Ea. split; [exact Ea|]. split.
      { intro F. rewrite (Hh F). subst fit. unfold update in Eu. destruct (Q EPS x1 w h) as [q|]; [|discriminate]. cbn in Eu.
        destruct (updated_W w h q) as [w2|]; [|discriminate]. cbn in Eu. now injection Eu. }
      split; [exact El|]. destruct Hs as [L|(p & Hp & D)]; [left; cbn; lia|]. right. exists p.
      rewrite (divergence_ext EPS n k m (mvalue x1) (mvalue x)) in D by apply A. split; auto. left.
      destruct Hp as [Hp|[-> Hp]]; [now apply ends_with_cons|]. injection Hp as <-. now exists [].
Qed.

Lemma fit_transform_stop rnd o x weights scale_W fit n m o' w errs warn x' c : proper x n m -> nonneg (mvalue x) ->
  (forall d, init_dictionary o = Some d -> shape d = [number o m; m]) ->
  (fit = false -> exists d, components o = Some d /\ shape d = [number o m; m]) ->
  fit_transform rnd o x weights scale_W fit = (o', Ok (w, errs, warn, x')) -> components o' = Some c ->
  (length errs = Z.to_nat (max_iter o) \/
   exists e, ends_with errs e /\ e - divergence (/ 100000000) n (number o m) m (mvalue x) w c < tol o * INR n * INR m) /\
  (warn = true <-> 0 < tol o * INR n * INR m /\ (max_iter o <= Z.of_nat (S (length errs)))%Z).
Proof.
  intros P N. set (k := number o m). intros Hi Hc. unfold fit_transform. rewrite (atleast2d_proper x n m P), (any_negative_false x n m P N), (proper_mshape x n m P).
  fold (number o m). fold k.
  destruct (init_H_value rnd (set_n k o) k m) as (h0 & o1 & -> & Sh & F & E1); [exact Hi|]. change (init_dictionary (set_n k o)) with (init_dictionary o) in *.
  destruct (mdot_l_value x (transpose h0) n m k P) as (w0 & -> & Sw & Lw); [cbn; rewrite Sh; reflexivity|].
  assert (A1 : init_dictionary o1 = init_dictionary o /\ components o1 = components o /\ n_components o1 = Some k /\ tol o1 = tol o /\ max_iter o1 = max_iter o).
  { rewrite E1. destruct (init_dictionary o) eqn:Ei; repeat split; auto. } destruct A1 as (A1 & A2 & A3 & A4 & A5).
  set (o2 := if fit then set_components h0 o1 else o1).
  assert (M2 : max_iter o2 = max_iter o) by (unfold o2; destruct fit; cbn; congruence). rewrite M2.
  destruct (max_iter o <=? 0)%Z eqn:M; [discriminate|]. apply Z.leb_gt in M.
  set (d := if fit then h0 else match components o with Some c => c | None => h0 end).
  assert (Ec : components o2 = Some d /\ shape d = [k; m]).
  { unfold o2, d. destruct fit; [cbn; auto|]. destruct (Hc eq_refl) as (c' & C & S). rewrite A2, C. auto. }
  destruct Ec as [Eo Sd]. rewrite Eo.
  assert (T : tol o2 * INR n * INR m = tol o * INR n * INR m) by (unfold o2; destruct fit; cbn; congruence). rewrite T. cbn zeta.
  destruct (iterate _ _ _ _ _ _ _ _) as [h' r] eqn:EI. destruct r as [[[[x1 w1] e1] l1]|]; [|discriminate].
  intro E. injection E as <- <- <- <- <-. intro Cc.
  destruct (iterate_stop _ x w0 d None _ fit [] n k m h' x1 w1 e1 l1 P Sw Sd EI) as (errs' & Ea & Hh & El & Hs). cbn [app] in Ea. subst errs'.
  assert (h' = c) as ->. { destruct fit; [cbn in Cc; congruence|]. rewrite Eo in Cc. injection Cc as <-. now apply Hh. }
  split.
  - destruct Hs as [L|(p & [Hp|[_ Hp]] & D)]; [auto| |discriminate]. right. now exists p.
  - subst l1. rewrite andb_true_iff, Nat.leb_le. unfold Rlt_bool. destruct (Rlt_dec 0 (tol o * INR n * INR m)) as [Y|Y]; split; intros [H H'].
    + split; [auto|lia].
    + split; [lia|auto].
    + discriminate.
    + contradiction.
Qed.
