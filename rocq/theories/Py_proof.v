(** * Lemmas about the Python primitives of [Py]. *)

From Coq Require Import List ZArith Lia Bool Permutation.
Import ListNotations.
From Verif Require Import Py.

Lemma bind_ok {A B} (r : result A) (f : A -> result B) b :
  bind r f = Ok b <-> exists a, r = Ok a /\ f a = Ok b.
Proof.
  split.
  - destruct r as [a|e]; simpl; intros H; [eauto|discriminate].
  - intros (a & -> & H). exact H.
Qed.

Lemma bind_err {A B} (r : result A) (f : A -> result B) e :
  bind r f = Err e <-> r = Err e \/ exists a, r = Ok a /\ f a = Err e.
Proof.
  split.
  - destruct r as [a|e']; simpl; intros H; [eauto|left; congruence].
  - intros [-> | (a & -> & H)]; [reflexivity|exact H].
Qed.

Lemma mapM_ok {A B} (f : A -> result B) l ys :
  mapM f l = Ok ys <-> Forall2 (fun x y => f x = Ok y) l ys.
Proof.
  revert ys; induction l as [|x l IH]; intros ys; simpl.
  - split; intros H; [injection H as <-; constructor|inversion H; reflexivity].
  - rewrite bind_ok. split.
    + intros (y & Hy & H). apply bind_ok in H as (ys' & H1 & H2).
      injection H2 as <-. constructor; [exact Hy|]. apply IH; exact H1.
    + intros H. inversion H as [|? y ? ys' Hy Hys]; subst.
      exists y; split; [exact Hy|]. apply bind_ok. exists ys'.
      split; [apply IH; exact Hys|reflexivity].
Qed.

Lemma mapM_pure {A B} (f : A -> result B) (g : A -> B) l :
  (forall x, In x l -> f x = Ok (g x)) -> mapM f l = Ok (map g l).
Proof.
  intros H. apply mapM_ok. induction l as [|x l IH]; simpl; constructor.
  - apply H; left; reflexivity.
  - apply IH. intros y Hy; apply H; right; exact Hy.
Qed.

Lemma mapM_length {A B} (f : A -> result B) l ys :
  mapM f l = Ok ys -> length ys = length l.
Proof.
  intros H. apply mapM_ok in H. induction H; simpl; congruence.
Qed.

Lemma foldM_app {S A} (f : S -> A -> result S) l1 l2 s :
  foldM f (l1 ++ l2) s = bind (foldM f l1 s) (foldM f l2).
Proof.
  revert s; induction l1 as [|x l1 IH]; intros s; simpl; [reflexivity|].
  destruct (f s x); simpl; auto.
Qed.

Lemma list_set_length {A} (l : list A) k x : length (list_set l k x) = length l.
Proof. revert k; induction l as [|y l IH]; intros [|k]; simpl; auto. Qed.

Lemma nth_error_list_set {A} (l : list A) k x i :
  nth_error (list_set l k x) i =
  if (i =? k)%nat then (if (k <? length l)%nat then Some x else None)
  else nth_error l i.
Proof.
  revert k i; induction l as [|y l IH]; intros k i; simpl.
  - destruct i as [|i], k as [|k]; simpl; try reflexivity.
    destruct (i =? k)%nat; reflexivity.
  - destruct k as [|k], i as [|i]; simpl; try reflexivity.
    rewrite IH. reflexivity.
Qed.

Lemma nth_list_set {A} (l : list A) k x i d :
  nth i (list_set l k x) d =
  if (i =? k)%nat && (k <? length l)%nat then x else nth i l d.
Proof.
  revert k i; induction l as [|y l IH]; intros k i; simpl.
  - destruct i, k; simpl; try reflexivity. rewrite andb_false_r; reflexivity.
  - destruct k as [|k], i as [|i]; simpl; try reflexivity.
    rewrite IH. reflexivity.
Qed.

Lemma upd_eq {A} (f : nat -> A) i x : upd f i x i = x.
Proof. unfold upd. rewrite Nat.eqb_refl. reflexivity. Qed.

Lemma upd_neq {A} (f : nat -> A) i j x : j <> i -> upd f i x j = f j.
Proof. intros H. unfold upd. apply Nat.eqb_neq in H. rewrite H. reflexivity. Qed.

Lemma norm_index_nonneg n i :
  norm_index n (Z.of_nat i) = if (i <? n)%nat then Ok i else Err IndexError.
Proof.
  unfold norm_index.
  destruct (Nat.ltb_spec i n) as [H|H].
  - replace (0 <=? Z.of_nat i)%Z with true by (symmetry; apply Z.leb_le; lia).
    replace (Z.of_nat i <? Z.of_nat n)%Z with true by (symmetry; apply Z.ltb_lt; lia).
    simpl. rewrite Nat2Z.id. reflexivity.
  - replace (Z.of_nat i <? Z.of_nat n)%Z with false by (symmetry; apply Z.ltb_ge; lia).
    rewrite andb_false_r.
    replace (Z.of_nat i <? 0)%Z with false by (symmetry; apply Z.ltb_ge; lia).
    rewrite andb_false_r. reflexivity.
Qed.

Lemma norm_index_in n z : (0 <= z < Z.of_nat n)%Z -> norm_index n z = Ok (Z.to_nat z).
Proof.
  intros H. unfold norm_index.
  replace (0 <=? z)%Z with true by (symmetry; apply Z.leb_le; lia).
  replace (z <? Z.of_nat n)%Z with true by (symmetry; apply Z.ltb_lt; lia). reflexivity.
Qed.

Lemma slice_nonneg {A} (l : list A) i j :
  slice l (Z.of_nat i) (Z.of_nat j) = firstn (j - i) (skipn i l).
Proof.
  unfold slice, clamp_slice.
  replace (Z.of_nat i <? 0)%Z with false by (symmetry; apply Z.ltb_ge; lia).
  replace (Z.of_nat j <? 0)%Z with false by (symmetry; apply Z.ltb_ge; lia).
  set (n := length l).
  destruct (Nat.le_gt_cases i n) as [Hi|Hi].
  - replace (Z.to_nat (Z.max 0 (Z.min (Z.of_nat i) (Z.of_nat n)))) with i by lia.
    destruct (Nat.le_gt_cases j n) as [Hj|Hj].
    + replace (Z.to_nat (Z.max 0 (Z.min (Z.of_nat j) (Z.of_nat n)))) with j by lia.
      reflexivity.
    + replace (Z.to_nat (Z.max 0 (Z.min (Z.of_nat j) (Z.of_nat n)))) with n by lia.
      rewrite (firstn_all2 (skipn i l) (n := n - i)).
      * rewrite firstn_all2; [reflexivity|]. rewrite skipn_length. fold n. lia.
      * rewrite skipn_length. fold n. lia.
  - replace (Z.to_nat (Z.max 0 (Z.min (Z.of_nat i) (Z.of_nat n)))) with n by lia.
    rewrite (skipn_all2 l (n := i)) by (fold n; lia).
    rewrite (skipn_all2 l (n := n)) by (fold n; lia).
    rewrite !firstn_nil. reflexivity.
Qed.

Lemma slice_from_nonneg {A} (l : list A) i :
  slice_from l (Z.of_nat i) = skipn i l.
Proof.
  unfold slice_from, clamp_slice.
  replace (Z.of_nat i <? 0)%Z with false by (symmetry; apply Z.ltb_ge; lia).
  destruct (Nat.le_gt_cases i (length l)) as [Hi|Hi].
  - replace (Z.to_nat _) with i by lia. reflexivity.
  - replace (Z.to_nat _) with (length l) by lia.
    rewrite skipn_all, skipn_all2 by lia. reflexivity.
Qed.

Lemma slice_to_nonneg {A} (l : list A) i :
  slice_to l (Z.of_nat i) = firstn i l.
Proof.
  unfold slice_to, clamp_slice.
  replace (Z.of_nat i <? 0)%Z with false by (symmetry; apply Z.ltb_ge; lia).
  destruct (Nat.le_gt_cases i (length l)) as [Hi|Hi].
  - replace (Z.to_nat _) with i by lia. reflexivity.
  - replace (Z.to_nat _) with (length l) by lia.
    rewrite firstn_all, firstn_all2 by lia. reflexivity.
Qed.
