(** * Angles of all joints of a database. *)

From Coq Require Import List ZArith Arith Reals Bool String Lia.
Import ListNotations.
From Verif Require Import Py Py_proof ListUtil transf_model transf_spec.
Open Scope py_scope.
Local Open Scope nat_scope.

Lemma index_first (l : list string) x : forall pos,
  (exists i, index_from String.eqb x l pos 0 = Ok (pos + i) /\ first_at l x i) \/ (index_from String.eqb x l pos 0 = Err ValueError /\ ~ In x l).
Proof.
  unfold first_at. induction l as [|y l IH]; intro pos; [right; split; auto|]. cbn [index_from Nat.leb andb]. destruct (String.eqb_spec y x) as [->|N].
  - left. exists 0. split; [f_equal; lia|]. split; auto.
  - destruct (IH (S pos)) as [(i & E & E1 & E2)|(E & E1)].
    + left. exists (S i). rewrite E. split; [f_equal; lia|]. split; [exact E1|]. cbn. intuition.
    + right. split; [exact E|]. cbn. intuition.
Qed.
Lemma list_index_first l x : (exists i, list_index String.eqb l x 0 = Ok i /\ first_at l x i) \/ (list_index String.eqb l x 0 = Err ValueError /\ ~ In x l).
Proof. exact (index_first l x 0). Qed.

Lemma table : ANGLES = all_joints.
Proof. reflexivity. Qed.
Lemma indices_first names idx : angles_indices names = Ok idx ->
  Forall2 (fun sd ij => exists i j, ij = (Z.of_nat i, Z.of_nat j) /\ first_at names (fst sd) i /\ first_at names (snd sd) j) all_joints idx.
Proof.
  unfold angles_indices. rewrite table. intro E. apply mapM_ok in E. eapply Forall2_impl; [|exact E]. intros sd ij H. cbv beta in H.
  destruct (list_index_first names (fst sd)) as [(i & Ei & Fi)|(Ei & _)]; rewrite Ei in H; [|discriminate]. cbn [bind] in H.
  destruct (list_index_first names (snd sd)) as [(j & Ej & Fj)|(Ej & _)]; rewrite Ej in H; [|discriminate]. cbn [bind] in H.
  injection H as <-. eauto 6.
Qed.
Lemma indices_missing names sd : In sd all_joints -> (~ In (fst sd) names \/ ~ In (snd sd) names) -> angles_indices names = Err ValueError.
Proof.
  unfold angles_indices. rewrite table. intros I N. induction all_joints as [|a l IH]; [destruct I|]. cbn [mapM].
  destruct (list_index_first names (fst a)) as [(i & Ei & Fi)|(Ei & _)]; rewrite Ei; [|reflexivity]. cbn [bind].
  destruct (list_index_first names (snd a)) as [(j & Ej & Fj)|(Ej & _)]; rewrite Ej; [|reflexivity]. cbn [bind].
  destruct I as [->|I]; [exfalso|rewrite (IH I); reflexivity].
  destruct Fi as [Fi _], Fj as [Fj _]. apply nth_error_In in Fi, Fj. tauto.
Qed.

Lemma flat3 (l : list (R * R * R)) : forall k x y z, nth_error l k = Some (x, y, z) -> let row := flat_map (fun a => [fst (fst a); snd (fst a); snd a]) l in
  nth_error row (3 * k) = Some x /\ nth_error row (3 * k + 1) = Some y /\ nth_error row (3 * k + 2) = Some z.
Proof.
  cbv zeta. induction l as [|a l IH]; intros [|k] x y z E; try discriminate.
  - injection E as ->. cbn. auto.
  - cbn [nth_error] in E. destruct (IH k x y z E) as (H1 & H2 & H3).
    replace (3 * S k) with (S (S (S (3 * k)))) by lia. cbn [flat_map app nth_error plus]. auto.
Qed.
Lemma flat3_length (l : list (R * R * R)) : List.length (flat_map (fun a => [fst (fst a); snd (fst a); snd a]) l) = 3 * List.length l.
Proof. induction l as [|a l IH]; [reflexivity|]. cbn [flat_map app List.length]. rewrite IH. lia. Qed.

Lemma joint_columns names records arrays : db_to_list_of_angle_arrays names records = Ok arrays ->
  Forall2 (fun record array => record <> [] /\ Forall2 (row_of names) record array) records arrays.
Proof.
  unfold db_to_list_of_angle_arrays. intro E. apply bind_ok in E as (idx & Ei & E). apply indices_first in Ei. apply mapM_ok in E.
  eapply Forall2_impl; [|exact E]. intros record array H. cbv beta in H. unfold record_to_angle_array in H. apply bind_ok in H as (rows & Er & H).
  assert (N : record <> []) by (intros ->; cbn in Er; injection Er as <-; discriminate). split; [exact N|].
  assert (rows = array) as <- by (destruct rows; [discriminate|congruence]). clear H. apply mapM_ok in Er.
  eapply Forall2_impl; [|exact Er]. intros sample row H. cbv beta in H. unfold get_angle_array in H. apply bind_ok in H as (angles & Ea & H).
  apply mapM_ok in Ea. assert (L : List.length angles = 10). { assert (L1 : List.length idx = List.length angles) by (clear - Ea; induction Ea; cbn; congruence). assert (L2 : List.length all_joints = List.length idx) by (clear - Ei; induction Ei; cbn; congruence). cbn in L2. congruence. }
  assert (row = flat_map (fun a => [fst (fst a); snd (fst a); snd a]) angles) as -> by (destruct angles; [discriminate|congruence]).
  split; [rewrite flat3_length, L; reflexivity|]. intros k s d Ek.
  assert (exists i j x y z, first_at names s i /\ first_at names d j /\ get_angles sample (Z.of_nat i) (Z.of_nat j) = Ok (x, y, z) /\ nth_error angles k = Some (x, y, z)) as (i & j & x & y & z & F1 & F2 & G & Hk).
  { clear - Ei Ea Ek. revert k Ek angles Ea. induction Ei as [|sd ij js idx (i & j & -> & F1 & F2) Ei IH]; intros [|k] Ek angles Ea; try discriminate; inversion Ea as [|a [[x y] z] b l' Ha Ea']; subst.
    - injection Ek as ->. cbn [fst snd] in *. exists i, j, x, y, z. auto.
    - cbn [nth_error] in *. apply IH; auto. }
  exists i, j, x, y, z. split; [exact F1|]. split; [exact F2|]. split; [exact G|]. exact (flat3 angles k x y z Hk).
Qed.
Lemma joint_missing names records sd : In sd all_joints -> (~ In (fst sd) names \/ ~ In (snd sd) names) -> db_to_list_of_angle_arrays names records = Err ValueError.
Proof. intros I N. unfold db_to_list_of_angle_arrays. now rewrite (indices_missing names sd I N). Qed.
