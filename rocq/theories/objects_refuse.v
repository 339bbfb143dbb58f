(** * Lemmas: data that a loader of objects cannot give. *)

From Coq Require Import List ZArith Arith Bool String Lia Reals.
Import ListNotations.
From Verif Require Import Py nd_model logger_model objects_model objects_spec.
Local Open Scope nat_scope.
Local Open Scope string_scope.

Lemma by_frame_found d t k b : dict_get String.eqb FEATURES_INDEX t = Some k -> nth_error (o_by_frame d) k = Some b ->
  get_histos_matrix_by_frame d t = Ok b.
Proof.
  intros K B. unfold get_histos_matrix_by_frame, feature_index. rewrite K. cbn [bind].
  unfold py_nth, norm_index. assert (KL : k < List.length (o_by_frame d)) by (apply nth_error_Some; congruence).
  replace ((0 <=? Z.of_nat k)%Z && (Z.of_nat k <? Z.of_nat (List.length (o_by_frame d)))%Z) with true by (symmetry; apply andb_true_iff; split; [apply Z.leb_le|apply Z.ltb_lt]; lia).
  cbn [bind]. rewrite Nat2Z.id, B. reflexivity.
Qed.
Lemma no_features l : l_features l = [] -> get_data l = (l, Err ValueError).
Proof. intro E. unfold get_data. rewrite E. reflexivity. Qed.
Lemma no_matrices l : l_features l <> [] ->
  (forall t, In t (l_features l) -> exists k, dict_get String.eqb FEATURES_INDEX t = Some k /\ nth_error (o_by_frame (l_db l)) k = Some None) ->
  get_data l = (l, Err AttributeError).
Proof.
  intros N H. assert (E : mapM (get_histos_matrix_by_frame (l_db l)) (l_features l) = Ok (map (fun _ => None) (l_features l))).
  { clear N. revert H. generalize (l_features l). induction l0 as [|t ts IH]; intro H; [reflexivity|]. cbn [mapM map].
    destruct (H t (or_introl eq_refl)) as (k & K & B). rewrite (by_frame_found _ _ _ _ K B). cbn [bind]. rewrite IH by (intros; apply H; now right). reflexivity. }
  unfold get_data. rewrite E. destruct (l_features l) as [|t ts]; [contradiction|]. cbn [map]. unfold hstack_values.
  replace (forallb _ _) with true; [reflexivity|]. symmetry. apply forallb_forall. intros b [<-|Hb]; [reflexivity|].
  apply in_map_iff in Hb. destruct Hb as (? & <- & _). reflexivity.
Qed.
Lemma unknown_feature l fs t fs' : l_features l = (fs ++ t :: fs')%list -> dict_get String.eqb FEATURES_INDEX t = None ->
  (forall t, In t fs -> exists k b, dict_get String.eqb FEATURES_INDEX t = Some k /\ nth_error (o_by_frame (l_db l)) k = Some b) ->
  get_data l = (l, Err KeyError).
Proof.
  intros E U H. unfold get_data. rewrite E. replace (mapM _ _) with (@Err (list (option nd)) KeyError); [reflexivity|]. symmetry. clear E.
  induction fs as [|s fs IH]; cbn [app mapM].
  - unfold get_histos_matrix_by_frame at 1, feature_index. rewrite U. reflexivity.
  - destruct (H s (or_introl eq_refl)) as (k & b & K & B). rewrite (by_frame_found _ _ _ _ K B). cbn [bind]. rewrite IH by (intros; apply H; now right). reflexivity.
Qed.
