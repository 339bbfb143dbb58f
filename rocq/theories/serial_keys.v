(** * Lemma: keys that a serialized experiment needs. *)

From Coq Require Import List ZArith Arith Bool QArith String Lia.
Import ListNotations.
From Verif Require Import Py logger_model serial_model.
Local Open Scope nat_scope.
Local Open Scope string_scope.

Lemma item_missing {Arr} (d : list (key * val Arr)) k : ~ In (KStr k) (map fst d) -> item (VDict d) k = Err KeyError.
Proof.
  intro N. unfold item. destruct (find _ d) as [[q v]|] eqn:E; [|reflexivity]. apply find_some in E. destruct E as [I E]. exfalso. apply N.
  cbn in E. destruct q; try discriminate. apply String.eqb_eq in E as ->. apply in_map_iff. eexists. split; [|exact I]. reflexivity.
Qed.
Lemma item_error {Arr} (d : list (key * val Arr)) k e : item (VDict d) k = Err e -> e = KeyError.
Proof. unfold item. destruct (find _ d); congruence. Qed.
Lemma missing_key (Arr : Type) (d : list (key * val Arr)) k :
  In k ["modalities"; "loaders"; "k"; "iter_train"; "iter_test"; "coefs"; "shuffle_labels"; "run_mode"; "debug"] ->
  ~ In (KStr k) (map fst d) ->
  (forall e, from_serialized (VDict d) <> Ok e) /\
  (In k ["modalities"; "loaders"] -> from_serialized (VDict d) = Err KeyError).
Proof.
  intros I N. apply item_missing in N. split.
  - intros e H. unfold from_serialized in H.
    repeat match type of H with
    | bind ?x _ = Ok _ => let E := fresh "E" in destruct x eqn:E; cbn [bind] in H; [|discriminate]
    end.
    cbn in I. repeat destruct I as [<-|I]; try contradiction; congruence.
  - intros [<-|[<-|[]]]; unfold from_serialized.
    + rewrite N. reflexivity.
    + destruct (item (VDict d) "modalities") as [v|x] eqn:E; [cbn [bind]; rewrite N; reflexivity|].
      apply item_error in E as ->. reflexivity.
Qed.
