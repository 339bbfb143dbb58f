(** * Lemmas about the names of jobs. *)

From Coq Require Import List ZArith Bool Arith String Ascii Lia.
Import ListNotations.
From Verif Require Import Py Py_proof nd_model logger_model logger_spec logger_file experiment_model figures_proof launcher_model launcher_spec.
From Verif Require serial_model serial_spec.
Local Open Scope nat_scope.

Lemma first_us a b s t : no_us a -> no_us b -> (a ++ "_" ++ s = b ++ "_" ++ t)%string -> a = b /\ s = t.
Proof. intros A B E. pose proof (split_once_app a s A) as X. rewrite E, (split_once_app b t B) in X. now injection X as <- <-. Qed.
Lemma no_us_app a s : ~ no_us (a ++ "_" ++ s)%string.
Proof. induction a as [|c a IH]; cbn; intros [H H']; [discriminate|now apply IH]. Qed.
Lemma last_us a : forall b s t, no_us s -> no_us t -> (a ++ "_" ++ s = b ++ "_" ++ t)%string -> a = b /\ s = t.
Proof.
  induction a as [|c a IH]; intros [|d b] s t S T E; cbn [append] in E.
  - split; [reflexivity|now injection E].
  - injection E as _ E. exfalso. rewrite E in S. exact (no_us_app b t S).
  - injection E as _ E. exfalso. rewrite <- E in T. exact (no_us_app a s T).
  - injection E as <- E. destruct (IH b s t S T E) as [-> ->]. auto.
Qed.
Lemma fmt_inj a b : string_of_nat a = string_of_nat b -> a = b.
Proof. apply string_of_nat_inj. Qed.
Lemma fmt_word k s : int_of_string s = Err ValueError -> string_of_nat k <> s.
Proof. intros H E. rewrite <- E, int_of_string_of_nat in H. discriminate. Qed.

(** The name of a repetition. *)
Definition ki (p : string) (k i : nat) : string := (p ++ fmt k ++ "_" ++ fmt i)%string.
Lemma ki_inj p k i k' i' : ki p k i = ki p k' i' -> k = k' /\ i = i'.
Proof.
  unfold ki. intro E. apply str_app_inj_l in E. destruct (first_us _ _ _ _ (nat_no_us k) (nat_no_us k') E) as [A B]. split; now apply fmt_inj.
Qed.
Definition fi (d : list string) (i : nat) : string := ("image_sound_feats_" ++ join d ++ "_" ++ fmt i)%string.
Lemma fi_inj d d' i i' : fi d i = fi d' i' -> join d = join d' /\ i = i'.
Proof.
  unfold fi. intro E. apply str_app_inj_l in E. destruct (last_us _ _ _ _ (nat_no_us i) (nat_no_us i') E) as [A B]. split; [exact A|now apply fmt_inj].
Qed.

(** ** Lists of names *)
Lemma nodup_app {A} (l l' : list A) : NoDup (l ++ l') <-> NoDup l /\ NoDup l' /\ forall a, In a l -> ~ In a l'.
Proof.
  induction l as [|a l IH]; cbn.
  - split; [intro H; repeat split; auto; constructor|tauto].
  - split.
    + intro H. inversion H as [|? ? N H']; subst. apply IH in H' as (H1 & H2 & H3). split; [constructor; [intro I; apply N, in_or_app; auto|exact H1]|]. split; [exact H2|].
      intros b [<-|I]; [intro I; apply N, in_or_app; auto|now apply H3].
    + intros (H1 & H2 & H3). inversion H1 as [|? ? N H']; subst. constructor; [|apply IH; auto]. intro I. apply in_app_or in I as [I|I]; [auto|]. exact (H3 a (or_introl eq_refl) I).
Qed.
Lemma for_map {A B} Ks n (f : nat -> nat -> A) (g : A -> B) : map g (for_k_i Ks n f) = for_k_i Ks n (fun k i => g (f k i)).
Proof. unfold for_k_i. induction Ks as [|k Ks IH]; cbn; [reflexivity|]. rewrite map_app, map_map, IH. reflexivity. Qed.
Lemma in_for {A} Ks n (f : nat -> nat -> A) a : In a (for_k_i Ks n f) <-> exists k i, In k Ks /\ i < n /\ a = f k i.
Proof.
  unfold for_k_i. rewrite in_flat_map. split.
  - intros (k & I & J). apply in_map_iff in J as (i & <- & J). apply in_seq in J. exists k, i. split; [exact I|]. split; [lia|reflexivity].
  - intros (k & i & I & L & ->). exists k. split; [exact I|]. apply in_map_iff. exists i. split; [reflexivity|]. apply in_seq. lia.
Qed.
Lemma for_nodup p Ks n : NoDup (for_k_i Ks n (ki p)) <-> NoDup Ks \/ n = 0.
Proof.
  split.
  - intro H. destruct n as [|n]; [now right|]. left. unfold for_k_i in H. induction Ks as [|k Ks IH]; [constructor|]. cbn [flat_map] in H. apply nodup_app in H as (_ & H & D).
    constructor; [|auto]. intro I. apply (D (ki p k 0)); [now left|]. apply in_flat_map. exists k. split; [exact I|now left].
  - intros [H| ->].
    + unfold for_k_i. apply nodup_flat; [exact H| |].
      * intros k _. apply nodup_map; [|apply seq_NoDup]. intros a b E. exact (proj2 (ki_inj _ _ _ _ _ E)).
      * intros k k' s I J. apply in_map_iff in I as (i & <- & _). apply in_map_iff in J as (i' & E & _). destruct (ki_inj _ _ _ _ _ E). congruence.
    + unfold for_k_i. cbn. induction Ks; [constructor|assumption].
Qed.
Definition feats_names n := flat_map (fun d => map (fi d) (seq 0 n)) descriptor_sets.
Lemma in_feats n s : In s (feats_names n) <-> exists d i, In d descriptor_sets /\ i < n /\ s = fi d i.
Proof.
  unfold feats_names. rewrite in_flat_map. split.
  - intros (d & I & J). apply in_map_iff in J as (i & <- & J). apply in_seq in J. exists d, i. split; [exact I|]. split; [lia|reflexivity].
  - intros (d & i & I & L & ->). exists d. split; [exact I|]. apply in_map_iff. exists i. split; [reflexivity|]. apply in_seq. lia.
Qed.
Lemma join_sets d d' : In d descriptor_sets -> In d' descriptor_sets -> join d = join d' -> d = d'.
Proof.
  intros I J E. cbn in I, J. repeat (destruct I as [<-|I]; [repeat (destruct J as [<-|J]; [reflexivity || (exfalso; vm_compute in E; discriminate)|]); destruct J|]). destruct I.
Qed.
Lemma sets_nodup : NoDup descriptor_sets.
Proof. repeat (constructor; [cbn; intuition discriminate|]). constructor. Qed.
Lemma feats_nodup n : NoDup (feats_names n).
Proof.
  unfold feats_names. assert (H : forall l, incl l descriptor_sets -> NoDup l -> NoDup (flat_map (fun d => map (fi d) (seq 0 n)) l)).
  { induction l as [|d l IH]; intros In_l N; cbn [flat_map]; [constructor|]. inversion N as [|? ? N1 N2]; subst. apply nodup_app. split; [|split].
    - apply nodup_map; [|apply seq_NoDup]. intros a b E. exact (proj2 (fi_inj _ _ _ _ E)).
    - apply IH; [|exact N2]. intros a I. apply In_l. now right.
    - intros s I J. apply in_map_iff in I as (i & <- & _). apply in_flat_map in J as (d' & I' & J). apply in_map_iff in J as (i' & E & _). apply fi_inj in E as [E _].
      assert (d' = d); [|subst; auto]. apply join_sets; auto; apply In_l; [now right|now left]. }
  apply H; [intros a I; exact I|exact sets_nodup].
Qed.

(** ** The names of the experiments *)
Definition all_names Ks n : list string :=
  for_k_i Ks n (ki "motion_sound_") ++ for_k_i Ks n (ki "image_sound_") ++ for_k_i Ks n (ki "image_motion_") ++
  for_k_i Ks n (ki "image_motion_sound_") ++ feats_names n.
Lemma names_of_exps labels Ks n : map pl_name (exps labels Ks n) = all_names Ks n.
Proof.
  unfold exps, exps_2, exps_3, exp_images, all_names. rewrite !map_app, !for_map. cbn [pl_name]. rewrite <- !app_assoc. repeat f_equal.
  unfold feats_names. rewrite flat_map_concat_map, concat_map, map_map, flat_map_concat_map. f_equal. apply map_ext. intro d. now rewrite map_map.
Qed.
Lemma ki_word p q w k i k' i' : no_us w -> int_of_string w = Err ValueError -> ki p k i <> (p ++ w ++ "_" ++ q ++ fmt k' ++ "_" ++ fmt i')%string.
Proof.
  intros N H E. unfold ki in E. apply str_app_inj_l in E. destruct (first_us _ _ _ _ (nat_no_us k) N E) as [A _]. exact (fmt_word k w H A).
Qed.
Lemma names_nodup Ks n : NoDup (all_names Ks n) <-> NoDup Ks \/ n = 0.
Proof.
  unfold all_names. split.
  - intro H. apply nodup_app in H as (H & _). now apply for_nodup in H.
  - intro H. assert (F : forall p, NoDup (for_k_i Ks n (ki p))) by (intro p; now apply for_nodup).
    repeat (apply nodup_app; split; [apply F|split]); try apply feats_nodup; intros s I J; apply in_for in I as (k & i & _ & _ & ->).
    + apply in_feats in J as (d & i' & _ & _ & E). discriminate.
    + apply in_app_or in J as [J|J].
      * apply in_for in J as (k' & i' & _ & _ & E). unfold ki in E. change "image_motion_sound_"%string with ("image_motion_" ++ ("sound" ++ "_"))%string in E. rewrite <- !append_assoc in E. apply str_app_inj_l in E.
        destruct (first_us _ _ _ _ (nat_no_us k) (ltac:(cbn; auto 10) : no_us "sound") E) as [A _]. now apply fmt_word in A.
      * apply in_feats in J as (d & i' & _ & _ & E). discriminate.
    + repeat (apply in_app_or in J as [J|J]; [apply in_for in J as (k' & i' & _ & _ & E); discriminate|]). apply in_feats in J as (d & i' & _ & _ & E). unfold ki, fi in E.
      change "image_sound_feats_"%string with ("image_sound_" ++ ("feats" ++ "_"))%string in E. rewrite <- !append_assoc in E. apply str_app_inj_l in E.
      destruct (first_us _ _ _ _ (nat_no_us k) (ltac:(cbn; auto 10) : no_us "feats") E) as [A _]. now apply fmt_word in A.
    + repeat (apply in_app_or in J as [J|J]; [apply in_for in J as (k' & i' & _ & _ & E); discriminate|]). apply in_feats in J as (d & i' & _ & _ & E). discriminate.
Qed.
