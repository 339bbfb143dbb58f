(** * Lemmas about the planned experiments, their jobs and their files of parameters. *)

From Coq Require Import List ZArith Bool Arith String Ascii Lia.
Import ListNotations.
From Verif Require Import Py Py_proof nd_model logger_model logger_spec logger_file experiment_model figures_proof launcher_model launcher_spec launcher_names.
From Verif Require serial_model serial_spec serial_proof.
Local Open Scope nat_scope.

Definition script_of (k : kind) : script := match k with Three => SCRIPT3 | _ => SCRIPT2 end.
Definition job_of (e : planned) : job := Job (pl_name e) (script_of (pl_kind e)).

Section P.
Variable labels : list string.
Variable Ks : list nat.
Variable n_run : nat.
Notation exps := (exps labels Ks n_run).
Notation jobs := (jobs labels Ks n_run).

Lemma in_exps e : In e exps <->
  (exists k i, In k Ks /\ i < n_run /\
     (e = Planned (ki "motion_sound_" k i) Two (with_defaults [("motion"%string, motion_loader); ("sound"%string, sound_loader)] k) \/
      e = Planned (ki "image_sound_" k i) Two (with_defaults [("image"%string, image_loader labels ["SURF"; "color"]%string); ("sound"%string, sound_loader)] k) \/
      e = Planned (ki "image_motion_" k i) Two (with_defaults [("image"%string, image_loader labels ["SURF"; "color"]%string); ("motion"%string, motion_loader)] k) \/
      e = Planned (ki "image_motion_sound_" k i) Three (with_defaults [("image"%string, image_loader labels ["SURF"; "color"]%string); ("motion"%string, motion_loader); ("sound"%string, sound_loader)] k))) \/
  (exists d i, In d descriptor_sets /\ i < n_run /\
     e = Planned (fi d i) Two (with_defaults [("image"%string, image_loader labels d); ("sound"%string, sound_loader)] 50)).
Proof.
  unfold launcher_model.exps, exps_2, exps_3, exp_images. rewrite !in_app_iff, !in_for, in_flat_map. split.
  - intros [[(k & i & A & B & ->)|[(k & i & A & B & ->)|(k & i & A & B & ->)]]|[(k & i & A & B & ->)|(d & A & B)]].
    1-4: left; exists k, i; unfold ki; intuition auto.
    right. apply in_map_iff in B as (i & <- & B). apply in_seq in B. exists d, i. split; [exact A|]. split; [lia|reflexivity].
  - intros [(k & i & A & B & [-> | [-> | [-> | ->]]])|(d & i & A & B & ->)].
    + left. left. exists k, i. auto.
    + left. right. left. exists k, i. auto.
    + left. right. right. exists k, i. auto.
    + right. left. exists k, i. auto.
    + right. right. exists d. split; [exact A|]. apply in_map_iff. exists i. split; [reflexivity|]. apply in_seq. lia.
Qed.

Lemma jobs_eq : jobs = map job_of exps.
Proof.
  unfold launcher_model.jobs, launcher_model.exps. rewrite !map_app. f_equal; [|f_equal].
  - apply map_ext_in. intros e I. unfold exps_2 in I. unfold job_of. rewrite !in_app_iff, !in_for in I. destruct I as [(k & i & _ & _ & ->)|[(k & i & _ & _ & ->)|(k & i & _ & _ & ->)]]; reflexivity.
  - apply map_ext_in. intros e I. unfold exps_3 in I. rewrite in_for in I. destruct I as (k & i & _ & _ & ->). reflexivity.
  - apply map_ext_in. intros e I. unfold exp_images in I. rewrite in_flat_map in I. destruct I as (d & _ & I). apply in_map_iff in I as (i & <- & _). reflexivity.
Qed.

(** ** The plan *)
Lemma two_loaders feats a la b lb : loader_for labels feats a la -> loader_for labels feats b lb -> forall k,
  parameters_for labels feats [a; b] k (with_defaults [(a, la); (b, lb)] k).
Proof. intros A B k. unfold parameters_for, with_defaults. cbn. repeat split. constructor; [exact A|constructor; [exact B|constructor]]. Qed.
Lemma motion_ok feats : loader_for labels feats "motion" motion_loader.
Proof. left. auto. Qed.
Lemma sound_ok feats : loader_for labels feats "sound" sound_loader.
Proof. right. left. auto. Qed.
Lemma image_ok feats : loader_for labels feats "image" (image_loader labels feats).
Proof. right. right. auto. Qed.
Lemma planned_expected e : In e exps -> expected labels Ks n_run e.
Proof.
  intro I. apply in_exps in I as [(k & i & A & B & H)|(d & i & A & B & ->)].
  - left. destruct H as [-> | [-> | [-> | ->]]]; [exists ["motion"; "sound"]%string, k, i|exists ["image"; "sound"]%string, k, i|exists ["image"; "motion"]%string, k, i|exists ["image"; "motion"; "sound"]%string, k, i];
      cbn [pl_kind pl_name pl_exper]; (split; [cbn; tauto|]); (split; [exact A|]); (split; [exact B|]); (split; [reflexivity|]).
    + apply two_loaders; [apply motion_ok|apply sound_ok].
    + apply two_loaders; [apply image_ok|apply sound_ok].
    + apply two_loaders; [apply image_ok|apply motion_ok].
    + unfold parameters_for, with_defaults. cbn. repeat split. constructor; [apply image_ok|constructor; [apply motion_ok|constructor; [apply sound_ok|constructor]]].
  - right. exists d, i. cbn [pl_kind pl_name pl_exper]. split; [exact A|]. split; [exact B|]. split; [reflexivity|]. split; [reflexivity|]. apply two_loaders; [apply image_ok|apply sound_ok].
Qed.
Lemma group_planned mods kd k i : In (mods, kd) groups -> In k Ks -> i < n_run -> exists e, In e exps /\ pl_kind e = kd /\ named mods k i (pl_name e).
Proof.
  intros G A B. cbn in G. destruct G as [E|[E|[E|[E|[]]]]]; injection E as <- <-; eexists; (split; [apply in_exps; left; exists k, i; split; [exact A|split; [exact B|]]|]).
  - left. reflexivity.
  - split; reflexivity.
  - right. left. reflexivity.
  - split; reflexivity.
  - right. right. left. reflexivity.
  - split; reflexivity.
  - right. right. right. reflexivity.
  - split; reflexivity.
Qed.
Lemma feats_planned d i : In d feature_sets -> i < n_run -> exists e, In e exps /\ pl_kind e = Two /\ named_feats d i (pl_name e).
Proof.
  intros A B. eexists. split; [apply in_exps; right; exists d, i; split; [exact A|split; [exact B|reflexivity]]|]. split; reflexivity.
Qed.
Lemma jobs_planned : Forall2 (fun e j => j_name j = pl_name e /\ script_kind (j_script j) = pl_kind e) exps jobs.
Proof.
  rewrite jobs_eq. assert (H : forall e, In e exps -> pl_kind e = Two \/ pl_kind e = Three).
  { intros e I. apply in_exps in I as [(k & i & _ & _ & [-> | [-> | [-> | ->]]])|(d & i & _ & _ & ->)]; auto. }
  induction exps as [|e l IH]; cbn [map]; constructor.
  - split; [reflexivity|]. cbn. destruct (H e (or_introl eq_refl)) as [-> | ->]; reflexivity.
  - apply IH. intros; apply H; now right.
Qed.
End P.

(** ** Names *)
Lemma exps_incl labels Ks Ks' n e : (forall k, In k Ks -> In k Ks') -> In e (exps labels Ks n) -> In e (exps labels Ks' n).
Proof.
  intros H I. apply in_exps in I. apply in_exps. destruct I as [(k & i & A & B)|X]; [left; exists k, i; split; [auto|exact B]|now right].
Qed.
Lemma name_determines labels Ks n e e' : In e (exps labels Ks n) -> In e' (exps labels Ks n) -> pl_name e = pl_name e' -> e = e'.
Proof.
  intros I I' E. apply (exps_incl _ _ (nodup Nat.eq_dec Ks)) in I; [|intros; now apply nodup_In]. apply (exps_incl _ _ (nodup Nat.eq_dec Ks)) in I'; [|intros; now apply nodup_In].
  pose proof (proj2 (names_nodup (nodup Nat.eq_dec Ks) n) (or_introl (NoDup_nodup _ _))) as N. rewrite <- (names_of_exps labels) in N.
  revert I I' N. generalize (exps labels (nodup Nat.eq_dec Ks) n). induction l as [|a l IH]; intros I I' N; [destruct I|]. cbn in N. inversion N as [|? ? N1 N2]; subst.
  destruct I as [->|I]; destruct I' as [->|I']; auto.
  - exfalso. apply N1. rewrite E. now apply in_map.
  - exfalso. apply N1. rewrite <- E. now apply in_map.
Qed.
Lemma set_same {V} (d : list (string * V)) k v : dict_get String.eqb (dict_set String.eqb d k v) k = Some v.
Proof. induction d as [|[a b] d IH]; cbn; [now rewrite String.eqb_refl|]. destruct (String.eqb a k) eqn:E; cbn; rewrite E; auto. Qed.
Lemma set_other {V} (d : list (string * V)) k v k' : k <> k' -> dict_get String.eqb (dict_set String.eqb d k v) k' = dict_get String.eqb d k'.
Proof.
  intro N. induction d as [|[a b] d IH]; cbn; [now rewrite (proj2 (String.eqb_neq k k') N)|]. destruct (String.eqb_spec a k) as [->|]; cbn; [now rewrite (proj2 (String.eqb_neq k k') N)|].
  destruct (String.eqb a k'); auto.
Qed.
Lemma by_name (l : list job) : forall d n, (In n (map j_name l) \/ exists j, dict_get String.eqb d n = Some j /\ j_name j = n) ->
  exists j, dict_get String.eqb (fold_left (fun d j => dict_set String.eqb d (j_name j) j) l d) n = Some j /\ j_name j = n.
Proof.
  induction l as [|a l IH]; intros d n H; cbn [fold_left].
  - destruct H as [[]|H]; exact H.
  - apply IH. cbn in H. destruct (String.eqb_spec (j_name a) n) as [E|N].
    + right. exists a. split; [|exact E]. rewrite E. apply set_same. 
    + destruct H as [[H|H]|(j & H & E)]; [contradiction|now left|right]. exists j. split; [|exact E]. rewrite set_other; assumption.
Qed.

(** ** Files of parameters *)
Lemma strs_writable d : @serial_spec.writable nd (VList (map VStr d)).
Proof. eexists. apply serial_proof.strings_image. Qed.
Lemma serializable_of labels ls k : NoDup (map fst ls) -> (forall m l, In (m, l) ls -> exists feats, loader_for labels feats m l) -> serial_spec.serializable (with_defaults ls k).
Proof.
  intros N H. apply serial_proof.constructed; [exact N| |constructor..].
  intros m l J. destruct (H m l J) as (feats & [(_ & ->)|[(_ & ->)|(_ & ->)]]); cbn; [exact I|eexists; constructor|apply strs_writable].
Qed.
Lemma planned_serializable labels Ks n e : In e (exps labels Ks n) -> serial_spec.serializable (pl_exper e).
Proof.
  intro I. apply in_exps in I as [(k & i & _ & _ & [-> | [-> | [-> | ->]]])|(d & i & _ & _ & ->)]; cbn [pl_exper]; (apply (serializable_of labels);
    [cbn; repeat (constructor; [cbn; intuition discriminate|]); constructor|]); intros m l H; cbn in H;
    repeat (destruct H as [[= <- <-]|H]; [first [exists []; apply motion_ok|exists []; apply sound_ok|eexists; apply image_ok]|]); destruct H.
Qed.
Section Prepare.
Variable ord : list string -> list string.
Hypothesis Ho : serial_spec.lists_sets ord.
Variable config : string -> string.
Hypothesis Hc : forall a b, config a = config b -> a = b.
Lemma configs_saved (l : list (planned * job)) : (forall e j, In (e, j) l -> serial_spec.serializable (pl_exper e) /\ j_name j = pl_name e) ->
  (forall e j e' j', In (e, j) l -> In (e', j') l -> pl_name e = pl_name e' -> e = e') ->
  forall fs, exists fs', save_configs ord config fs l = (fs', Ok tt) /\
    (forall e j, In (e, j) l -> exists e', serial_model.load_from_serialized fs' (config (pl_name e)) = Ok e' /\ serial_spec.same_experiment (pl_exper e) e') /\
    forall q, (forall e j, In (e, j) l -> q <> config (pl_name e)) -> serial_model.load_from_serialized fs' q = serial_model.load_from_serialized fs q.
Proof.
  induction l as [|[e j] l IH]; intros S N fs; cbn [save_configs].
  - exists fs. split; [reflexivity|]. split; [intros e j []|reflexivity].
  - destruct (S e j (or_introl eq_refl)) as [Se Ej]. rewrite Ej.
    destruct (serial_proof.file_round_trip ord fs (pl_exper e) (config (pl_name e)) Ho Se) as (fs1 & e' & -> & L1 & Sm & K1).
    destruct (IH (fun a b H => S a b (or_intror H)) (fun a b c d H H' => N a b c d (or_intror H) (or_intror H')) fs1) as (fs' & -> & L2 & K2).
    exists fs'. split; [reflexivity|]. split.
    + intros a b [[= <- <-]|H]; [|exact (L2 a b H)].
      destruct (in_dec string_dec (pl_name e) (map (fun p => pl_name (fst p)) l)) as [H|H].
      * apply in_map_iff in H as ([a b] & E & H). cbn in E. rewrite (N e j a b (or_introl eq_refl) (or_intror H) (eq_sym E)). exact (L2 a b H).
      * exists e'. split; [|exact Sm]. rewrite K2; [exact L1|]. intros a b Hab E. apply Hc in E. apply H. rewrite E. apply in_map_iff. exists (a, b). auto.
    + intros q H. rewrite K2, K1; [reflexivity|exact (H e j (or_introl eq_refl))|]. intros a b Hab. exact (H a b (or_intror Hab)).
Qed.
Lemma in_combine_map {A B} (f : A -> B) l a b : In (a, b) (combine l (map f l)) -> In a l /\ b = f a.
Proof. induction l as [|x l IH]; cbn; [intros []|]. intros [[= <- <-]|H]; [auto|]. destruct (IH H). auto. Qed.
Lemma combine_map_in {A B} (f : A -> B) l a : In a l -> In (a, f a) (combine l (map f l)).
Proof. induction l as [|x l IH]; cbn; [intros []|]. intros [->|H]; auto. Qed.
Lemma configs_prepared labels Ks n fs : exists fs', prepare_action labels Ks n ord config fs = (fs', Ok tt) /\
  (forall e, In e (exps labels Ks n) -> exists e', serial_model.load_from_serialized fs' (config (pl_name e)) = Ok e' /\ serial_spec.same_experiment (pl_exper e) e') /\
  forall q, (forall e, In e (exps labels Ks n) -> q <> config (pl_name e)) -> serial_model.load_from_serialized fs' q = serial_model.load_from_serialized fs q.
Proof.
  unfold prepare_action. rewrite jobs_eq. destruct (configs_saved (combine (exps labels Ks n) (map job_of (exps labels Ks n)))) with (fs := fs) as (fs' & E & L & K).
  - intros e j H. apply in_combine_map in H as [H ->]. split; [exact (planned_serializable _ _ _ _ H)|reflexivity].
  - intros e j e' j' H H'. apply in_combine_map in H as [H _]. apply in_combine_map in H' as [H' _]. now apply (name_determines labels Ks n).
  - exists fs'. split; [exact E|]. split.
    + intros e H. exact (L e _ (combine_map_in job_of _ _ H)).
    + intros q H. apply K. intros e j I. apply in_combine_map in I as [I _]. auto.
Qed.
End Prepare.
