(** * Properties of samples/icdl2013.py and samples/image_sound.py. *)

From Coq Require Import List ZArith Reals Bool Arith String QArith Lia Lra Permutation.
Import ListNotations.
From Verif Require Import Py utils_model utils_spec logger_model logger_spec nd_model nd_spec sparse_model pairing_model experiment_model experiment_spec figures_model figures_spec
  tenths_model tenths_spec tenths_proof.
From Verif Require experiment_props launcher_props.
Local Open Scope nat_scope.

(** C122: the scripts do ten runs, test in each another tenth of the samples and print the table of averages and deviations over the
    ten runs; files are left as they are.  [--debug] is an option only as first argument, the other arguments have no effect. *)
Theorem C122_icdl2013 : forall (argv : list string) (first_first : bool) (motion sounds : loader),
  exists x debug, on_two "motion" "sound" motion sounds debug x /\ (debug = true <-> exists prog rest, argv = prog :: "--debug"%string :: rest) /\
  forall (ord : list string -> list string) (rd : random) (f : fs nd), sound x -> legal x rd -> ten_samples x rd ->
  exists p splits w rows, prepare rd x = Ok p /\ ten_runs (List.length (p_labels p)) splits /\ runs_of w 0 = Some 10 /\
    (forall q tr te, nth_error splits q = Some (tr, te) -> run_results x p tr te (value_at w 0 q)) /\
    icdl2013 argv first_first motion sounds ord rd f = (w, f, rows, Ok tt) /\ table_of x p splits rows.
Proof. intros. apply table_ok; unfold clean, lacks; cbn; intuition discriminate. Qed.
Print Assumptions C122_icdl2013.

Theorem C122_image_sound : forall (argv : list string) (first_first : bool) (objects sounds : loader),
  exists x debug, on_two "objects" "sound" objects sounds debug x /\ (debug = true <-> exists prog rest, argv = prog :: "--debug"%string :: rest) /\
  forall (ord : list string -> list string) (rd : random) (f : fs nd), sound x -> legal x rd -> ten_samples x rd ->
  exists p splits w rows, prepare rd x = Ok p /\ ten_runs (List.length (p_labels p)) splits /\ runs_of w 0 = Some 10 /\
    (forall q tr te, nth_error splits q = Some (tr, te) -> run_results x p tr te (value_at w 0 q)) /\
    image_sound argv first_first objects sounds ord rd f = (w, f, rows, Ok tt) /\ table_of x p splits rows.
Proof. intros. apply table_ok; unfold clean, lacks; cbn; intuition discriminate. Qed.
Print Assumptions C122_image_sound.

(** With fewer than ten samples, ValueError before the first run: nothing is printed. *)
Theorem C122_few : forall (argv : list string) (first_first : bool) (n1 n2 : string) (l1 l2 : loader),
  exists x debug, on_two n1 n2 l1 l2 debug x /\ (debug = true <-> exists prog rest, argv = prog :: "--debug"%string :: rest) /\
  forall (ord : list string -> list string) (rd : random) (f : fs nd) (p : prepared), legal x rd -> prepare rd x = Ok p -> List.length (p_labels p) < 10 ->
  exists w, table_script n1 n2 argv first_first l1 l2 ord rd f = (w, f, [], Err ValueError) /\ runs_of w 0 = Some 0.
Proof. intros. apply table_few. Qed.
Print Assumptions C122_few.

(** The default ratio is the double nearest to 0.1: ten runs, and exactly n / 10 samples, rounded down, in each test set. *)
Theorem C122_tenth : round64 (/ 10) = Q2R tenth /\ reps_of round64 (Q2R tenth) = 10%Z /\
  forall n, (Z.of_nat n <= 2 ^ 50)%Z -> nb_test_of round64 n (Q2R tenth) = Z.of_nat (Nat.div n 10).
Proof. split; [exact tenth_rounded|]. split; [exact ten_times|exact tenth_of]. Qed.
Print Assumptions C122_tenth.

(** ** Example: 33 samples of one label in two modalities. *)
Definition ex_ld := Loader (repeat "a"%string 33) (Dense (nd_model.mat 2 (repeat [1%R; 1%R] 33))).
Definition ex_rd := launcher_props.ex_rd3 2.
Lemma ex_hyps x d : on_two "motion" "sound" ex_ld ex_ld d x -> sound x /\ legal x ex_rd /\ ten_samples x ex_rd.
Proof.
  intros (_ & Hm & Hk & Ht & He & Hc & _ & Hd). assert (Hl : x_loaders x = [ex_ld; ex_ld]) by tauto.
  assert (Ep : exists t, associate_samples String.eqb (r_names ex_rd) (r_buckets ex_rd) (map ld_labels (x_loaders x)) = Ok (repeat ["a"%string] 2, repeat 0 33, t) /\ List.length t = 33).
  { rewrite Hl. eexists. split; reflexivity. }
  assert (I : forall ld, In ld [ex_ld; ex_ld] -> ld = ex_ld) by (intros ld [<-|[<-|[]]]; reflexivity). split; [|split].
  - unfold sound. rewrite Hl, Hk, Ht, He, Hc. split; [destruct Hm as [[-> _]|[-> _]]; repeat (constructor; [cbn; intuition discriminate|]); constructor|]. split; [destruct Hm as [[-> _]|[-> _]]; discriminate|].
    split; [destruct Hm as [[-> _]|[-> _]]; reflexivity|]. split; [|split; [|split; [|split; [lia|split; lia]]]].
    + intros ld H. rewrite (I ld H). split; [exists 2; reflexivity|]. apply experiment_props.ex_nonneg_mat. apply Forall_forall. intros r Hr. apply repeat_spec in Hr. subst. repeat constructor; lra.
    + exists 1. split; [lia|]. intros ld H. rewrite (I ld H). exists ["a"%string]. split; [exact launcher_props.ex_one|reflexivity].
    + intros ld H. rewrite (I ld H). exists [0; 0]. split; [cbn; lia|cbn; lra].
  - unfold legal. split; [|split; [|split]].
    + rewrite Hl. repeat (constructor; [exact launcher_props.ex_one|]). constructor.
    + intros m i l. apply Permutation_refl.
    + intro l. apply Permutation_refl.
    + intros ns l t E. destruct Ep as (t' & E' & _). rewrite E' in E. assert (l = repeat 0 33) by congruence. subst l. rewrite Hd. assert ((if d then firstn 200 (repeat 0 33) else repeat 0 33) = repeat 0 33) as -> by (destruct d; reflexivity).
      split; [repeat constructor; auto|]. intro v. split; [intros [<-|[]]; now left|]. intro H. apply repeat_spec in H. subst. now left.
  - intros ns l t E. destruct Ep as (t' & E' & Lt). rewrite E' in E. assert (t = t') by congruence. subst t. unfold kept_rows. rewrite Lt, Hd. destruct d; cbn; lia.
Qed.
(** The table of such an experiment has six lines. *)
Example C122_ex : forall f, exists w rows, icdl2013 ["icdl2013.py"; "--debug"]%string true ex_ld ex_ld (fun s => s) ex_rd f = (w, f, rows, Ok tt) /\ List.length rows = 6.
Proof.
  intro f. destruct (C122_icdl2013 ["icdl2013.py"; "--debug"]%string true ex_ld ex_ld) as (x & d & O & _ & H). destruct (ex_hyps x d O) as (So & Le & T).
  destruct (H (fun s => s) ex_rd f So Le T) as (p & splits & w & rows & _ & _ & _ & _ & E & Tb). exists w, rows. split; [exact E|].
  clear -Tb. unfold table_of in Tb. cbn [list_prod map app] in Tb. apply Forall2_length in Tb || (repeat (match goal with F : Forall2 _ _ _ |- _ => inversion F; clear F; subst end)); reflexivity.
Qed.
