(** * Properties of samples/image_sound_eval_sliding.py. *)

From Coq Require Import List ZArith Reals Lra Bool Arith String QArith Permutation Lia.
Import ListNotations.
From Verif Require Import Py logger_model logger_spec nd_model nd_spec pairing_model pairing_spec sparse_model learner_model learner_spec experiment_model experiment_spec
  window_model hac_model evalslide_model evalslide_spec evalslide_main.
From Verif Require experiment_proof experiment_end experiment_props launcher_props hacfeat_model sound_model hac_spec hac_props.
Open Scope py_scope.
Local Open Scope nat_scope.
Notation length := List.length.
Notation Q := QArith_base.Q.

Section Props.
Context {A F : Type} (zero : F) (wavs : wavfiles string A) (audio : nat -> result string)
  (mfcc : Q * list A -> result (mat F)) (delta : mat F -> nat -> result (mat F)) (vq : mat F -> mat F -> result (list Z)).
Notation features cb := (hac_of zero mfcc delta vq (hacfeat_model.m_codebooks cb)).
Notation evaluate := (evaluate_sliding zero wavs audio mfcc delta vq).

(** The features of a sound: for each codebook the pairs of codes of its stream (the coefficients, their first
    and their second derivatives) that are five and two steps apart, counted. *)
Theorem C120_counts cb cs s m d1 d2 qs :
  hacfeat_model.m_codebooks cb = hacfeat_model.Cells cs -> cs <> [] ->
  mfcc s = Ok m -> delta m 1 = Ok d1 -> delta m 2 = Ok d2 ->
  let used := combine [transpose zero m; transpose zero d1; transpose zero d2] cs in
  Forall2 (fun sc q => vq (fst sc) (snd sc) = Ok q /\ hac_spec.codes (Z.of_nat (length (mrows (snd sc)))) q) used qs ->
  exists vss, features cb s = Ok (List.concat (map (@List.concat nat) vss)) /\
    Forall2 (fun scq vs => Forall2 (hac_spec.counts_pairs (snd scq) (Z.of_nat (length (mrows (snd (fst scq)))))) [5; 2] vs) (combine used qs) vss.
Proof.
  intros E N Em E1 E2 used H. rewrite E.
  exact (hac_props.C54_hac F zero vq (Q * list A) mfcc delta s cs [5; 2] m d1 d2 qs Em E1 E2 N ltac:(discriminate) ltac:(repeat constructor) H).
Qed.

(** The sounds are joined and cut in windows of half a second, one every tenth of a second, as many as
    there is room for; a learner with the dictionary learnt by the run compares the features of what is
    heard in each window with the pictures of the examples; these distances and the labels of the examples
    are added to the log of the run, which is saved when it has a name, and nothing else is changed. *)
Theorem C120_sliding ord rd draws feat_dir store x p file f ms mo ld cb r (cs : list (list A)) :
  good_run ord rd x p file ms mo -> nth_error (x_loaders x) ms = Some ld ->
  dict_get String.eqb store (hacfeat_model.CODEBOOK_PATH feat_dir) = Some cb ->
  recorded wavs audio p ms (listened x p) r cs -> (10 <= r)%Q -> (1 # 2 <= lasts r (List.concat cs))%Q ->
  described (features cb) r (List.concat cs) (cols_of (ld_data ld)) ->
  exists tr te w0 f0 w f' l d n dist,
    p_generator p = Ok [(tr, te)] /\ run ord rd x file f = (w0, f0, Ok tt) /\ run_results x p tr te (value_at w0 0 0) /\
    evaluate ord rd draws feat_dir store x file f = (w, f', Ok tt) /\
    trained_with x p (samples_of p tr) l d /\ value_at w0 0 0 "dictionary" = Some (VArr d) /\
    number_of_windows (lasts r (List.concat cs)) n /\
    compared (features cb) x p l mo (kept_cols x (cols_of (ld_data ld))) r (List.concat cs) n dist /\
    added w0 w [("sliding_distances"%string, VArr dist); ("label_ex"%string, VNats (p_labels_ex p))] /\
    match file with
    | None => f' = f
    | Some path => forall w2 sf, wf_world w2 -> exists w2' j, load w2 f' path sf true = (w2', Ok j) /\ same_contents w 0 w2' j
    end.
Proof.
  intros Gr El Ec Rec R10 Hl Hf. destruct (evaluated zero wavs audio mfcc delta vq ord rd draws feat_dir store x p file f ms mo ld cb r cs Gr El Ec Rec R10 Hl Hf)
    as (tr & te & w0 & f0 & w & f' & l & d & n & dist & H1 & H2 & H3 & H4 & H5 & H6 & H7 & H8 & H9 & H10 & _). exists tr, te, w0, f0, w, f', l, d, n, dist. auto 12.
Qed.

(** Without --debug, the script that plots the results finds, from the log it has loaded, as many windows as there are rows of distances. *)
Theorem C120_plot_rows ord rd draws feat_dir store x p file f ms mo ld cb r (cs : list (list A)) :
  good_run ord rd x p file ms mo -> nth_error (x_loaders x) ms = Some ld ->
  dict_get String.eqb store (hacfeat_model.CODEBOOK_PATH feat_dir) = Some cb ->
  recorded wavs audio p ms (listened x p) r cs -> (10 <= r)%Q -> (1 # 2 <= lasts r (List.concat cs))%Q ->
  described (features cb) r (List.concat cs) (cols_of (ld_data ld)) -> x_debug x = false ->
  exists w f' dist, evaluate ord rd draws feat_dir store x file f = (w, f', Ok tt) /\ value_at w 0 0 "sliding_distances" = Some (VArr dist) /\
    forall w' j, same_contents w 0 w' j -> exists windows, plot_windows wavs audio w' j = Ok windows /\ shape dist = [length windows; length (p_examples p)].
Proof.
  intros Gr El Ec Rec R10 Hl Hf Db. destruct (plot_rows zero wavs audio mfcc delta vq ord rd draws feat_dir store x p file f ms mo ld cb r cs Gr El Ec Rec R10 Hl Hf) as (w & f' & dist & n & E & V & Sh & H & _).
  exists w, f', dist. split; [exact E|]. split; [exact V|]. intros w' j Sm. destruct (H Db w' j Sm) as (sl & Es & Ls). exists sl. split; [exact Es|]. now rewrite Ls.
Qed.
(** With --debug it finds more windows than there are rows, when there are more than ten recordings (a tenth of a second more is enough). *)
Theorem C120_plot_rows_debug_refuted ord rd draws feat_dir store x p file f ms mo ld cb r (cs all : list (list A)) :
  good_run ord rd x p file ms mo -> nth_error (x_loaders x) ms = Some ld ->
  dict_get String.eqb store (hacfeat_model.CODEBOOK_PATH feat_dir) = Some cb ->
  recorded wavs audio p ms (listened x p) r cs -> (10 <= r)%Q -> (1 # 2 <= lasts r (List.concat cs))%Q ->
  described (features cb) r (List.concat cs) (cols_of (ld_data ld)) -> x_debug x = true ->
  recorded wavs audio p ms (length (p_pairing p)) r all -> (lasts r (List.concat cs) + (1 # 10) + slack <= lasts r (List.concat all))%Q ->
  exists w f' dist rows, evaluate ord rd draws feat_dir store x file f = (w, f', Ok tt) /\
    value_at w 0 0 "sliding_distances" = Some (VArr dist) /\ shape dist = [rows; length (p_examples p)] /\
    forall w' j, same_contents w 0 w' j -> exists windows, plot_windows wavs audio w' j = Ok windows /\ rows < length windows.
Proof.
  intros Gr El Ec Rec R10 Hl Hf _ Ra Ha. destruct (plot_rows zero wavs audio mfcc delta vq ord rd draws feat_dir store x p file f ms mo ld cb r cs Gr El Ec Rec R10 Hl Hf) as (w & f' & dist & n & E & V & Sh & _ & H).
  exists w, f', dist, n. split; [exact E|]. split; [exact V|]. split; [exact Sh|]. exact (H all Ra Ha).
Qed.

(** When the sounds last less than half a second, ValueError; the log of the run is left as it is. *)
Theorem C120_short ord rd draws feat_dir store x p file f ms mo cb r (cs : list (list A)) :
  good_run ord rd x p file ms mo -> dict_get String.eqb store (hacfeat_model.CODEBOOK_PATH feat_dir) = Some cb ->
  recorded wavs audio p ms (listened x p) r cs -> (0 < r)%Q -> cs <> [] -> (lasts r (List.concat cs) + slack < 1 # 2)%Q ->
  exists w0 f0, run ord rd x file f = (w0, f0, Ok tt) /\ evaluate ord rd draws feat_dir store x file f = (w0, f0, Err ValueError).
Proof. apply refused_short. Qed.

(** When the codebooks give another number of features than the data have, AssertionError; with --debug, more features are accepted,
    since only the first are kept. *)
Theorem C120_features ord rd draws feat_dir store x p file f ms mo ld cb r (cs : list (list A)) D :
  good_run ord rd x p file ms mo -> nth_error (x_loaders x) ms = Some ld -> dict_get String.eqb store (hacfeat_model.CODEBOOK_PATH feat_dir) = Some cb ->
  recorded wavs audio p ms (listened x p) r cs -> (10 <= r)%Q -> (1 # 2 <= lasts r (List.concat cs))%Q ->
  described (features cb) r (List.concat cs) D ->
  (if x_debug x then D < Nat.min 11 (cols_of (ld_data ld)) else D <> cols_of (ld_data ld)) ->
  exists w0 f0, run ord rd x file f = (w0, f0, Ok tt) /\ evaluate ord rd draws feat_dir store x file f = (w0, f0, Err AssertionError).
Proof. apply refused_features. Qed.

(** Without the file of the codebooks it never ends well. *)
Theorem C120_no_codebooks ord rd draws feat_dir store x file f : dict_get String.eqb store (hacfeat_model.CODEBOOK_PATH feat_dir) = None ->
  forall w f' u, evaluate ord rd draws feat_dir store x file f = (w, f', u) -> u <> Ok tt.
Proof. apply no_codebooks. Qed.

Lemma new_ok objects_first objects sounds debug : experiment_of_script objects sounds debug (new_experiment objects_first objects sounds debug).
Proof. unfold experiment_of_script. destruct objects_first; cbn; intuition. Qed.
(** The command line: [--debug] first, then a name and a directory, each of which may be left out from the end. *)
Theorem C120_arguments expanduser cwd prog (debug : bool) (name dir : option string) :
  name <> Some "--debug"%string -> (name = None -> dir = None) ->
  let opt o := match o with Some a => [a] | None => [] end in
  let argv := (prog :: (if debug then ["--debug"%string] else []) ++ opt name ++ opt dir)%list in
  forall objects_first objects sounds, exists x, experiment_of_script objects sounds debug x /\ forall ord rd draws feat_dir store f,
  script zero wavs audio mfcc delta vq expanduser cwd argv objects_first objects sounds ord rd draws feat_dir store f =
  evaluate ord rd draws feat_dir store x
    (option_map (fun n => sound_model.path_join (sound_model.path_join cwd (match dir with Some d => expanduser d | None => "" end)) n) name) f.
Proof.
  intros Nd Dn opt argv objects_first objects sounds. exists (new_experiment objects_first objects sounds debug). split; [apply new_ok|]. intros ord rd draws feat_dir store f. unfold argv, opt, script.
  destruct name as [n|]; [|rewrite (Dn eq_refl); destruct debug; reflexivity]. destruct debug; [destruct dir; reflexivity|].
  assert (E : String.eqb n "--debug" = false) by (apply String.eqb_neq; congruence). destruct dir; cbn [app pop_debug]; rewrite E; reflexivity.
Qed.
(** [--debug] after the name is not an option: it is taken for the directory and the whole experiment is run. *)
Theorem C120_debug_last_refuted expanduser cwd prog name : name <> "--debug"%string ->
  forall objects_first objects sounds, exists x, experiment_of_script objects sounds false x /\ forall ord rd draws feat_dir store f,
  script zero wavs audio mfcc delta vq expanduser cwd [prog; name; "--debug"%string] objects_first objects sounds ord rd draws feat_dir store f =
  evaluate ord rd draws feat_dir store x
    (Some (sound_model.path_join (sound_model.path_join cwd (expanduser "--debug"%string)) name)) f.
Proof.
  intros Nd objects_first objects sounds. exists (new_experiment objects_first objects sounds false). split; [apply new_ok|]. intros ord rd draws feat_dir store f. unfold script. cbn [pop_debug].
  assert (E : String.eqb name "--debug" = false) by (apply String.eqb_neq; congruence). rewrite E. reflexivity.
Qed.
End Props.

Print Assumptions C120_counts.
Print Assumptions C120_sliding.
Print Assumptions C120_plot_rows.
Print Assumptions C120_plot_rows_debug_refuted.
Print Assumptions C120_short.
Print Assumptions C120_features.
Print Assumptions C120_no_codebooks.
Print Assumptions C120_arguments.
Print Assumptions C120_debug_last_refuted.

(** ** Example: 33 samples of one label, recordings of ten samples at ten samples a second, one codebook of one vector. *)
Definition ex_ld := Loader (repeat "a"%string 33) (Dense (nd_model.mat 2 (repeat [1%R; 1%R] 33))).
Definition ex_rd := launcher_props.ex_rd3 2.
Definition ex_x d := new_experiment true ex_ld ex_ld d.
Definition ex_cb : hacfeat_model.mat_file unit := hacfeat_model.MatFile (hacfeat_model.Cells [Mat 1 [[tt]]]) None.
Definition ex_store := [(hacfeat_model.CODEBOOK_PATH "feats", ex_cb)].
Definition ex_wavs n (_ : string) : result (Q * list unit) := Ok (10#1, repeat tt n).
Definition ex_audio (_ : nat) : result string := Ok "r.wav"%string.
Definition ex_mfcc (_ : Q * list unit) : result (mat unit) := Ok (Mat 1 [[tt]]).
Definition ex_delta (m : mat unit) (_ : nat) : result (mat unit) := Ok m.
Definition ex_vq (_ _ : mat unit) : result (list Z) := Ok (repeat 0%Z 10).
Lemma ex_features s : hac_of tt ex_mfcc ex_delta ex_vq (hacfeat_model.m_codebooks ex_cb) s = Ok [5; 8].
Proof. reflexivity. Qed.
Lemma ex_paired d : exists t, associate_samples String.eqb (r_names ex_rd) (r_buckets ex_rd) (map ld_labels (x_loaders (ex_x d))) =
  Ok (repeat ["a"%string] 2, repeat 0 33, t) /\ length t = 33.
Proof. eexists. split; reflexivity. Qed.
Lemma ex_sound d : sound (ex_x d) /\ legal (ex_x d) ex_rd /\ enough (ex_x d) ex_rd.
Proof.
  assert (I : forall ld, In ld [ex_ld; ex_ld] -> ld = ex_ld) by (intros ld [<-|[<-|[]]]; reflexivity). split; [|split].
  - unfold sound, ex_x, new_experiment. cbn [x_mods x_loaders x_coefs x_k x_iter_train x_iter_test]. split; [repeat (constructor; [cbn; intuition discriminate|]); constructor|]. split; [discriminate|]. split; [reflexivity|].
    split; [|split; [|split; [|split; [lia|split; lia]]]].
    + intros ld H. rewrite (I ld H). split; [exists 2; reflexivity|]. apply experiment_props.ex_nonneg_mat. apply Forall_forall. intros x Hx. apply repeat_spec in Hx. subst. repeat constructor; lra.
    + exists 1. split; [lia|]. intros ld H. rewrite (I ld H). exists ["a"%string]. split; [exact launcher_props.ex_one|reflexivity].
    + intros ld H. rewrite (I ld H). exists [0; 0]. split; [cbn; lia|cbn; lra].
  - split; [|split; [|split]].
    + repeat (constructor; [exact launcher_props.ex_one|]). constructor.
    + intros m i l. apply Permutation_refl.
    + intro l. apply Permutation_refl.
    + intros ns l t E. destruct (ex_paired d) as (t' & E' & _). rewrite E' in E. assert (l = repeat 0 33) by congruence. subst l. assert ((if x_debug (ex_x d) then firstn 200 (repeat 0 33) else repeat 0 33) = repeat 0 33) as -> by (destruct d; reflexivity).
      split; [repeat constructor; auto|]. intro v. split; [intros [<-|[]]; now left|]. intro H. apply repeat_spec in H. subst. now left.
  - intros ns l t E. destruct (ex_paired d) as (t' & E' & Lt). rewrite E' in E. assert (t = t') by congruence. subst t. unfold kept_rows. rewrite Lt. destruct d; exact launcher_props.ex_split.
Qed.

Lemma ex_run d file : match file with Some path => ~ has_suffix path ".npz" | None => True end ->
  exists p, good_run (fun l => l) ex_rd (ex_x d) p file 1 0 /\ length (p_pairing p) = 33.
Proof.
  intro Gn. destruct (ex_sound d) as (Sd & G & En).
  assert (Cl : forall m, In m (x_mods (ex_x d)) -> clean m) by (intros m [<-|[<-|[]]]; unfold clean, lacks; cbn; intuition discriminate).
  assert (Kb : x_kind (ex_x d) <> Base) by discriminate. assert (K3 : x_kind (ex_x d) = Three -> 3 <= length (x_mods (ex_x d))) by discriminate.
  destruct (experiment_end.run_succeeds ex_rd (ex_x d) file Sd G En Kb Cl K3) as (p & _ & _ & Ep & _).
  exists p. split.
  - unfold good_run. split; [intros s k; reflexivity|]. split; [exact Gn|]. split; [exact Sd|]. split; [exact G|]. split; [exact En|]. split; [reflexivity|]. split; [reflexivity|]. split; [exact Cl|]. split; [exact Ep|]. split; reflexivity.
  - destruct (experiment_proof.prepare_inv _ _ _ Ep) as [P]. pose proof (experiment_proof.pb_pair _ _ _ P) as E. destruct (ex_paired d) as (t & E' & L). unfold ex_rd in *. rewrite E' in E. congruence.
Qed.
Lemma ex_recorded p n k : recorded (ex_wavs k) ex_audio p 1 n (10#1) (repeat (repeat tt k) n).
Proof.
  unfold recorded. generalize (seq_length n 0). generalize (seq 0 n). induction n as [|n IH]; intros [|t l] E; try discriminate E; cbn [repeat]; constructor; [|apply IH; now injection E].
  exists "r.wav"%string. split; reflexivity.
Qed.
Lemma ex_lasts n k : lasts (10#1) (List.concat (repeat (repeat tt k) n)) = (inject_Z (Z.of_nat (n * k)) / (10#1))%Q.
Proof.
  unfold lasts. do 3 f_equal. induction n as [|n IH]; [reflexivity|]. cbn [repeat List.concat Nat.mul]. rewrite app_length, repeat_length, IH. reflexivity.
Qed.
Lemma ex_described all : described (hac_of tt ex_mfcc ex_delta ex_vq (hacfeat_model.m_codebooks ex_cb)) (10#1) all (cols_of (ld_data ex_ld)).
Proof. intros i s _ _. exists [5; 8]. split; reflexivity. Qed.

Example C120_ex file f draws : match file with Some path => ~ has_suffix path ".npz" | None => True end -> exists p w f' dist,
  length (p_pairing p) = 33 /\ evaluate_sliding tt (ex_wavs 10) ex_audio ex_mfcc ex_delta ex_vq (fun l => l) ex_rd draws "feats" ex_store (ex_x false) file f = (w, f', Ok tt) /\
  value_at w 0 0 "sliding_distances" = Some (VArr dist) /\
  forall w' j, same_contents w 0 w' j -> exists windows, plot_windows (ex_wavs 10) ex_audio w' j = Ok windows /\ shape dist = [length windows; length (p_examples p)].
Proof.
  intro Gn. destruct (ex_run false file Gn) as (p & Gr & L). exists p.
  destruct (C120_plot_rows tt (ex_wavs 10) ex_audio ex_mfcc ex_delta ex_vq (fun l => l) ex_rd draws "feats" ex_store (ex_x false) p file f 1 0 ex_ld ex_cb (10#1) (repeat (repeat tt 10) 33) Gr) as (w & f' & dist & H1 & H2 & H3);
    [reflexivity|reflexivity| |discriminate|rewrite ex_lasts; vm_compute; discriminate|apply ex_described|reflexivity|exists w, f', dist; auto].
  unfold listened. cbn [ex_x new_experiment x_debug]. rewrite L. apply ex_recorded.
Qed.
Example C120_ex_sliding file f draws : match file with Some path => ~ has_suffix path ".npz" | None => True end -> exists w f' dist n,
  evaluate_sliding tt (ex_wavs 10) ex_audio ex_mfcc ex_delta ex_vq (fun l => l) ex_rd draws "feats" ex_store (ex_x false) file f = (w, f', Ok tt) /\
  value_at w 0 0 "sliding_distances" = Some (VArr dist) /\ number_of_windows (inject_Z 330 / (10#1)) n.
Proof.
  intro Gn. destruct (ex_run false file Gn) as (p & Gr & L).
  destruct (C120_sliding tt (ex_wavs 10) ex_audio ex_mfcc ex_delta ex_vq (fun l => l) ex_rd draws "feats" ex_store (ex_x false) p file f 1 0 ex_ld ex_cb (10#1) (repeat (repeat tt 10) 33) Gr)
    as (tr & te & w0 & f0 & w & f' & l & d & n & dist & _ & _ & _ & H4 & _ & _ & H7 & _ & (_ & _ & H9) & _);
    [reflexivity|reflexivity| |discriminate|rewrite ex_lasts; vm_compute; discriminate|apply ex_described|].
  - unfold listened. cbn [ex_x new_experiment x_debug]. rewrite L. apply ex_recorded.
  - exists w, f', dist, n. split; [exact H4|]. split; [rewrite H9; reflexivity|]. rewrite ex_lasts in H7. exact H7.
Qed.
Example C120_ex_debug file f draws : match file with Some path => ~ has_suffix path ".npz" | None => True end -> exists p w f' dist rows,
  evaluate_sliding tt (ex_wavs 10) ex_audio ex_mfcc ex_delta ex_vq (fun l => l) ex_rd draws "feats" ex_store (ex_x true) file f = (w, f', Ok tt) /\
  value_at w 0 0 "sliding_distances" = Some (VArr dist) /\ shape dist = [rows; length (p_examples p)] /\
  forall w' j, same_contents w 0 w' j -> exists windows, plot_windows (ex_wavs 10) ex_audio w' j = Ok windows /\ rows < length windows.
Proof.
  intro Gn. destruct (ex_run true file Gn) as (p & Gr & L). exists p.
  apply (C120_plot_rows_debug_refuted tt (ex_wavs 10) ex_audio ex_mfcc ex_delta ex_vq (fun l => l) ex_rd draws "feats" ex_store (ex_x true) p file f 1 0 ex_ld ex_cb (10#1) (repeat (repeat tt 10) 10) (repeat (repeat tt 10) 33) Gr);
    [reflexivity|reflexivity| |discriminate|rewrite ex_lasts; vm_compute; discriminate|apply ex_described|reflexivity| |rewrite !ex_lasts; vm_compute; discriminate].
  - unfold listened. cbn [ex_x new_experiment x_debug]. rewrite L. apply ex_recorded.
  - rewrite L. apply ex_recorded.
Qed.
(** Ten recordings of no sample; features of another number. *)
Example C120_ex_short f draws : exists w0 f0,
  evaluate_sliding tt (ex_wavs 0) ex_audio ex_mfcc ex_delta ex_vq (fun l => l) ex_rd draws "feats" ex_store (ex_x true) None f = (w0, f0, Err ValueError).
Proof.
  destruct (ex_run true None I) as (p & Gr & L).
  destruct (C120_short tt (ex_wavs 0) ex_audio ex_mfcc ex_delta ex_vq (fun l => l) ex_rd draws "feats" ex_store (ex_x true) p None f 1 0 ex_cb (10#1) (repeat (repeat tt 0) 10) Gr) as (w0 & f0 & _ & E);
    [reflexivity| |reflexivity|discriminate|rewrite ex_lasts; reflexivity|eauto].
  unfold listened. cbn [ex_x new_experiment x_debug]. rewrite L. apply ex_recorded.
Qed.
Example C120_ex_features f draws : exists w0 f0,
  evaluate_sliding tt (ex_wavs 10) ex_audio ex_mfcc ex_delta ex_vq (fun l => l) ex_rd draws "feats" [(hacfeat_model.CODEBOOK_PATH "feats", hacfeat_model.MatFile (hacfeat_model.Cells [Mat 1 [[tt]]; Mat 1 [[tt]]]) None)]
    (ex_x false) None f = (w0, f0, Err AssertionError).
Proof.
  destruct (ex_run false None I) as (p & Gr & L).
  destruct (C120_features tt (ex_wavs 10) ex_audio ex_mfcc ex_delta ex_vq (fun l => l) ex_rd draws "feats" [(hacfeat_model.CODEBOOK_PATH "feats", hacfeat_model.MatFile (hacfeat_model.Cells [Mat 1 [[tt]]; Mat 1 [[tt]]]) None)]
    (ex_x false) p None f 1 0 ex_ld (hacfeat_model.MatFile (hacfeat_model.Cells [Mat 1 [[tt]]; Mat 1 [[tt]]]) None) (10#1) (repeat (repeat tt 10) 33) 4 Gr) as (w0 & f0 & _ & E);
    [reflexivity|reflexivity| |discriminate|rewrite ex_lasts; vm_compute; discriminate|intros i s _ _; exists [5; 8; 5; 8]; split; reflexivity|cbn; lia|eauto].
  unfold listened. cbn [ex_x new_experiment x_debug]. rewrite L. apply ex_recorded.
Qed.
Example C120_ex_arguments :
  pop_debug ["s"; "--debug"; "sliding"; "~/out"]%string = (true, ["s"; "sliding"; "~/out"]%string) /\
  log_name (fun s => s) "/home" ["s"; "sliding"; "out"]%string = Some "/home/out/sliding"%string /\
  log_name (fun s => s) "/home" ["s"; "sliding"]%string = Some "/home/sliding"%string.
Proof. repeat split; reflexivity. Qed.
Example C120_ex_counts s : exists vss, hac_of tt ex_mfcc ex_delta ex_vq (hacfeat_model.m_codebooks ex_cb) s = Ok (List.concat (map (@List.concat nat) vss)) /\ List.concat (map (@List.concat nat) vss) = [5; 8].
Proof.
  destruct (C120_counts tt ex_mfcc ex_delta ex_vq ex_cb [Mat 1 [[tt]]] s (Mat 1 [[tt]]) (Mat 1 [[tt]]) (Mat 1 [[tt]]) [repeat 0%Z 10] eq_refl ltac:(discriminate) eq_refl eq_refl eq_refl) as (vss & E & _).
  - constructor; [|constructor]. split; [reflexivity|]. cbn. repeat (constructor; [lia|]). constructor.
  - exists vss. split; [exact E|]. rewrite ex_features in E. congruence.
Qed.
