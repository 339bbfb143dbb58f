(** * Histograms of joint angles: the whole computation. *)

From Coq Require Import List ZArith Arith Reals Bool String Lia Lra.
Import ListNotations.
From Verif Require Import Py Py_proof ListUtil utils_model utils_proof hac_model quant_model quant_spec quant_proof
  transf_model angle_model angle_spec angle_proof.
Open Scope py_scope.
Local Open Scope R_scope.

(** ** Data of one degree of freedom *)
Lemma column_value a d : Forall (fun r => List.length r = 30%nat) a -> (d < 30)%nat ->
  column a d = Ok (map (fun r => nth d r 0) a).
Proof.
  intros F D. unfold column. induction F as [|r a L F IH]; [reflexivity|]. cbn [mapM map]. rewrite IH.
  rewrite (nth_error_nth' r 0) by lia. reflexivity.
Qed.

Lemma dof_data_value angles vels d : Forall2 same_shape angles vels -> (d < 30)%nat ->
  dof_data angles vels d = Ok (map (fun av => Mat 2 (frames None None d av)) (combine angles vels)).
Proof.
  intros F D. unfold dof_data. induction F as [|a v angles vels S F IH]; [reflexivity|].
  destruct S as ((Na & Fa) & (Nv & Fv) & L). cbn [combine mapM map]. rewrite IH. cbn [fst snd].
  rewrite (column_value a d Fa D), (column_value v d Fv D). cbn [bind]. unfold two_columns.
  rewrite !map_length, L, Nat.eqb_refl. cbn [bind]. do 3 f_equal. unfold frames. cbn [fst snd cut].
  clear. revert v. induction a as [|x a IH]; intros [|y v]; try reflexivity. cbn. f_equal. apply IH.
Qed.

Definition cut_all (b : option (R * R)) (arrs : list (list (list R))) : list (list (list R)) := map (map (map (cut b))) arrs.
Lemma cut_none arrs : cut_all None arrs = arrs.
Proof.
  unfold cut_all. rewrite <- map_id. apply map_ext. intros a. rewrite <- map_id. apply map_ext. intros r.
  rewrite <- map_id. apply map_ext. reflexivity.
Qed.
Lemma filter_cut v arrs b : elements (filter_values v arrs b) = cut_all (Some b) arrs.
Proof. destruct b as (lo & hi). destruct v; reflexivity. Qed.

Lemma cut_shape b vb angles vels : Forall2 same_shape angles vels -> Forall2 same_shape (cut_all b angles) (cut_all vb vels).
Proof.
  intros F. induction F as [|a v angles vels (A & V & L) F IH]; cbn; constructor; [|exact IH].
  split; [apply cut_array, A|]. split; [apply cut_array, V|]. rewrite !map_length. exact L.
Qed.

Lemma frames_cut b vb d a v : Forall (fun r => List.length r = 30%nat) a -> Forall (fun r => List.length r = 30%nat) v -> (d < 30)%nat ->
  frames None None d (map (map (cut b)) a, map (map (cut vb)) v) = frames b vb d (a, v).
Proof.
  intros Fa. unfold frames. cbn [fst snd]. revert v. induction Fa as [|r a L Fa IH]; intros v Fv D; [reflexivity|].
  destruct Fv as [|s v L' Fv]; [reflexivity|]. cbn [map combine fst snd]. rewrite (IH v Fv D).
  assert (G : forall (c : option (R * R)) (x : list R), List.length x = 30%nat -> nth d (map (cut c) x) 0 = cut c (nth d x 0)).
  { intros c x E. rewrite (nth_indep _ 0 (cut c 0)) by (rewrite map_length; lia). apply map_nth. }
  cbn [cut]. rewrite !G by assumption. reflexivity.
Qed.

Lemma dof_data_cut b vb angles vels d : Forall2 same_shape angles vels -> (d < 30)%nat ->
  dof_data (cut_all b angles) (cut_all vb vels) d = Ok (map (fun av => Mat 2 (frames b vb d av)) (combine angles vels)).
Proof.
  intros F D. rewrite dof_data_value by (try exact D; apply cut_shape, F). f_equal.
  induction F as [|a v angles vels ((_ & A) & (_ & V) & L) F IH]; [reflexivity|]. cbn [cut_all map combine].
  change (map (map (map (cut b))) angles) with (cut_all b angles). change (map (map (map (cut vb))) vels) with (cut_all vb vels).
  rewrite IH, frames_cut by assumption. reflexivity.
Qed.

Lemma frames_length b vb d a v : List.length v = List.length a -> List.length (frames b vb d (a, v)) = List.length a.
Proof. intros L. unfold frames. rewrite map_length, combine_length. cbn [fst snd]. lia. Qed.

Lemma frames_rect b vb d av : Forall (fun r => List.length r = 2%nat) (frames b vb d av).
Proof. apply Forall_forall. intros r I. apply in_map_iff in I. destruct I as (p & <- & _). reflexivity. Qed.

Lemma all_frames_rect b vb d angles vels : rect (all_frames b vb d angles vels).
Proof.
  unfold rect, all_frames. cbn [mcols mrows]. induction (combine angles vels) as [|av l IH]; [constructor|].
  cbn. apply Forall_app. split; [apply frames_rect|exact IH].
Qed.

Lemma all_frames_length b vb d angles vels : Forall2 same_shape angles vels ->
  List.length (mrows (all_frames b vb d angles vels)) = list_sum (map (@List.length (list R)) angles).
Proof.
  intros F. unfold all_frames. cbn [mrows]. induction F as [|a v angles vels (_ & _ & L) F IH]; [reflexivity|].
  cbn [combine map List.concat]. rewrite app_length, frames_length by exact L. rewrite IH. reflexivity.
Qed.

Lemma compact_frames b vb d angles vels : angles <> [] -> Forall2 same_shape angles vels ->
  compact_examples (map (fun av => Mat 2 (frames b vb d av)) (combine angles vels)) =
  Ok (all_frames b vb d angles vels, cumsum (map (@List.length (list R)) angles)).
Proof.
  intros N F. unfold compact_examples. rewrite (vstack_ok _ 2).
  - cbn [bind]. f_equal. f_equal.
    + unfold all_frames. f_equal. rewrite flat_map_concat_map, map_map. reflexivity.
    + f_equal. rewrite map_map. cbn [mrows]. clear N. induction F as [|a v angles vels (_ & _ & L) F IH]; [reflexivity|].
      cbn [combine map]. rewrite IH, frames_length by exact L. reflexivity.
  - destruct F; [congruence|discriminate].
  - apply Forall_forall. intros m I. apply in_map_iff in I. destruct I as (av & <- & _). reflexivity.
Qed.

(** ** The steps of the whole computation under Python 2 *)
Lemma mapM_eq {A B} (f : A -> result B) (g : A -> B) l : (forall x, In x l -> f x = Ok (g x)) -> mapM f l = Ok (map g l).
Proof.
  intros H. induction l as [|x l IH]; [reflexivity|]. cbn [mapM map]. rewrite (H x (or_introl eq_refl)). cbn [bind].
  rewrite IH by (intros y I; apply H; right; exact I). reflexivity.
Qed.

Lemma all_data_value b vb angles vels dofs : Forall2 same_shape angles vels -> Forall (fun d => (d < 30)%nat) dofs ->
  all_data (cut_all b angles) (AsList (cut_all vb vels)) dofs =
  Ok (map (fun d => map (fun av => Mat 2 (frames b vb d av)) (combine angles vels)) dofs).
Proof.
  intros F D. induction D as [|d dofs K D IH]; [reflexivity|]. cbn [all_data elements after map].
  rewrite dof_data_cut by assumption. cbn [bind]. rewrite IH. reflexivity.
Qed.

Lemma first_width b angles : angles <> [] -> Forall angle_array angles -> exists first,
  py_nth (cut_all b angles) 0 = Ok first /\ List.length (hd [] first) = 30%nat.
Proof.
  intros N F. destruct F as [|a angles (NA & FA) F]; [congruence|]. exists (map (map (cut b)) a). split.
  - unfold py_nth, norm_index. cbn [cut_all map]. cbn [List.length]. reflexivity.
  - destruct FA as [|r a L FA]; [congruence|]. cbn [map hd]. rewrite map_length. exact L.
Qed.

Lemma dofs_small : Forall (fun d => (d < 30)%nat) (seq 0 30).
Proof. apply Forall_forall. intros d I. apply in_seq in I. lia. Qed.

Lemma shapes_left angles vels : Forall2 same_shape angles vels -> Forall angle_array angles.
Proof. intros F. induction F as [|a v angles vels (A & _) F IH]; constructor; assumption. Qed.

Section Run.
Variable whiten : mat R -> result (mat R).
Variable kmeans : mat R -> nat -> result (mat R).
Variable vq : mat R -> mat R -> result (list nat).

(** What remains once the data of the degrees of freedom are known. *)
Definition finish (nb_ex nb_bins : nat) (soft : option R) (ns : list nat) (stacked : list (mat R)) : result (list (list R)) :=
  white <- mapM whiten stacked ;;
  centro <- mapM (fun d => kmeans d nb_bins) white ;;
  histos <- mapM (fun dc => get_histos vq (fst dc) (snd dc) soft) (combine white centro) ;;
  group 30 nb_ex nb_bins histos (map (fun d => (d, cumsum ns)) stacked).

Lemma mapM_map {A B C} (f : B -> result C) (g : A -> B) l : mapM f (map g l) = mapM (fun x => f (g x)) l.
Proof. induction l as [|x l IH]; [reflexivity|]. cbn [map mapM]. rewrite IH. reflexivity. Qed.

Lemma python2_run names records vd vp nb_bins b vb soft angles vels :
  db_to_angles_and_vels names records 1 Zeros = Ok (angles, vels) -> Forall2 same_shape angles vels -> angles <> [] ->
  db_to_VQ_hist_matrix whiten kmeans vq Python2 names records vd vp nb_bins b vb soft =
  finish (List.length angles) nb_bins soft (map (@List.length (list R)) angles)
    (map (fun d => all_frames b vb d angles vels) (seq 0 30)).
Proof.
  intros E F N. unfold db_to_VQ_hist_matrix. rewrite E. cbn [bind fst snd].
  replace (match b with None => AsList angles | Some b0 => filter_values Python2 angles b0 end) with (AsList (cut_all b angles))
    by (destruct b as [(lo & hi)|]; [reflexivity|rewrite cut_none; reflexivity]).
  replace (match vb with None => AsList vels | Some b0 => filter_values Python2 vels b0 end) with (AsList (cut_all vb vels))
    by (destruct vb as [(lo & hi)|]; [reflexivity|rewrite cut_none; reflexivity]).
  cbn [as_sequence bind].
  destruct (first_width b angles N (shapes_left _ _ F)) as (first & EF & LF). rewrite EF. cbn [bind]. rewrite LF.
  rewrite (all_data_value b vb angles vels (seq 0 30) F dofs_small). cbn [bind].
  rewrite mapM_map. rewrite (mapM_eq _ (fun d => (all_frames b vb d angles vels, cumsum (map (@List.length (list R)) angles))))
    by (intros d _; apply compact_frames; assumption).
  cbn [bind map_object elements after]. unfold finish.
  rewrite !mapM_map. cbn [fst snd]. rewrite map_map.
  replace (List.length (cut_all b angles)) with (List.length angles) by (symmetry; apply map_length). reflexivity.
Qed.

(** Histograms of the rows of one array. *)
Lemma histos_ok x cb soft k : is_vq vq -> rect x -> rect cb -> mcols x = mcols cb -> List.length (mrows cb) = k -> (0 < k)%nat ->
  exists h, get_histos vq x cb soft = Ok h /\ histos_of k (List.length (mrows x)) h.
Proof.
  intros V Rx Rc E L K. assert (N : mrows cb <> []) by (destruct (mrows cb); [cbn in L; lia|discriminate]).
  destruct soft as [alpha|].
  - destruct (soft_all x cb alpha E N) as (h & Eh & C & F). exists h. split; [exact Eh|]. split; [congruence|].
    split; [clear -F; induction F; cbn; congruence|].
    apply (F2_in_first _ _ _ _ F). intros v w ((LW & P & S) & _). rewrite add_up_sum. split; [congruence|]. split; [exact S|].
    apply Forall_forall. intros y I. apply Rlt_le, P, I.
  - destruct (hard_ok vq x cb V Rx Rc E N) as (h & Eh & C & F). exists h. split; [exact Eh|]. split; [congruence|].
    split; [clear -F; induction F; cbn; congruence|].
    apply (F2_in_first _ _ _ _ F). intros v w (c & _ & H). rewrite add_up_sum. pose proof (one_hot_sum _ _ _ H) as S.
    destruct H as (LW & _ & HW). split; [congruence|]. split; [exact S|].
    apply Forall_forall. intros y I. apply (In_nth _ _ 0) in I. destruct I as (j & J & <-). rewrite LW in J. rewrite (HW j J).
    destruct (Nat.eqb j c); lra.
Qed.

(** The result of one degree of freedom at each step. *)
Definition steps (nb_bins : nat) (soft : option R) (d h : mat R) : Prop :=
  exists w c, whiten d = Ok w /\ kmeans w nb_bins = Ok c /\ get_histos vq w c soft = Ok h /\
    histos_of nb_bins (List.length (mrows d)) h /\ rect w /\ rect c /\ mcols w = mcols c /\ List.length (mrows c) = nb_bins /\
    List.length (mrows w) = List.length (mrows d).

Lemma all_steps nb_bins soft stacked : is_whiten whiten -> gives_centroids kmeans nb_bins -> is_vq vq -> (0 < nb_bins)%nat ->
  Forall (fun d => rect d /\ mrows d <> []) stacked ->
  exists white centro histos, mapM whiten stacked = Ok white /\ mapM (fun d => kmeans d nb_bins) white = Ok centro /\
    mapM (fun dc => get_histos vq (fst dc) (snd dc) soft) (combine white centro) = Ok histos /\
    Forall2 (steps nb_bins soft) stacked histos.
Proof.
  intros W C V K F. induction F as [|d stacked (Rd & Nd) F IH].
  - exists [], [], []. repeat split; constructor.
  - destruct IH as (white & centro & histos & E1 & E2 & E3 & FS).
    destruct (W d Rd) as (w & Ew & Rw & Cw & Lw).
    assert (Nw : mrows w <> []) by (destruct (mrows w), (mrows d); cbn in Lw; congruence).
    destruct (C w Rw Nw) as (c & Ec & Rc & Cc & Lc).
    destruct (histos_ok w c soft nb_bins V Rw Rc (eq_sym Cc) Lc K) as (h & Eh & Hh).
    exists (w :: white), (c :: centro), (h :: histos).
    cbn [mapM]. rewrite Ew. cbn [bind]. rewrite E1. cbn [bind]. split; [reflexivity|].
    rewrite Ec. cbn [bind]. rewrite E2. cbn [bind]. split; [reflexivity|].
    cbn [combine mapM]. rewrite E3. cbn [fst snd]. rewrite Eh. cbn [bind]. split; [reflexivity|].
    constructor; [|exact FS]. exists w, c. rewrite <- Lw.
    repeat (split; [first [assumption | congruence]|]). reflexivity.
Qed.

Lemma finish_ok nb_bins soft ns stacked : is_whiten whiten -> gives_centroids kmeans nb_bins -> is_vq vq -> (0 < nb_bins)%nat ->
  List.length stacked = 30%nat -> ns <> [] -> Forall (fun n => (0 < n)%nat) ns ->
  Forall (fun d => rect d /\ List.length (mrows d) = list_sum ns) stacked ->
  exists X histos, finish (List.length ns) nb_bins soft ns stacked = Ok X /\ List.length X = List.length ns /\
    Forall (histogram (nb_bins * 30)) X /\ Forall2 (steps nb_bins soft) stacked histos /\
    group 30 (List.length ns) nb_bins histos (map (fun d => (d, cumsum ns)) stacked) = Ok X.
Proof.
  intros W C V K L N NS F.
  assert (P : (0 < list_sum ns)%nat) by (destruct NS; [congruence|cbn; lia]).
  destruct (all_steps nb_bins soft stacked W C V K) as (white & centro & histos & E1 & E2 & E3 & FS).
  { refine (Forall_impl _ _ F). intros d (R1 & L1). split; [exact R1|]. destruct (mrows d); [cbn in L1; lia|discriminate]. }
  destruct (group_ok 30 nb_bins ns histos (map (fun d => (d, cumsum ns)) stacked)) as (X & EX & LX & FX).
  - lia.
  - rewrite <- L. clear -FS. induction FS; cbn; congruence.
  - rewrite map_length. exact L.
  - exact NS.
  - clear -FS F. induction FS as [|d h stacked histos S FS IH]; inversion F as [|? ? (_ & LD) F']; subst; constructor; [|apply IH, F'].
    destruct S as (w & c & _ & _ & _ & H & _). rewrite LD in H. exact H.
  - apply Forall_forall. intros c I. apply in_map_iff in I. destruct I as (d & <- & _). reflexivity.
  - exists X, histos. unfold finish. rewrite E1. cbn [bind]. rewrite E2. cbn [bind]. rewrite E3. cbn [bind]. tauto.
Qed.

Lemma lengths_positive angles : Forall angle_array angles -> Forall (fun n => (0 < n)%nat) (map (@List.length (list R)) angles).
Proof. intros F. induction F as [|a angles (N & _) F IH]; cbn; constructor; [destruct a; [congruence|cbn; lia]|exact IH]. Qed.

Lemma python2_ok names records vd vp nb_bins b vb soft :
  good_db names records -> is_whiten whiten -> gives_centroids kmeans nb_bins -> is_vq vq -> (0 < nb_bins)%nat ->
  exists X angles vels histos, db_to_VQ_hist_matrix whiten kmeans vq Python2 names records vd vp nb_bins b vb soft = Ok X /\
    db_to_angles_and_vels names records 1 Zeros = Ok (angles, vels) /\ Forall2 same_shape angles vels /\
    List.length angles = List.length records /\ List.length X = List.length records /\ Forall (histogram (nb_bins * 30)) X /\
    Forall2 (fun d h => steps nb_bins soft (all_frames b vb d angles vels) h) (seq 0 30) histos /\
    exists compacted, Forall (fun c => snd c = cumsum (map (@List.length (list R)) angles)) compacted /\ List.length compacted = 30%nat /\
      group 30 (List.length angles) nb_bins histos compacted = Ok X.
Proof.
  intros G W C V K. destruct (good_arrays names records G) as (angles & EA). pose proof (angle_arrays _ _ _ EA) as (FA & LA).
  destruct (angles_and_vels _ _ _ EA) as (vels & EV & FV).
  assert (N : angles <> []) by (destruct G as (_ & NR & _); destruct angles, records; cbn in LA; congruence).
  set (ns := map (@List.length (list R)) angles).
  set (stacked := map (fun d => all_frames b vb d angles vels) (seq 0 30)).
  destruct (finish_ok nb_bins soft ns stacked W C V K) as (X & histos & E & LX & FX & FS & EG).
  - unfold stacked. rewrite map_length, seq_length. reflexivity.
  - unfold ns. destruct angles; [congruence|discriminate].
  - apply lengths_positive, FA.
  - apply Forall_forall. intros d I. apply in_map_iff in I. destruct I as (j & <- & _). split; [apply all_frames_rect|].
    apply all_frames_length, FV.
  - exists X, angles, vels, histos. rewrite (python2_run _ _ _ _ _ _ _ _ _ _ EV FV N).
    assert (LN : List.length ns = List.length angles) by apply map_length. fold ns. fold stacked. rewrite <- LN.
    split; [exact E|]. split; [exact EV|]. split; [exact FV|]. split; [congruence|]. split; [congruence|]. split; [exact FX|]. split.
    + clear -FS. unfold stacked in FS. revert histos FS. generalize (seq 0 30). induction l as [|d l IH]; intros h F; inversion F; subst; constructor; auto.
    + exists (map (fun d => (d, cumsum ns)) stacked). split; [|split; [|exact EG]].
      * apply Forall_forall. intros c I. apply in_map_iff in I. destruct I as (d & <- & _). reflexivity.
      * unfold stacked. rewrite !map_length, seq_length. reflexivity.
Qed.
End Run.

(** ** The values *)
Lemma app_inj_length {A} (a b c d : list A) : a ++ c = b ++ d -> List.length a = List.length b -> a = b /\ c = d.
Proof.
  revert b. induction a as [|x a IH]; intros [|y b] E L; try discriminate; [split; [reflexivity|exact E]|].
  cbn in *. injection E as -> E. destruct (IH b E) as (-> & ->); [lia|]. split; reflexivity.
Qed.
Lemma parts_unique {A} (p q : list (list A)) : List.concat p = List.concat q ->
  map (@List.length A) p = map (@List.length A) q -> p = q.
Proof.
  revert q. induction p as [|a p IH]; intros [|b q] E L; try discriminate; [reflexivity|].
  cbn in *. injection L as L1 L2. apply app_inj_length in E; [|exact L1]. destruct E as (-> & E). f_equal. apply IH; assumption.
Qed.

Lemma nth_blocks {A} (g : A -> list R) k (hs : list A) d b dflt : Forall (fun h => List.length (g h) = k) hs ->
  (d < List.length hs)%nat -> (b < k)%nat -> nth (d * k + b) (flat_map g hs) 0 = nth b (g (nth d hs dflt)) 0.
Proof.
  intros F. revert d. induction F as [|h hs L F IH]; intros d D B; [cbn in D; lia|]. cbn [flat_map].
  destruct d as [|d]; [cbn [Nat.mul Nat.add nth]; rewrite app_nth1 by lia; reflexivity|].
  rewrite app_nth2 by (cbn; lia). replace (S d * k + b - List.length (g h))%nat with (d * k + b)%nat by (cbn; lia).
  cbn [nth]. apply IH; [cbn in D; lia|exact B].
Qed.

Lemma nth_map_seq {A} (f : nat -> A) n i dflt : (i < n)%nat -> nth i (map f (seq 0 n)) dflt = f i.
Proof.
  intros I. rewrite (nth_indep _ dflt (f 0%nat)) by (rewrite map_length, seq_length; exact I).
  rewrite map_nth, seq_nth by exact I. reflexivity.
Qed.

Lemma group_values nb_dofs nb_bins ns histos compacted X d e b parts h :
  List.length histos = nb_dofs -> List.length compacted = nb_dofs ->
  Forall (histos_of nb_bins (list_sum ns)) histos -> Forall (fun c => snd c = cumsum ns) compacted ->
  group nb_dofs (List.length ns) nb_bins histos compacted = Ok X ->
  (e < List.length ns)%nat -> (b < nb_bins)%nat ->
  nth_error histos d = Some h -> List.concat parts = mrows h -> map (@List.length (list R)) parts = ns ->
  nth (d * nb_bins + b) (nth e X []) 0 = total_at b (nth e parts []) / (INR nb_dofs * INR (nth e ns 0%nat)).
Proof.
  intros LH LC FH FC E Le Lb Eh Ep Lp.
  assert (G : exists ex, map (map sum_rows) (map (fun hc => un_compact_examples (fst hc) (snd (snd hc))) (combine histos compacted)) = ex /\
    List.length ex = nb_dofs /\ (forall i h', nth_error histos i = Some h' -> nth_error ex i = Some (map sum_rows (un_compact_examples h' (cumsum ns)))) /\
    Forall (fun h => Forall2 (fun s n => List.length s = nb_bins /\ quant_model.sum s = INR n /\ Forall (fun x => 0 <= x) s) h ns) ex).
  { eexists. split; [reflexivity|]. split; [rewrite !map_length, combine_length; lia|]. split.
    - assert (L2 : List.length histos = List.length compacted) by congruence. clear -FC L2. revert compacted FC L2.
      induction histos as [|h0 histos IH]; intros [|c compacted] FC L2; try discriminate.
      + intros [|i] h' N; discriminate.
      + inversion FC; subst. intros [|i] h' N; cbn [combine map nth_error fst snd] in *; [injection N as <-; congruence|].
        apply IH; [assumption|cbn in L2; lia|exact N].
    - clear -FH FC. revert compacted FC. induction FH as [|h histos Hh FH IH]; intros compacted FC; [constructor|].
      destruct FC as [|c compacted Hc FC]; [constructor|]. cbn [combine map fst snd]. constructor; [|apply IH, FC].
      rewrite Hc. destruct (uncompact_histos _ _ _ Hh) as (parts & E & _ & M & F). rewrite E, map_map.
      clear E. revert M. clear -F. generalize ns. induction F as [|p parts P F IH]; intros ns' M; destruct ns' as [|n ns']; try discriminate; [constructor|].
      cbn [map] in *. injection M as M1 M2. constructor; [|apply IH, M2].
      destruct (part_sums _ _ P) as (L & S & N). rewrite M1 in S. tauto. }
  unfold group in E. destruct G as (ex & G & LE & NE & FE). rewrite G in E.
  destruct (_ && _)%bool; [|discriminate E]. injection E as <-. rewrite map_map, nth_map_seq by exact Le.
  assert (Ld : (d < nb_dofs)%nat) by (rewrite <- LH; apply nth_error_Some; congruence).
  assert (NF : Forall (fun h => List.length (nth e h []) = nb_bins /\ quant_model.sum (nth e h []) = INR (nth e ns 0%nat) /\ Forall (fun x => 0 <= x) (nth e h [])) ex).
  { refine (Forall_impl _ _ FE). intros h0 F2. clear -F2 Le. revert e Le.
    induction F2 as [|s n h ns H F2 IH]; intros e I; [cbn in I; lia|].
    destruct e as [|e]; [exact H|]. cbn [nth]. apply IH. cbn in I. lia. }
  destruct (row_total e ns nb_bins ex _ NF) as (L & S & _). cbn zeta in *. rewrite LE in *.
  set (row := flat_map _ ex) in *.
  assert (Li : (d * nb_bins + b < List.length row)%nat) by (rewrite L; nia).
  rewrite (nth_indep _ 0 (0 / quant_model.sum row)) by (rewrite map_length; exact Li).
  rewrite (map_nth (fun x => x / quant_model.sum row)). rewrite S. f_equal. unfold row.
  rewrite (nth_blocks (fun hs => nth e hs []) nb_bins ex d b []); [|refine (Forall_impl _ _ NF); cbn; tauto|lia|exact Lb].
  rewrite (nth_error_nth ex d [] (NE d h Eh)).
  assert (Hh : histos_of nb_bins (list_sum ns) h) by (rewrite Forall_forall in FH; apply FH; exact (nth_error_In _ _ Eh)).
  destruct (uncompact_histos _ _ _ Hh) as (parts' & EU & EC & EL & _). rewrite EU.
  assert (parts' = parts) as -> by (apply parts_unique; congruence).
  rewrite map_map. assert (Lp' : (e < List.length parts)%nat) by (rewrite <- Lp, map_length in Le; exact Le).
  rewrite (nth_indep _ [] (sum_rows (Mat nb_bins []))) by (rewrite map_length; exact Lp').
  rewrite (map_nth (fun p => sum_rows (Mat nb_bins p))). unfold sum_rows. cbn [mcols mrows].
  rewrite nth_map_seq by exact Lb. unfold total_at. apply add_up_sum.
Qed.

(** Rows that have a single 1: the column sums are the numbers of codes. *)
Lemma hot_total k b codes rows : (b < k)%nat -> Forall2 (one_hot k) codes rows ->
  total_at b rows = INR (count_occ Nat.eq_dec codes b).
Proof.
  intros B F. unfold total_at. induction F as [|c r codes rows (L & C & H) F IH]; [reflexivity|].
  cbn [map add_up count_occ]. rewrite IH, (H b B). destruct (Nat.eq_dec c b) as [->|N].
  - rewrite Nat.eqb_refl, S_INR. ring.
  - replace (Nat.eqb b c) with false by (symmetry; apply Nat.eqb_neq; congruence). ring.
Qed.

Lemma parts_F2 {A B} (Q : A -> B -> Prop) (p : list (list A)) : forall (q : list (list B)),
  Forall2 Q (List.concat p) (List.concat q) -> map (@List.length A) p = map (@List.length B) q ->
  Forall2 (Forall2 Q) p q.
Proof.
  induction p as [|a p IH]; intros [|b q] F L; try discriminate; constructor; cbn in *; injection L as L1 L2.
  - apply Forall2_app_inv_l in F. destruct F as (b1 & b2 & F1 & F2 & E). symmetry in E.
    apply app_inj_length in E; [destruct E as (-> & _); exact F1|]. rewrite <- L1. clear -F1. induction F1; cbn; congruence.
  - apply Forall2_app_inv_l in F. destruct F as (b1 & b2 & F1 & F2 & E). symmetry in E.
    apply app_inj_length in E; [destruct E as (-> & ->); apply IH; assumption|]. rewrite <- L1. clear -F1. induction F1; cbn; congruence.
Qed.

Lemma F2_nth_error {A B} (Q : A -> B -> Prop) l l' i a : Forall2 Q l l' -> nth_error l i = Some a ->
  exists b, nth_error l' i = Some b /\ Q a b.
Proof.
  intros F. revert i. induction F as [|x y l l' H F IH]; intros [|i] E; try discriminate.
  - injection E as <-. exists y. split; [reflexivity|exact H].
  - apply IH, E.
Qed.

Lemma python2_counts whiten kmeans vq names records vd vp nb_bins b vb :
  good_db names records -> is_whiten whiten -> gives_centroids kmeans nb_bins -> is_vq vq -> (0 < nb_bins)%nat ->
  exists X angles vels, db_to_VQ_hist_matrix whiten kmeans vq Python2 names records vd vp nb_bins b vb None = Ok X /\
    db_to_angles_and_vels names records 1 Zeros = Ok (angles, vels) /\
    forall d, (d < 30)%nat -> exists w c codes parts,
      whiten (all_frames b vb d angles vels) = Ok w /\ kmeans w nb_bins = Ok c /\ vq w c = Ok codes /\
      List.concat parts = codes /\ map (@List.length nat) parts = map (@List.length (list R)) angles /\
      forall e i, (e < List.length records)%nat -> (i < nb_bins)%nat ->
        nth (d * nb_bins + i) (nth e X []) 0 =
        INR (count_occ Nat.eq_dec (nth e parts []) i) / (30 * INR (List.length (nth e angles []))).
Proof.
  intros G W C V K.
  destruct (python2_ok whiten kmeans vq names records vd vp nb_bins b vb None G W C V K)
    as (X & angles & vels & histos & E & EA & FV & LA & LX & FX & FS & compacted & FC & LC & EG).
  exists X, angles, vels. split; [exact E|]. split; [exact EA|]. intros d D.
  assert (LH : List.length histos = 30%nat) by (rewrite <- (seq_length 30 0); clear -FS; induction FS; cbn; congruence).
  destruct (F2_nth_error _ _ _ d d FS) as (h & Eh & (w & c & Ew & Ec & EHh & Hh & Rw & Rc & CE & Lc & Lw)).
  { rewrite (nth_error_nth' _ 0%nat) by (rewrite seq_length; exact D). f_equal. apply seq_nth, D. }
  assert (Nc : mrows c <> []) by (destruct (mrows c); [cbn in Lc; lia|discriminate]).
  destruct (V w c Rw Rc CE Nc) as (codes & Ecodes & FN).
  cbn [get_histos] in EHh. rewrite Ecodes in EHh. cbn [bind] in EHh.
  destruct (eye_rows_ok (List.length (mrows c)) codes) as (h' & Eh' & Ch' & F1).
  { apply (F2_in_first _ _ _ _ FN). intros ? ? (LT & _). exact LT. }
  assert (h' = h) as -> by congruence. rewrite Lc in F1.
  set (ns := map (@List.length (list R)) angles) in *.
  assert (LC' : List.length codes = list_sum ns).
  { transitivity (List.length (mrows w)); [clear -FN; induction FN; cbn; congruence|]. rewrite Lw. apply all_frames_length, FV. }
  destruct (parts_exist ns codes LC') as (parts & P1 & P2).
  exists w, c, codes, parts. repeat (split; [assumption|]). intros e i I J.
  rewrite all_frames_length in Hh by exact FV. fold ns in Hh.
  destruct (uncompact_histos _ _ _ Hh) as (hp & _ & H1 & H2 & _).
  assert (LN : List.length ns = List.length angles) by apply map_length.
  assert (Le : (e < List.length ns)%nat) by lia.
  rewrite (group_values 30 nb_bins ns histos compacted X d e i hp h LH LC) by
    (try assumption; try (rewrite LN; exact EG);
     apply (F2_in_first _ _ _ _ FS); intros d' h' (w' & c' & _ & _ & _ & Hh' & _);
     rewrite all_frames_length in Hh' by exact FV; exact Hh').
  replace (INR (nth e ns 0%nat)) with (INR (List.length (nth e angles [])))
    by (f_equal; symmetry; change 0%nat with (List.length (@nil (list R))); apply map_nth).
  replace (INR 30) with 30 by (rewrite INR_IZR_INZ; reflexivity).
  f_equal. apply hot_total with (k := nb_bins); [exact J|].
  assert (FP : Forall2 (Forall2 (one_hot nb_bins)) parts hp) by (apply parts_F2; congruence).
  clear -FP. revert e. induction FP as [|p q ps qs H F IH]; intros [|e]; cbn; try constructor; auto.
Qed.

(** ** Python 3 *)
Lemma group_empty n e k histos : group n e k histos [] = Err ValueError.
Proof.
  unfold group. rewrite combine_nil. cbn [map List.length]. destruct n; reflexivity.
Qed.

Lemma python3_never whiten kmeans vq names records vd vp nb_bins b vb soft X :
  db_to_VQ_hist_matrix whiten kmeans vq Python3 names records vd vp nb_bins b vb soft <> Ok X.
Proof.
  unfold db_to_VQ_hist_matrix. intros H.
  repeat (let y := fresh in let E := fresh in apply bind_ok in H; destruct H as (y & E & H)).
  cbn [map_object after elements] in H. rewrite group_empty in H. discriminate H.
Qed.

Lemma python3_bounds whiten kmeans vq names records vd vp nb_bins b vb soft X v :
  db_to_VQ_hist_matrix whiten kmeans vq v names records vd vp nb_bins (Some b) vb soft = Ok X ->
  db_to_VQ_hist_matrix whiten kmeans vq Python3 names records vd vp nb_bins (Some b) vb soft = Err TypeError.
Proof.
  unfold db_to_VQ_hist_matrix. intros H. apply bind_ok in H. destruct H as (av & E & H). rewrite E. reflexivity.
Qed.

Lemma python3_free whiten kmeans vq names records vd vp nb_bins soft X :
  db_to_VQ_hist_matrix whiten kmeans vq Python2 names records vd vp nb_bins None None soft = Ok X ->
  db_to_VQ_hist_matrix whiten kmeans vq Python3 names records vd vp nb_bins None None soft = Err ValueError.
Proof.
  unfold db_to_VQ_hist_matrix. intros H. apply bind_ok in H. destruct H as (av & E & H). rewrite E. cbn [bind] in *.
  cbn [as_sequence bind] in *.
  apply bind_ok in H. destruct H as (first & E1 & H). rewrite E1. cbn [bind].
  apply bind_ok in H. destruct H as (data & E2 & H). rewrite E2. cbn [bind].
  apply bind_ok in H. destruct H as (comp & E3 & H). rewrite E3. cbn [bind map_object elements] in *.
  apply bind_ok in H. destruct H as (white & E4 & H). rewrite E4. cbn [bind].
  apply bind_ok in H. destruct H as (centro & E5 & H). rewrite E5. cbn [bind].
  apply bind_ok in H. destruct H as (histos & E6 & H). rewrite E6. cbn [bind after]. apply group_empty.
Qed.

(** Velocity bounds alone: the second degree of freedom has no example left. *)
Lemma all_data_once angles vels dofs data : (1 < List.length dofs)%nat ->
  all_data angles (Once vels) dofs = Ok data -> exists d rest, data = d :: [] :: rest.
Proof.
  intros L H. destruct dofs as [|d1 [|d2 dofs]]; cbn in L; try lia. cbn [all_data elements after] in H.
  apply bind_ok in H. destruct H as (x1 & E1 & H). apply bind_ok in H. destruct H as (rest & E2 & H). injection H as <-.
  apply bind_ok in E2. destruct E2 as (x2 & E2 & H). apply bind_ok in H. destruct H as (rest' & E3 & H). injection H as <-.
  unfold dof_data in E2. rewrite combine_nil in E2. injection E2 as <-. eexists _, _. reflexivity.
Qed.

(** ** Fewer centroids than bins *)
Lemma histos_width vq x cb soft h : get_histos vq x cb soft = Ok h -> mcols x = mcols cb -> mcols h = List.length (mrows cb).
Proof.
  intros H E. destruct soft as [alpha|]; cbn [get_histos] in H.
  - destruct (mrows cb) as [|c cs] eqn:EC.
    + unfold soft_associate in H. rewrite (square_ok x cb E) in H. cbn in H. rewrite EC in H.
      destruct (mrows x); cbn in H; try discriminate H; injection H as <-; reflexivity.
    + destruct (soft_all x cb alpha E) as (h' & E' & C & _); [congruence|]. assert (h' = h) as -> by congruence.
      rewrite C, EC. reflexivity.
  - apply bind_ok in H. destruct H as (codes & _ & H). unfold eye_rows in H. apply bind_ok in H. destruct H as (rows & _ & H).
    injection H as <-. reflexivity.
Qed.

Lemma all_data_both angles vels dofs data : all_data angles (AsList vels) dofs = Ok data ->
  (forall d l, dofs = d :: l -> exists x rest, data = x :: rest) /\
  match dofs, data with
  | d1 :: d2 :: _, x :: _ => exists rest, all_data angles (Once vels) dofs = Ok (x :: [] :: rest)
  | _, _ => True
  end.
Proof.
  intros H. split.
  - intros d l ->. cbn [all_data elements after] in H. apply bind_ok in H. destruct H as (x & _ & H).
    apply bind_ok in H. destruct H as (rest & _ & H). injection H as <-. eexists _, _. reflexivity.
  - destruct dofs as [|d1 [|d2 dofs]]; [exact I|exact I|]. destruct data as [|x data]; [exact I|].
    cbn [all_data elements after] in *. apply bind_ok in H. destruct H as (x' & E & H). rewrite E. cbn [bind].
    apply bind_ok in H. destruct H as (rest & _ & H). injection H as <- <-.
    unfold dof_data at 1. rewrite combine_nil. cbn [mapM bind].
    assert (G : forall l, all_data angles (Once []) l = Ok (map (fun _ => []) l)).
    { induction l as [|d l IH]; [reflexivity|]. cbn [all_data elements after]. unfold dof_data at 1. rewrite combine_nil. cbn [mapM bind].
      rewrite IH. reflexivity. }
    rewrite G. cbn [bind]. eexists. reflexivity.
Qed.

Lemma python3_vel whiten kmeans vq names records vd vp nb_bins vb soft X :
  db_to_VQ_hist_matrix whiten kmeans vq Python2 names records vd vp nb_bins None (Some vb) soft = Ok X ->
  db_to_VQ_hist_matrix whiten kmeans vq Python3 names records vd vp nb_bins None (Some vb) soft = Err ValueError.
Proof.
  unfold db_to_VQ_hist_matrix. intros H. apply bind_ok in H. destruct H as (av & E & H). rewrite E. cbn [bind] in *.
  cbn [as_sequence bind] in *.
  assert (FA : Forall angle_array (fst av)).
  { unfold db_to_angles_and_vels in E. apply bind_ok in E. destruct E as (angles & EA & E).
    apply bind_ok in E. destruct E as (vels & _ & E). injection E as <-. apply (angle_arrays _ _ _ EA). }
  apply bind_ok in H. destruct H as (first & E1 & H). rewrite E1. cbn [bind].
  assert (N : fst av <> []) by (intros Z; rewrite Z in E1; discriminate E1).
  destruct (first_width None (fst av) N FA) as (f' & EF & LF). rewrite cut_none in EF. assert (f' = first) as -> by congruence.
  rewrite LF in *.
  apply bind_ok in H. destruct H as (data & E2 & H). cbn [filter_values map_object] in *.
  destruct (all_data_both _ _ _ _ E2) as (NE & B). destruct (NE 0%nat (seq 1 29) eq_refl) as (x & rest & ->).
  cbn [seq] in B. destruct B as (rest' & B). change (seq 0 30) with (0 :: 1 :: seq 2 28)%nat.
  cbn [seq] in B |- *. rewrite B. cbn [bind].
  apply bind_ok in H. destruct H as (comp & E3 & _). cbn [mapM] in E3 |- *.
  apply bind_ok in E3. destruct E3 as (c1 & E3 & _). rewrite E3. reflexivity.
Qed.

Lemma python3_error whiten kmeans vq names records vd vp nb_bins b vb soft X :
  db_to_VQ_hist_matrix whiten kmeans vq Python2 names records vd vp nb_bins b vb soft = Ok X ->
  db_to_VQ_hist_matrix whiten kmeans vq Python3 names records vd vp nb_bins b vb soft =
    Err (match b with None => ValueError | Some _ => TypeError end).
Proof.
  destruct b as [b|]; [apply python3_bounds|]. destruct vb as [vb|]; [apply python3_vel|apply python3_free].
Qed.

(** ** Dropped centroids *)
Lemma group_narrow nb_dofs ns nb_bins histos compacted d h : ns <> [] ->
  List.length histos = nb_dofs -> List.length compacted = nb_dofs -> Forall (fun c => snd c = cumsum ns) compacted ->
  nth_error histos d = Some h -> mcols h <> nb_bins ->
  group nb_dofs (List.length ns) nb_bins histos compacted = Err ValueError.
Proof.
  intros NN LH LC FC Eh W. unfold group.
  match goal with |- (if ?c then _ else _) = _ => destruct c eqn:E; [|reflexivity] end. exfalso.
  apply andb_prop in E. destruct E as (_ & E). rewrite forallb_forall in E.
  assert (exists c, nth_error compacted d = Some c) as (c & Ec).
  { destruct (nth_error compacted d) as [c|] eqn:Ec; [exists c; reflexivity|]. apply nth_error_None in Ec.
    assert (d < List.length histos)%nat by (apply nth_error_Some; congruence). lia. }
  assert (I : In (map sum_rows (un_compact_examples h (snd c)))
    (map (map sum_rows) (map (fun hc => un_compact_examples (fst hc) (snd (snd hc))) (combine histos compacted)))).
  { apply in_map. apply in_map_iff. exists (h, c). split; [reflexivity|]. apply (nth_error_In _ d).
    rewrite nth_error_combine, Eh, Ec. reflexivity. }
  apply E in I. apply andb_prop in I. destruct I as (I1 & I2). rewrite forallb_forall in I2.
  assert (IC : In (sum_rows (Mat (mcols h) (slice (mrows h) 0 (Z.of_nat (hd 0%nat (cumsum ns))))))
    (map sum_rows (un_compact_examples h (snd c)))).
  { apply in_map. rewrite Forall_forall in FC. rewrite (FC c (nth_error_In _ _ Ec)).
    unfold un_compact_examples. destruct ns as [|n ns]; [congruence|]. cbn [cumsum cumsum_from Nat.add combine]. cbn [map hd]. left. reflexivity. }
  apply I2 in IC. apply Nat.eqb_eq in IC. unfold sum_rows in IC. rewrite map_length, seq_length in IC. cbn in IC. contradiction.
Qed.

Lemma steps_any whiten kmeans vq nb_bins soft stacked : is_whiten whiten -> may_drop kmeans nb_bins -> is_vq vq ->
  Forall (fun d => rect d /\ mrows d <> []) stacked ->
  exists white centro histos, mapM whiten stacked = Ok white /\ mapM (fun d => kmeans d nb_bins) white = Ok centro /\
    mapM (fun dc => get_histos vq (fst dc) (snd dc) soft) (combine white centro) = Ok histos /\
    Forall2 (fun d h => exists w c, whiten d = Ok w /\ kmeans w nb_bins = Ok c /\ mcols h = List.length (mrows c)) stacked histos.
Proof.
  intros W C V F. induction F as [|d stacked (Rd & Nd) F IH].
  - exists [], [], []. repeat split; constructor.
  - destruct IH as (white & centro & histos & E1 & E2 & E3 & FS).
    destruct (W d Rd) as (w & Ew & Rw & Cw & Lw).
    assert (Nw : mrows w <> []) by (destruct (mrows w), (mrows d); cbn in Lw; congruence).
    destruct (C w Rw Nw) as (c & Ec & Rc & Cc & Lc).
    destruct (histos_ok vq w c soft (List.length (mrows c)) V Rw Rc (eq_sym Cc) eq_refl (proj1 Lc)) as (h & Eh & Hh).
    exists (w :: white), (c :: centro), (h :: histos).
    cbn [mapM]. rewrite Ew. cbn [bind]. rewrite E1. cbn [bind]. split; [reflexivity|].
    rewrite Ec. cbn [bind]. rewrite E2. cbn [bind]. split; [reflexivity|].
    cbn [combine mapM]. rewrite E3. cbn [fst snd]. rewrite Eh. cbn [bind]. split; [reflexivity|].
    constructor; [|exact FS]. exists w, c. split; [exact Ew|]. split; [exact Ec|]. apply Hh.
Qed.

Lemma dropped whiten kmeans vq names records vd vp nb_bins b vb soft angles vels d w c :
  good_db names records -> is_whiten whiten -> may_drop kmeans nb_bins -> is_vq vq ->
  db_to_angles_and_vels names records 1 Zeros = Ok (angles, vels) -> (d < 30)%nat ->
  whiten (all_frames b vb d angles vels) = Ok w -> kmeans w nb_bins = Ok c -> List.length (mrows c) <> nb_bins ->
  db_to_VQ_hist_matrix whiten kmeans vq Python2 names records vd vp nb_bins b vb soft = Err ValueError.
Proof.
  intros G W C V EV D Ew Ec NC. destruct (good_arrays names records G) as (angles' & EA).
  pose proof (angle_arrays _ _ _ EA) as (FA & LA).
  destruct (angles_and_vels _ _ _ EA) as (vels' & EV' & FV). rewrite EV in EV'. injection EV' as <- <-.
  assert (N : angles <> []) by (destruct G as (_ & NR & _); destruct angles, records; cbn in LA; congruence).
  rewrite (python2_run _ _ _ _ _ _ _ _ _ _ _ _ _ EV FV N).
  set (ns := map (@List.length (list R)) angles).
  set (stacked := map (fun d => all_frames b vb d angles vels) (seq 0 30)).
  assert (NS : ns <> []) by (unfold ns; destruct angles; [congruence|discriminate]).
  assert (P : (0 < list_sum ns)%nat) by (pose proof (lengths_positive _ FA) as LP; fold ns in LP; destruct LP; [congruence|cbn; lia]).
  destruct (steps_any whiten kmeans vq nb_bins soft stacked W C V) as (white & centro & histos & E1 & E2 & E3 & FS).
  { apply Forall_forall. intros m I. apply in_map_iff in I. destruct I as (j & <- & _). split; [apply all_frames_rect|].
    pose proof (all_frames_length b vb j angles vels FV) as L. fold ns in L. intros Z. rewrite Z in L. change (0%nat = list_sum ns) in L. lia. }
  unfold finish. rewrite E1. cbn [bind]. rewrite E2. cbn [bind]. rewrite E3. cbn [bind].
  assert (L30 : List.length stacked = 30%nat) by (unfold stacked; rewrite map_length, seq_length; reflexivity).
  destruct (F2_nth_error _ _ _ d (all_frames b vb d angles vels) FS) as (h & Eh & (w' & c' & Ew' & Ec' & CH)).
  { unfold stacked. rewrite nth_error_map, (nth_error_nth' _ 0%nat) by (rewrite seq_length; exact D).
    cbn [option_map]. rewrite seq_nth by exact D. reflexivity. }
  assert (w' = w) as -> by congruence. assert (c' = c) as -> by congruence.
  replace (List.length angles) with (List.length ns) by apply map_length.
  apply group_narrow with (d := d) (h := h); [exact NS|rewrite <- L30; clear -FS; induction FS; cbn; congruence|rewrite map_length; exact L30| |exact Eh|congruence].
  apply Forall_forall. intros x I. apply in_map_iff in I. destruct I as (m & <- & _). reflexivity.
Qed.
