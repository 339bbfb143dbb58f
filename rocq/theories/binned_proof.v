(** * Binned histograms of joint angles: proofs. *)

From Coq Require Import List ZArith Arith Reals Bool String Lia Lra.
Import ListNotations.
From Verif Require Import Py Py_proof ListUtil utils_model utils_proof hac_model transf_model angle_model angle_spec
  angle_proof angle_vq kde_model kde_spec kde_proof kde_two kde_cases binned_model binned_spec.
Open Scope py_scope.
Local Open Scope R_scope.

Lemma mapM_same {A B} (f g : A -> result B) l : (forall x, In x l -> f x = g x) -> mapM f l = mapM g l.
Proof.
  induction l as [|x l IH]; intros E; [reflexivity|]. cbn [mapM]. rewrite (E x (or_introl eq_refl)), IH; [reflexivity|].
  intros y I. apply E. right. exact I.
Qed.
Lemma F2_in_right {A B} (P : A -> B -> Prop) l l' y : Forall2 P l l' -> In y l' -> exists x, In x l /\ P x y.
Proof.
  intros F. induction F as [|a b l l' H F IH]; intros []; [subst; exists a; split; [left; reflexivity|exact H]|].
  destruct (IH H0) as (x & I & Q). exists x. split; [right; exact I|exact Q].
Qed.
Lemma F2_size {A B} (P : A -> B -> Prop) l l' : Forall2 P l l' -> List.length l = List.length l'.
Proof. intros F. induction F; [reflexivity|]. cbn. congruence. Qed.

(** ** Bounds *)
Lemma cut_within bounds arrays lo hi x : interval bounds arrays lo hi ->
  In x (List.concat (List.concat arrays)) -> lo <= cut bounds x <= hi.
Proof.
  intros (L & I) X. destruct bounds as [b|].
  - subst b. unfold cut, Rmax, Rmin. destruct (Rle_dec x hi); destruct (Rle_dec _ lo); lra.
  - destruct I as ((_ & S) & (_ & G)). cbn. rewrite Forall_forall in S, G. split; [apply S|apply G]; exact X.
Qed.

Lemma bounds_found bounds arrays lo hi : arrays <> [] -> interval bounds arrays lo hi ->
  match bounds with None => get_bounds arrays | Some b => Ok b end = Ok (lo, hi).
Proof.
  intros N (L & I). destruct bounds as [b|]; [congruence|]. destruct I as (S & G). unfold get_bounds.
  destruct arrays as [|a arrays]; [congruence|]. cbn [List.length Nat.eqb].
  set (l := List.concat (List.concat (a :: arrays))) in *.
  assert (NL : l <> []) by (intros E; destruct S as (S & _); rewrite E in S; exact S).
  destruct (np_min_ok l NL) as (lo' & E & S'). destruct (np_max_ok l NL) as (hi' & E' & G').
  rewrite E, E'. cbn [bind]. rewrite (smallest_unique _ _ _ S' S), (largest_unique _ _ _ G' G). reflexivity.
Qed.

(** ** One example *)
Definition ex_pts (b vb : option (R * R)) (d : nat) (av : list (list R) * list (list R)) : list (R * R) :=
  map (fun rows => (cut b (nth d (fst rows) 0), cut vb (nth d (snd rows) 0))) (combine (fst av) (snd av)).

Lemma frames_pts b vb d av : frames b vb d av = map (fun p => [fst p; snd p]) (ex_pts b vb d av).
Proof. unfold frames, ex_pts. rewrite map_map. reflexivity. Qed.

Lemma value_in (arrays : list (list (list R))) a r d : In a arrays -> In r a -> (d < List.length r)%nat ->
  In (nth d r 0) (List.concat (List.concat arrays)).
Proof.
  intros A I D. apply in_concat. exists r. split; [|apply nth_In, D]. apply in_concat. exists a. split; assumption.
Qed.

Section Arrays.
Variables (angles vels : list (list (list R))) (b vb : option (R * R)) (lo hi vlo vhi : R).
Hypothesis IA : interval b angles lo hi.
Hypothesis IV : interval vb vels vlo vhi.

Lemma frames_in a v d : In a angles -> In v vels -> same_shape a v -> (d < 30)%nat ->
  in_bounds_2d (Mat 2 (frames b vb d (a, v))) (ex_pts b vb d (a, v)) (Some ((lo, vlo), (hi, vhi))) lo vlo hi vhi.
Proof.
  intros A V ((NA & FA) & (NV & FV) & L) D. split; [reflexivity|]. split; [apply frames_pts|].
  split; [destruct a; [congruence|]; destruct v; [congruence|]; discriminate|].
  rewrite Forall_forall in FA, FV. split; [|split; [|split; [exact (proj1 IA)|split; [exact (proj1 IV)|reflexivity]]]];
    unfold within, ex_pts; rewrite map_map; apply Forall_forall; intros x X; apply in_map_iff in X;
    destruct X as ((r & r') & <- & X); cbn [fst snd] in *.
  - apply in_combine_l in X. apply (cut_within _ _ _ _ _ IA), (value_in _ a); [exact A|exact X|]. rewrite (FA r X). exact D.
  - apply in_combine_r in X. apply (cut_within _ _ _ _ _ IV), (value_in _ v); [exact V|exact X|]. rewrite (FV r' X). exact D.
Qed.

(** The samples of a degree of freedom. *)
Lemma samples_of fl h h_vel s fft a v B VB : same_shape a v ->
  to_gauss_kdes fl h h_vel s B VB fft (map (map (cut b)) a, map (map (cut vb)) v) =
  mapM (fun d => kde <- gaussian_kde_2d fl (Mat 2 (frames b vb d (a, v))) h h_vel s fft
                          (Some ((fst B, fst VB), (snd B, snd VB))) ;; Ok (snd kde)) (seq 0 30).
Proof.
  intros ((NA & FA) & (NV & FV) & L). unfold to_gauss_kdes. cbn [fst snd].
  replace (List.length (hd [] (map (map (cut b)) a))) with 30%nat.
  2:{ destruct FA as [|r a E _]; [congruence|]. cbn. rewrite map_length. symmetry. exact E. }
  assert (CA : Forall (fun r => List.length r = 30%nat) (map (map (cut b)) a)) by (apply (cut_array (cut b) a); split; assumption).
  assert (CV : Forall (fun r => List.length r = 30%nat) (map (map (cut vb)) v)) by (apply (cut_array (cut vb) v); split; assumption).
  apply mapM_same. intros d D. apply in_seq in D. destruct D as (_ & D). cbn in D.
  rewrite (column_value _ d CA D), (column_value _ d CV D). cbn [bind]. unfold two_columns.
  rewrite !map_length, L, Nat.eqb_refl. cbn [bind].
  replace (Mat 2 (map _ (combine _ _))) with (Mat 2 (frames b vb d (a, v))).
  - reflexivity.
  - f_equal. rewrite <- (frames_cut b vb d a v FA FV D). unfold frames. cbn [fst snd].
    generalize (map (map (cut b)) a), (map (map (cut vb)) v). clear. intros a. induction a as [|x a IH]; intros [|y v]; try reflexivity.
    cbn. f_equal. apply IH.
Qed.

Variables (rel_h : R) (s : Z) (fft : bool).
Hypothesis H : rel_h <> 0.
Hypothesis S2 : (2 <= s)%Z.

Definition good_kde (k : list (list R)) : Prop :=
  let n := Z.to_nat s in
  List.length k = n /\ Forall (fun r => List.length r = n) k /\ Forall nonnegative k /\
  total k <= / (spacing lo hi n * spacing vlo vhi n).
Definition estimate d av k : Prop := exists xg yg,
  gaussian_kde_2d true (Mat 2 (frames b vb d av)) (rel_h * (hi - lo)) (rel_h * (vhi - vlo)) s fft
    (Some ((lo, vlo), (hi, vhi))) = Ok (xg, yg, k).

Lemma width_not0 l u : l < u -> rel_h * (u - l) <> 0.
Proof. intros L E. apply Rmult_integral in E. destruct E; [contradiction|lra]. Qed.

Lemma kdes_ok a v : In a angles -> In v vels -> same_shape a v ->
  exists ks, to_gauss_kdes true (rel_h * (hi - lo)) (rel_h * (vhi - vlo)) s (lo, hi) (vlo, vhi) fft
      (map (map (cut b)) a, map (map (cut vb)) v) = Ok ks /\
    Forall2 (fun d k => good_kde k /\ estimate d (a, v) k) (seq 0 30) ks.
Proof.
  intros A V SH. rewrite samples_of by exact SH. cbn [fst snd].
  apply (mapM_all _ (fun d => (d < 30)%nat)); [exact dofs_small|]. intros d D.
  destruct (kde_2d _ _ (rel_h * (hi - lo)) (rel_h * (vhi - vlo)) s fft _ lo vlo hi vhi S2 (frames_in a v d A V SH D)
    (width_not0 _ _ (proj1 IA)) (width_not0 _ _ (proj1 IV))) as (xg & yg & k & E & Q).
  exists k. rewrite E. split; [reflexivity|]. split; [exact Q|]. exists xg, yg. exact E.
Qed.
End Arrays.

(** ** Rows *)
Lemma square_length (k : list (list R)) n : List.length k = n -> Forall (fun r => List.length r = n) k ->
  List.length (List.concat k) = (n * n)%nat.
Proof.
  intros L F. rewrite <- L at 1. clear L. induction F as [|r k E F IH]; [reflexivity|]. cbn [List.concat List.length Nat.mul].
  rewrite app_length, IH, E. reflexivity.
Qed.

Lemma concat_nth (k : list (list R)) n i j : Forall (fun r => List.length r = n) k -> (i < List.length k)%nat -> (j < n)%nat ->
  nth (i * n + j) (List.concat k) 0 = nth j (nth i k []) 0.
Proof.
  intros F I J. pose proof (nth_blocks (fun x : list R => x) n k i j [] F I J) as E. rewrite flat_map_concat_map, map_id in E. exact E.
Qed.

Lemma concat_same_length {A} (ks : list (list A)) m : Forall (fun k => List.length k = m) ks ->
  List.length (List.concat ks) = (List.length ks * m)%nat.
Proof. intros F. induction F as [|k ks E F IH]; [reflexivity|]. cbn. rewrite app_length, IH, E. reflexivity. Qed.

Lemma row_of (ks : list (list (list R))) n : Forall (fun k => List.length k = n /\ Forall (fun r => List.length r = n) k) ks ->
  let row := List.concat (map (@List.concat R) ks) in
  List.length row = (List.length ks * (n * n))%nat /\
  forall d i j, (d < List.length ks)%nat -> (i < n)%nat -> (j < n)%nat ->
    nth (cell_of n d i j) row 0 = nth j (nth i (nth d ks []) []) 0.
Proof.
  intros F row. assert (G : Forall (fun k => List.length (List.concat k) = (n * n)%nat) ks).
  { revert F. apply Forall_impl. intros k (L & Fk). apply square_length; assumption. }
  split.
  - unfold row. rewrite (concat_same_length _ (n * n)), map_length; [reflexivity|]. apply Forall_map. exact G.
  - intros d i j D I J. unfold row, cell_of. rewrite <- flat_map_concat_map, <- Nat.add_assoc.
    rewrite (nth_blocks (@List.concat R) (n * n) ks d (i * n + j) [] G D) by nia.
    rewrite Forall_forall in F. destruct (F (nth d ks []) (nth_In _ _ D)) as (L & Fk).
    apply concat_nth; [exact Fk|rewrite L; exact I|exact J].
Qed.

Lemma stack_ok rows m : rows <> [] -> Forall (fun r => List.length r = m) rows -> stack_rows rows = Ok rows.
Proof.
  intros N F. unfold stack_rows. destruct F as [|r rows E F]; [congruence|].
  replace (forallb _ _) with true; [reflexivity|]. symmetry. apply forallb_forall. intros x [<- | X]; [apply Nat.eqb_refl|].
  rewrite Forall_forall in F. rewrite (F x X), E. apply Nat.eqb_refl.
Qed.

Lemma pairs_cut b vb (angles vels : list (list (list R))) : combine (cut_all b angles) (cut_all vb vels) =
  map (fun av => (map (map (cut b)) (fst av), map (map (cut vb)) (snd av))) (combine angles vels).
Proof. revert vels. induction angles as [|a angles IH]; intros [|v vels]; try reflexivity. cbn. f_equal. apply IH. Qed.

Lemma cut_elements v b arrs :
  elements (match b with None => AsList arrs | Some b' => filter_values v arrs b' end) = cut_all b arrs.
Proof. destruct b; [apply filter_cut|]. rewrite cut_none. reflexivity. Qed.

(** The function once the data are known. *)
Definition rest float_index (angles vels : list (list (list R))) b vb B VB (rel_h : R) (nb : Z) (fft : bool) : result (list (list R)) :=
  s <- int_sqrt nb ;;
  kdes <- mapM (fun av => to_gauss_kdes float_index (rel_h * (snd B - fst B)) (rel_h * (snd VB - fst VB)) s B VB fft
                 (map (map (cut b)) (fst av), map (map (cut vb)) (snd av))) (combine angles vels) ;;
  rows <- mapM hstack1 (map (map (@List.concat R)) kdes) ;;
  stack_rows rows.

Lemma binned_run fl v names records vd vp nb b vb rel_h fft angles vels B VB :
  db_to_angles_and_vels names records 1 Zeros = Ok (angles, vels) ->
  match b with None => get_bounds angles | Some b => Ok b end = Ok B ->
  match vb with None => get_bounds vels | Some b => Ok b end = Ok VB ->
  db_to_binned_hist_matrix fl v names records vd vp nb b vb rel_h fft = rest fl angles vels b vb B VB rel_h nb fft.
Proof.
  intros E EB EV. unfold db_to_binned_hist_matrix, rest. rewrite E. cbn [bind fst snd]. rewrite EB. cbn [bind]. rewrite EV. cbn [bind].
  rewrite !cut_elements, pairs_cut. destruct (int_sqrt nb) as [s|e]; [|reflexivity]. cbn [bind]. rewrite mapM_map. reflexivity.
Qed.

Lemma F2_combine {A B} (P : A -> B -> Prop) l l' : Forall2 P l l' -> Forall (fun p => P (fst p) (snd p)) (combine l l').
Proof. intros F. induction F; constructor; assumption. Qed.

Lemma rest_ok angles vels b vb lo hi vlo vhi rel_h nb fft : angles <> [] -> Forall2 same_shape angles vels ->
  interval b angles lo hi -> interval vb vels vlo vhi -> rel_h <> 0 -> (4 <= nb)%Z ->
  let s := Z.sqrt nb in let n := Z.to_nat s in
  exists X, rest true angles vels b vb (lo, hi) (vlo, vhi) rel_h nb fft = Ok X /\
    Forall2 (fun av row => List.length row = (30 * (n * n))%nat /\ nonnegative row /\
      forall d, (d < 30)%nat -> exists k, estimate b vb lo hi vlo vhi rel_h s fft d av k /\
        good_kde lo hi vlo vhi s k /\ holds_at n d row k) (combine angles vels) X.
Proof.
  intros N F IA IV H NB s n. assert (S2 : (2 <= s)%Z).
  { unfold s. change 2%Z with (Z.sqrt 4). apply Z.sqrt_le_mono. exact NB. }
  unfold rest, int_sqrt. destruct (Z.ltb_spec nb 0) as [?|_]; [lia|]. cbn [bind fst snd]. fold s.
  assert (NC : combine angles vels <> []) by (destruct F; [congruence|discriminate]).
  assert (Q : Forall (fun av => In (fst av) angles /\ In (snd av) vels /\ same_shape (fst av) (snd av)) (combine angles vels)).
  { apply F2_combine in F. rewrite Forall_forall in *. intros (a, v) I. split; [eapply in_combine_l, I|].
    split; [eapply in_combine_r, I|apply (F _ I)]. }
  destruct (mapM_all (fun av => to_gauss_kdes true (rel_h * (hi - lo)) (rel_h * (vhi - vlo)) s (lo, hi) (vlo, vhi) fft
      (map (map (cut b)) (fst av), map (map (cut vb)) (snd av))) _
      (fun av ks => Forall2 (fun d k => good_kde lo hi vlo vhi s k /\ estimate b vb lo hi vlo vhi rel_h s fft d av k) (seq 0 30) ks)
      _ Q) as (kdes & EK & FK).
  { intros (a, v) (A & V & SH). exact (kdes_ok angles vels b vb lo hi vlo vhi IA IV rel_h s fft H S2 a v A V SH). }
  rewrite EK. cbn [bind]. exists (map (fun ks => List.concat (map (@List.concat R) ks)) kdes).
  assert (ER : mapM hstack1 (map (map (@List.concat R)) kdes) = Ok (map (fun ks => List.concat (map (@List.concat R) ks)) kdes)).
  { rewrite mapM_map. apply mapM_eq. intros ks I. destruct (F2_in_right _ _ _ _ FK I) as (av & _ & G).
    apply F2_size in G. destruct ks; [discriminate G|]. reflexivity. }
  rewrite ER. cbn [bind].
  assert (FR : Forall2 (fun av row => List.length row = (30 * (n * n))%nat /\ nonnegative row /\
      forall d, (d < 30)%nat -> exists k, estimate b vb lo hi vlo vhi rel_h s fft d av k /\
        good_kde lo hi vlo vhi s k /\ holds_at n d row k) (combine angles vels) (map (fun ks => List.concat (map (@List.concat R) ks)) kdes)).
  { clear -FK. induction FK as [|av ks l kdes G FK IH]; constructor; [|exact IH]. clear FK IH.
    assert (LK : List.length ks = 30%nat) by (rewrite <- (F2_size _ _ _ G); reflexivity).
    assert (SQ : Forall (fun k => List.length k = n /\ Forall (fun r => List.length r = n) k) ks).
    { clear LK. induction G as [|d k ds ks ((L & R & _) & _) G IH]; constructor; [split; assumption|exact IH]. }
    destruct (row_of ks n SQ) as (L & V). rewrite LK in L, V. split; [exact L|]. split.
    - clear -G. induction G as [|d k ds ks ((_ & _ & NN & _) & _) G IH]; [constructor|]. cbn [map List.concat].
      apply Forall_app. split; [|exact IH]. clear -NN. induction NN; [constructor|]. cbn. apply Forall_app. split; assumption.
    - intros d D. exists (nth d ks []). assert (EN : nth_error ks d = Some (nth d ks [])) by (apply nth_error_nth'; rewrite LK; exact D).
      assert (ED : nth_error (seq 0 30) d = Some d) by (rewrite (nth_error_nth' _ 0%nat) by (rewrite seq_length; exact D); rewrite seq_nth by exact D; reflexivity).
      destruct (F2_nth_error _ _ _ _ _ G ED) as (k & EK & GK & ES). assert (k = nth d ks []) by congruence. subst k.
      split; [exact ES|]. split; [exact GK|]. intros i j I J. apply V; assumption. }
  split; [|exact FR].
  apply (stack_ok _ (30 * (n * n))).
  - intros E. apply map_eq_nil in E. subst kdes. inversion FR; congruence.
  - clear -FR. induction FR as [|av row l X (L & _) FR IH]; constructor; assumption.
Qed.

Lemma matrix_ok v names records vd vp nb b vb rel_h fft angles vels lo hi vlo vhi :
  good_db names records -> db_to_angles_and_vels names records 1 Zeros = Ok (angles, vels) ->
  interval b angles lo hi -> interval vb vels vlo vhi -> rel_h <> 0 -> (4 <= nb)%Z ->
  let s := Z.sqrt nb in let n := Z.to_nat s in
  exists X, db_to_binned_hist_matrix true v names records vd vp nb b vb rel_h fft = Ok X /\
    Forall2 (fun av row => List.length row = (30 * (n * n))%nat /\ nonnegative row /\
      forall d, (d < 30)%nat -> exists xg yg k,
        gaussian_kde_2d true (Mat 2 (frames b vb d av)) (rel_h * (hi - lo)) (rel_h * (vhi - vlo)) s fft
          (Some ((lo, vlo), (hi, vhi))) = Ok (xg, yg, k) /\
        array_2d n n k (fun i j => nth (cell_of n d i j) row 0) /\
        total k <= / (spacing lo hi n * spacing vlo vhi n)) (combine angles vels) X /\
    List.length X = List.length records.
Proof.
  intros G E IA IV H NB s n. destruct (good_arrays _ _ G) as (angles' & EA).
  destruct (angles_and_vels _ _ _ EA) as (vels' & E' & F). assert (angles' = angles /\ vels' = vels) as (-> & ->) by (rewrite E in E'; injection E' as -> ->; split; reflexivity).
  pose proof (angle_arrays _ _ _ EA) as (_ & L).
  assert (NA : angles <> []) by (destruct G as (_ & NR & _); destruct records; [congruence|]; destruct angles; [discriminate L|discriminate]).
  assert (NV : vels <> []) by (destruct F; [congruence|discriminate]).
  rewrite (binned_run true v names records vd vp nb b vb rel_h fft angles vels (lo, hi) (vlo, vhi) E
    (bounds_found b angles lo hi NA IA) (bounds_found vb vels vlo vhi NV IV)).
  destruct (rest_ok angles vels b vb lo hi vlo vhi rel_h nb fft NA F IA IV H NB) as (X & EX & FX). fold s n in FX. exists X.
  split; [exact EX|]. split.
  - revert FX. apply Forall2_impl. intros av row (LR & NN & A). split; [exact LR|]. split; [exact NN|]. intros d D.
    destruct (A d D) as (k & (xg & yg & EK) & (LK & FK & _ & T) & HA). exists xg, yg, k. split; [exact EK|]. split; [|exact T].
    split; [exact LK|]. split; [exact FK|]. intros i j I J. symmetry. apply HA; assumption.
  - rewrite <- (F2_size _ _ _ FX), combine_length, <- (F2_size _ _ _ F), Nat.min_id. exact L.
Qed.

(** ** Errors *)
Lemma kde_few fl samples hx hy s fft b : (s < 2)%Z -> gaussian_kde_2d fl samples hx hy s fft b = Err ValueError.
Proof. intros S. unfold gaussian_kde_2d. rewrite bins_2d_errors; [reflexivity|left; exact S]. Qed.

Lemma few_bins fl v names records vd vp nb b vb rel_h fft : good_db names records -> (nb < 4)%Z ->
  db_to_binned_hist_matrix fl v names records vd vp nb b vb rel_h fft = Err ValueError.
Proof.
  intros G NB. destruct (good_arrays _ _ G) as (angles & EA). destruct (angles_and_vels _ _ _ EA) as (vels & E & F).
  pose proof (angle_arrays _ _ _ EA) as (FA & L).
  assert (NA : angles <> []) by (destruct G as (_ & NR & _); destruct records; [congruence|]; destruct angles; [discriminate L|discriminate]).
  assert (BB : forall (c : option (R * R)) arrs, arrs <> [] -> Forall angle_array arrs ->
    exists B, match c with None => get_bounds arrs | Some b => Ok b end = Ok B).
  { intros [c|] arrs NE FF; [eexists; reflexivity|]. unfold get_bounds. destruct FF as [|a arrs (N & FR) FF]; [congruence|]. cbn [List.length Nat.eqb].
    assert (NL : List.concat (List.concat (a :: arrs)) <> []).
    { destruct FR as [|r a LR FR]; [congruence|]. destruct r; [discriminate LR|discriminate]. }
    destruct (np_min_ok _ NL) as (lo & -> & _). destruct (np_max_ok _ NL) as (hi & -> & _). eexists. reflexivity. }
  destruct (BB b angles NA FA) as (B & EB).
  assert (NV : vels <> []) by (destruct F; [congruence|discriminate]).
  destruct (BB vb vels NV) as (VB & EVB). { clear -F. induction F as [|a w angles vels (_ & W & _) F IH]; constructor; assumption. }
  rewrite (binned_run fl v names records vd vp nb b vb rel_h fft angles vels B VB E EB EVB). unfold rest, int_sqrt.
  destruct (Z.ltb_spec nb 0) as [_|P]; [reflexivity|]. cbn [bind].
  destruct F as [|a w angles vels SH F]; [congruence|]. cbn [combine mapM fst snd]. rewrite samples_of by exact SH.
  cbn [seq mapM]. rewrite kde_few; [reflexivity|]. apply Z.sqrt_lt_square; [exact P|lia|lia].
Qed.

Lemma recent v names records vd vp nb b vb rel_h fft X : good_db names records ->
  db_to_binned_hist_matrix false v names records vd vp nb b vb rel_h fft <> Ok X.
Proof.
  intros G R. destruct (good_arrays _ _ G) as (angles & EA). destruct (angles_and_vels _ _ _ EA) as (vels & E & F).
  pose proof (angle_arrays _ _ _ EA) as (FA & L).
  assert (NA : angles <> []) by (destruct G as (_ & NR & _); destruct records; [congruence|]; destruct angles; [discriminate L|discriminate]).
  pose proof R as R'. unfold db_to_binned_hist_matrix in R'. rewrite E in R'. cbn [bind fst snd] in R'.
  apply bind_ok in R'. destruct R' as (B & EB & R'). apply bind_ok in R'. destruct R' as (VB & EVB & _).
  rewrite (binned_run false v names records vd vp nb b vb rel_h fft angles vels B VB E EB EVB) in R. unfold rest in R.
  apply bind_ok in R. destruct R as (s & _ & R). apply bind_ok in R. destruct R as (kdes & R & _).
  destruct F as [|a w angles vels SH F]; [congruence|]. cbn [combine mapM fst snd] in R.
  apply bind_ok in R. destruct R as (ks & R & _). rewrite samples_of in R by exact SH. cbn [seq mapM] in R.
  apply bind_ok in R. destruct R as (k & R & _). apply bind_ok in R. destruct R as (g & R & _). unfold gaussian_kde_2d in R.
  apply bind_ok in R. destruct R as (bins & R & _). revert R. apply bins_2d_index. cbn [mrows].
  destruct SH as ((N & _) & (N' & _) & _). destruct a; [congruence|]. destruct w; [congruence|]. discriminate.
Qed.

(** ** Each record alone *)
Lemma mapM_nth {A B} (f : A -> result B) l l' i x y : mapM f l = Ok l' -> nth_error l i = Some x -> nth_error l' i = Some y -> f x = Ok y.
Proof.
  intros M X Y. apply mapM_ok in M. destruct (F2_nth_error _ _ _ _ _ M X) as (y' & Y' & E). congruence.
Qed.
Lemma mapM_one {A B} (f : A -> result B) x y : f x = Ok y -> mapM f [x] = Ok [y].
Proof. intros E. cbn. rewrite E. reflexivity. Qed.
Lemma nth_combine {A B} (l : list A) (l' : list B) i a b : nth_error l i = Some a -> nth_error l' i = Some b -> nth_error (combine l l') i = Some (a, b).
Proof.
  revert l' i. induction l as [|x l IH]; intros [|y l'] [|i] X Y; try discriminate; cbn in *; [congruence|]. apply IH; assumption.
Qed.
Lemma nth_some {A} (l : list A) i : (i < List.length l)%nat -> exists x, nth_error l i = Some x.
Proof. intros L. destruct (nth_error l i) eqn:E; [eexists; reflexivity|]. apply nth_error_None in E. lia. Qed.

Lemma alone fl v names records vd vp nb b vb rel_h fft X i r row :
  db_to_binned_hist_matrix fl v names records vd vp nb (Some b) (Some vb) rel_h fft = Ok X ->
  nth_error records i = Some r -> nth_error X i = Some row ->
  db_to_binned_hist_matrix fl v names [r] vd vp nb (Some b) (Some vb) rel_h fft = Ok [row].
Proof.
  intros R EI ER. assert (exists angles vels, db_to_angles_and_vels names records 1 Zeros = Ok (angles, vels)) as (angles & vels & E).
  { unfold db_to_binned_hist_matrix in R. apply bind_ok in R. destruct R as ((angles & vels) & E & _). exists angles, vels. exact E. }
  rewrite (binned_run fl v names records vd vp nb (Some b) (Some vb) rel_h fft angles vels b vb E eq_refl eq_refl) in R.
  assert (IL : (i < List.length records)%nat) by (apply nth_error_Some; congruence).
  unfold db_to_angles_and_vels in E. apply bind_ok in E. destruct E as (angles' & EA & E). apply bind_ok in E. destruct E as (vels' & EV & E).
  injection E as -> ->. pose proof EA as EA'. unfold db_to_list_of_angle_arrays in EA'. apply bind_ok in EA'. destruct EA' as (idx & EI' & EA').
  destruct (nth_some angles i) as (a & Ea); [rewrite (mapM_length _ _ _ EA'); exact IL|].
  destruct (nth_some vels i) as (w & Ew); [rewrite (mapM_length _ _ _ EV), (mapM_length _ _ _ EA'); exact IL|].
  assert (E1 : db_to_angles_and_vels names [r] 1 Zeros = Ok ([a], [w])).
  { unfold db_to_angles_and_vels, db_to_list_of_angle_arrays. rewrite EI'. cbn [bind].
    rewrite (mapM_one _ r a (mapM_nth _ _ _ _ _ _ EA' EI Ea)). cbn [bind].
    rewrite (mapM_one _ a w (mapM_nth _ _ _ _ _ _ EV Ea Ew)). reflexivity. }
  rewrite (binned_run fl v names [r] vd vp nb (Some b) (Some vb) rel_h fft [a] [w] b vb E1 eq_refl eq_refl).
  unfold rest in *. destruct (int_sqrt nb) as [s|e]; [|discriminate R]. cbn [bind] in *.
  apply bind_ok in R. destruct R as (kdes & EK & R). apply bind_ok in R. destruct R as (rows & EH & R).
  assert (rows = X). { unfold stack_rows in R. destruct rows; [discriminate R|]. destruct (forallb _ _); [|discriminate R]. congruence. }
  subst rows. rewrite mapM_map in EH.
  pose proof (nth_combine _ _ _ _ _ Ea Ew) as EC.
  destruct (nth_some kdes i) as (ks & Ek). { rewrite <- (mapM_length _ _ _ EH). apply nth_error_Some. congruence. }
  cbn [combine]. rewrite (mapM_one _ (a, w) ks (mapM_nth _ _ _ _ _ _ EK EC Ek)). cbn [bind].
  rewrite mapM_map, (mapM_one _ ks row (mapM_nth _ _ _ _ _ _ EH Ek ER)). cbn [bind stack_rows forallb]. rewrite Nat.eqb_refl. reflexivity.
Qed.
