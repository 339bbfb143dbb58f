From Coq Require Import List ZArith Bool Arith Reals String Ascii Lia Lra Sorted Permutation.
Import ListNotations.
From Verif Require Import Py Py_proof ListUtil pairing_spec pairing_proof learner_proof experiment_proof motion_proof logger_load angle_vq sound_count hac_model quant_spec quant_kmeans nd_model nd_spec metrics_model metrics_props
  objects_model words_model words_spec words_text.
Local Open Scope nat_scope.
Notation length := List.length.

(** ** Words with their numbers *)
Definition mem (w : string) (l : list string) : bool := existsb (String.eqb w) l.
Lemma mem_in w l : mem w l = true <-> In w l.
Proof. unfold mem. rewrite existsb_exists. split; [intros (x & I & E); apply String.eqb_eq in E; now subst|intro I; exists w; split; auto; apply String.eqb_refl]. Qed.
Definition bit (b : bool) : nat := if b then 1 else 0.
Lemma indices_of W t : NoDup W -> incl t W -> exists idx, mapM (fun w => list_index String.eqb W w 0) t = Ok idx /\ Forall2 (fun w i => nth_error W i = Some w) t idx.
Proof.
  intros N H. induction t as [|w t IH]; [exists []; split; [reflexivity|constructor]|]. destruct IH as (idx & E & F); [intros x I; apply H; now right|].
  destruct (In_nth_error W w (H w (or_introl eq_refl))) as [i Ei]. exists (i :: idx). split; [|now constructor]. cbn [mapM]. unfold list_index at 1. rewrite (index_from_ok w W 0 i Ei N). cbn [bind]. now rewrite E.
Qed.
Lemma counts_of_ok W t : NoDup W -> incl t W -> counts_of W t = Ok (map (fun i => bit (mem (nth i W EmptyString) t)) (seq 0 (length W))).
Proof.
  intros N H. unfold counts_of. destruct (indices_of W (nodup string_dec t) N) as (idx & E & F); [intros w I; apply H; now apply nodup_In in I|]. rewrite E. cbn [bind].
  rewrite bincount_members.
  - f_equal. apply map_ext_in. intros i I. apply in_seq in I. unfold members.
    assert (Ni : NoDup idx).
    { clear E. pose proof (NoDup_nodup string_dec t) as Nt. induction F as [|w j t' idx E F IH]; [constructor|]. inversion_clear Nt as [|? ? Nw Nt']. constructor; auto. intro J. apply In_nth_error in J as [k Ek].
      destruct (Forall2_nth_r _ _ _ F _ _ Ek) as (w' & Ew' & E'). apply Nw. assert (w = w') by congruence. subst. exact (nth_error_In _ _ Ew'). }
    assert (Eq : In i idx <-> In (nth i W EmptyString) t).
    { rewrite <- (nodup_In string_dec t). split; intro J; apply In_nth_error in J as [k Ek].
      - destruct (Forall2_nth_r _ _ _ F _ _ Ek) as (w & Ew & E'). rewrite (nth_error_nth _ _ _ E'). exact (nth_error_In _ _ Ew).
      - destruct (Forall2_nth _ _ _ F _ _ Ek) as (j & Ej & E'). assert (i = j); [|subst; exact (nth_error_In _ _ Ej)].
        apply (NoDup_nth_error W); auto; [lia|]. rewrite E'. rewrite (nth_error_nth' W EmptyString) by lia. reflexivity. }
    destruct (mem (nth i W EmptyString) t) eqn:B; cbn [bit].
    + apply mem_in, Eq in B. now apply (NoDup_count_occ' Nat.eq_dec).
    + apply count_occ_not_In. intro J. apply Eq, mem_in in J. congruence.
  - rewrite Forall_forall. intros i I. apply In_nth_error in I as [k Ek]. destruct (Forall2_nth_r _ _ _ F _ _ Ek) as (w & _ & E'). apply nth_error_Some. congruence.
Qed.

(** ** Groups *)
Lemma list_set_map (al : list string) (f : string -> list (list nat)) j l x : NoDup al -> nth_error al j = Some l ->
  list_set (map f al) j x = map (fun l' => if String.eqb l' l then x else f l') al.
Proof.
  revert j. induction al as [|a al IH]; intros j N E; [destruct j; discriminate|]. inversion_clear N as [|? ? Na N']. destruct j as [|j]; cbn in E.
  - assert (a = l) by congruence. subst. cbn. rewrite String.eqb_refl. f_equal. apply map_ext_in. intros b I. destruct (String.eqb_spec b l); congruence.
  - cbn. destruct (String.eqb_spec a l) as [->|D]; [exfalso; apply Na; exact (nth_error_In _ _ E)|]. f_equal. now apply IH.
Qed.
Lemma by_labels_loop al (rest : list (string * list nat)) : NoDup al -> (forall q, In q rest -> In (fst q) al) -> forall f : string -> list (list nat),
  foldM (fun acc p => bind (list_index String.eqb al (fst p) 0) (fun j => bind (py_nth acc (Z.of_nat j)) (fun l => py_set acc (Z.of_nat j) (l ++ [snd p])%list))) rest (map f al)
  = Ok (map (fun l => (f l ++ map snd (filter (fun q => String.eqb l (fst q)) rest))%list) al).
Proof.
  intro N. induction rest as [|[l c] rest IH]; intros H f; cbn [foldM]; [f_equal; apply map_ext; intro; now rewrite app_nil_r|].
  destruct (In_nth_error al l (H _ (or_introl eq_refl))) as [j Ej]. cbn [fst snd]. unfold list_index. rewrite (index_from_ok l al 0 j Ej N). cbn [bind Nat.add].
  assert (Lj : j < length al) by (apply nth_error_Some; congruence). rewrite (proj2 (py_nth_nat_ok _ _ (f l))) by (now rewrite nth_error_map, Ej). cbn [bind].
  rewrite py_set_in by (rewrite map_length; exact Lj). cbn [bind]. rewrite (list_set_map al f j l _ N Ej). etransitivity; [apply (IH (fun q I => H q (or_intror I)) (fun l' => if String.eqb l' l then (f l ++ [c])%list else f l'))|].
  f_equal. apply map_ext. intro l'. cbn [filter fst]. destruct (String.eqb_spec l' l) as [->|D]; [|reflexivity]. cbn [map snd]. now rewrite <- app_assoc.
Qed.
Lemma by_labels_ok al labels cs : NoDup al -> incl labels al ->
  by_labels al labels cs = Ok (map (fun l => map snd (filter (fun q => String.eqb l (fst q)) (combine labels cs))) al).
Proof.
  intros N H. unfold by_labels. rewrite (by_labels_loop al (combine labels cs) N); [reflexivity|]. intros [l c] I. apply H. exact (in_combine_l _ _ _ _ I).
Qed.

(** ** Counting *)
Definition cnt {A} (f : A -> bool) (l : list A) : nat := length (filter f l).
Lemma cnt_counts {A} (P : A -> Prop) f l : (forall a, f a = true <-> P a) -> counts P l (cnt f l).
Proof.
  intro H. induction l as [|a l IH]; [constructor|]. unfold cnt in *. cbn. destruct (f a) eqn:E; cbn; constructor; auto; [now apply H|]. rewrite <- H. congruence.
Qed.
Lemma counts_unique {A} (P : A -> Prop) l n : counts P l n -> forall m, counts P l m -> n = m.
Proof. induction 1 as [|a l n Pa C IH|a l n Pa C IH]; intros m M; inversion M; subst; auto; contradiction. Qed.
Lemma cnt_split {A} (f g : A -> bool) l : cnt f l = cnt (fun a => f a && g a) l + cnt (fun a => f a && negb (g a)) l.
Proof. unfold cnt. induction l as [|a l IH]; [reflexivity|]. cbn. destruct (f a), (g a); cbn; lia. Qed.
Lemma cnt_ext {A} (f g : A -> bool) l : (forall a, In a l -> f a = g a) -> cnt f l = cnt g l.
Proof. intro H. unfold cnt. induction l as [|a l IH]; [reflexivity|]. cbn. rewrite (H a (or_introl eq_refl)). destruct (g a); cbn; rewrite IH; auto; intros; apply H; now right. Qed.
Lemma cnt_true {A} (l : list A) : cnt (fun _ => true) l = length l.
Proof. unfold cnt. f_equal. induction l; cbn; congruence. Qed.
(** Each element of [l] has exactly one label. *)
Lemma cnt_by_label {A} (f : A -> bool) (lab : A -> string) al l : NoDup al -> (forall a, In a l -> In (lab a) al) ->
  list_sum (map (fun x => cnt (fun a => f a && String.eqb (lab a) x) l) al) = cnt f l.
Proof.
  intros N H. unfold cnt. induction l as [|a l IH].
  - cbn. clear. induction al; cbn; auto.
  - transitivity (bit (f a) + list_sum (map (fun x => length (filter (fun a => f a && String.eqb (lab a) x) l)) al)).
    + assert (K : forall bl, NoDup bl -> list_sum (map (fun x => length (filter (fun b => f b && String.eqb (lab b) x) (a :: l))) bl) =
        (if mem (lab a) bl then bit (f a) else 0) + list_sum (map (fun x => length (filter (fun b => f b && String.eqb (lab b) x) l)) bl)).
      { clear. intros bl N. induction N as [|x bl Nx N IH]; [reflexivity|]. change (list_sum (map ?g (x :: bl))) with (g x + list_sum (map g bl)). rewrite IH. clear IH. cbn [filter mem existsb].
        destruct (String.eqb_spec (lab a) x) as [->|D].
        - assert (M : mem x bl = false) by (apply not_true_iff_false; rewrite mem_in; exact Nx). rewrite M. destruct (f a); cbn; lia.
        - rewrite andb_false_r. fold (mem (lab a) bl). cbn [orb map list_sum fold_right]. unfold list_sum. lia. }
      rewrite (K al N). rewrite (proj2 (mem_in (lab a) al) (H a (or_introl eq_refl))). reflexivity.
    + rewrite IH; [|intros b I; apply H; now right]. cbn. destruct (f a); reflexivity.
Qed.

(** ** The histogram *)
Definition saysb (w : string) (r : string * string) : bool := mem w (words_of (fst r)).
Definition labb (l : string) (r : string * string) : bool := String.eqb (lower (snd r)) l.
Lemma saysb_spec w r : saysb w r = true <-> says (fst r) w.
Proof. unfold saysb. now rewrite mem_in, says_spec. Qed.
Lemma labb_spec l r : labb l r = true <-> lowered (snd r) l.
Proof. unfold labb. rewrite String.eqb_eq, lowered_spec. split; congruence. Qed.

Lemma nodup_two (l m : list string) : NoDup l -> NoDup m -> (forall w, In w l -> In w m -> False) -> NoDup (l ++ m).
Proof. intros N M H. induction N as [|x l Nx N IH]; auto. cbn. constructor; [rewrite in_app_iff; intros [I|I]; [auto|exact (H x (or_introl eq_refl) I)]|]. apply IH. intros w I. apply H. now right. Qed.
Lemma combine_swap {A B C E} (f : A -> C) (g : B -> E) (ls : list A) (ts : list B) : length ts = length ls ->
  combine (map f ls) (map g ts) = map (fun r => (f (snd r), g (fst r))) (combine ts ls).
Proof. revert ls. induction ts as [|t ts IH]; intros [|l ls] H; try discriminate; auto. cbn [map combine fst snd]. f_equal. apply IH. now injection H. Qed.
Lemma some_label {A B} (ts : list A) (ls : list B) : length ts = length ls -> ts <> [] -> exists l, In l ls.
Proof. destruct ts, ls as [|l ls]; try discriminate; [congruence|]. intros _ _. exists l. now left. Qed.
Section Histogram.
Context (trans labels al : list string) (L : length trans = length labels) (D : distinct_labels al (map lower labels)).
Let W := all_words_of al (map words_of trans).
Let recs := combine trans labels.
Definition cell_count (w l : string) : nat := cnt (fun r => saysb w r && labb l r) recs.

Lemma all_words_facts : NoDup W /\ (exists rest, W = (al ++ rest)%list /\ StronglySorted before rest) /\ forall w, In w W <-> In w al \/ exists s, In s trans /\ says s w.
Proof using D.
  destruct D as [N _]. unfold W, all_words_of. set (rest := filter _ _).
  assert (Nr : NoDup rest) by (apply NoDup_filter, NoDup_nodup).
  assert (Ir : forall w, In w rest <-> (exists s, In s trans /\ says s w) /\ ~ In w al).
  { intro w. unfold rest. rewrite filter_In, nodup_In. fold (mem w al). rewrite negb_true_iff. split.
    - intros [I M]. split; [|rewrite <- mem_in; congruence]. apply in_concat in I as (ws & Iw & I). apply in_map_iff in Iw as (s & <- & Is). exists s. split; auto. now apply says_spec.
    - intros [(s & Is & Sw) M]. split; [|apply not_true_iff_false; now rewrite mem_in]. apply in_concat. exists (words_of s). split; [now apply in_map|now apply says_spec]. }
  split; [|split].
  - apply nodup_two; auto; [now apply sort_nodup|]. intros w I J. apply sort_in, Ir in J. tauto.
  - exists (sort_strings rest). split; auto. now apply sort_sorted.
  - intro w. rewrite in_app_iff, sort_in, Ir. destruct (in_dec string_dec w al); tauto.
Qed.

Definition cvec (s : string) : list nat := map (fun i => bit (mem (nth i W EmptyString) (words_of s))) (seq 0 (length W)).
Lemma word_counts_ok : mapM (counts_of W) (map words_of trans) = Ok (map cvec trans).
Proof using D.
  destruct all_words_facts as (N & _ & I). rewrite angle_vq.mapM_map. apply mapM_pure. intros s Is. apply counts_of_ok; auto. intros w Iw. apply I. right. exists s. split; auto. now apply says_spec.
Qed.
Lemma combined : combine (map lower labels) (map cvec trans) = map (fun r => (lower (snd r), cvec (fst r))) recs.
Proof using L. now apply combine_swap. Qed.
Lemma groups : map (fun l => map snd (filter (fun q => String.eqb l (fst q)) (combine (map lower labels) (map cvec trans)))) al =
  map (fun l => map (fun r => cvec (fst r)) (filter (labb l) recs)) al.
Proof using L.
  apply map_ext. intro l. rewrite combined. induction recs as [|r rs IH]; [reflexivity|]. cbn [map filter fst snd]. rewrite String.eqb_sym. fold (labb l r). destruct (labb l r); cbn [map fst snd]; congruence.
Qed.
Lemma same_lengths_const {A} (l : list (list A)) n : Forall (fun r => length r = n) l -> same_lengths l = true.
Proof.
  destruct l as [|r l]; [reflexivity|]. intro F. inversion_clear F as [|? ? Lr F']. cbn. apply forallb_forall. intros r' I. rewrite Forall_forall in F'. rewrite (F' r' I), Lr. apply Nat.eqb_refl.
Qed.
Lemma sum_rows_const l n : l <> [] -> Forall (fun r => length r = n) l -> sum_rows l = Ok (map (fun i => list_sum (map (fun r => nth i r 0) l)) (seq 0 n)).
Proof.
  destruct l as [|r l]; [congruence|]. intros _ F. unfold sum_rows. rewrite (same_lengths_const _ _ F). inversion_clear F as [|? ? Lr F']. now rewrite Lr.
Qed.
Lemma cvec_length s : length (cvec s) = length W.
Proof. unfold cvec. now rewrite map_length, seq_length. Qed.
Lemma cvec_nth s i : i < length W -> nth i (cvec s) 0 = bit (mem (nth i W EmptyString) (words_of s)).
Proof. intro H. unfold cvec. rewrite (nth_indep _ 0 (bit (mem (nth 0 W EmptyString) (words_of s)))) by (rewrite map_length, seq_length; exact H). rewrite (map_nth (fun i => bit (mem (nth i W EmptyString) (words_of s)))), seq_nth by exact H. reflexivity. Qed.
Lemma label_present l : In l al -> filter (labb l) recs <> [].
Proof using D L.
  intros I C. destruct D as [_ S]. apply S, in_map_iff in I as (l0 & <- & I). apply In_nth_error in I as [k Ek].
  destruct (nth_error trans k) as [s|] eqn:Es; [|apply nth_error_None in Es; assert (k < length labels) by (apply nth_error_Some; congruence); lia].
  assert (J : In (s, l0) recs). { apply (nth_error_In _ k). unfold recs. rewrite utils_proof.nth_error_combine, Es, Ek. reflexivity. }
  assert (J' : In (s, l0) (filter (labb (lower l0)) recs)) by (apply filter_In; split; auto; apply String.eqb_refl). rewrite C in J'. destruct J'.
Qed.
Lemma rows_ok : mapM sum_rows (map (fun l => map (fun r => cvec (fst r)) (filter (labb l) recs)) al) = Ok (map (fun l => map (fun i => cell_count (nth i W EmptyString) l) (seq 0 (length W))) al).
Proof using D L.
  rewrite angle_vq.mapM_map. apply mapM_pure. intros l I. rewrite (sum_rows_const _ (length W)).
  - f_equal. apply map_ext_in. intros i Hi. apply in_seq in Hi. unfold cell_count, cnt. rewrite map_map. clear - Hi. induction recs as [|r rs IH]; [reflexivity|]. cbn [filter]. destruct (labb l r); cbn [andb].
    + cbn [map]. change (list_sum (?a :: ?b)) with (a + list_sum b). rewrite cvec_nth by lia. rewrite IH. unfold saysb. rewrite andb_true_r. destruct (mem _ _); reflexivity.
    + rewrite andb_false_r. exact IH.
  - intro C. apply map_eq_nil in C. exact (label_present l I C).
  - rewrite Forall_forall. intros r J. apply in_map_iff in J as (q & <- & _). apply cvec_length.
Qed.
Let n := INR (length trans).
Lemma histo_ok order : order (map lower labels) = al -> trans <> [] ->
  word_histo_by_label order trans labels = Ok (Histo (map (fun l => map (fun i => (INR (cell_count (nth i W EmptyString) l) / n)%R) (seq 0 (length W))) al)
    (map (fun l => (INR (cnt (labb l) recs) / n)%R) al) al W).
Proof using D L.
  intros Eo Ne. unfold word_histo_by_label. rewrite (proj2 (Nat.eqb_eq _ _) L). cbn [py_assert bind]. rewrite Eo. fold W. rewrite word_counts_ok. cbn [bind]. rewrite by_labels_ok; [|apply D|intros l I; now apply D].
  cbn [bind]. rewrite groups, rows_ok. cbn [bind]. set (rows := map _ al). assert (F : same_lengths rows = true).
  { apply (same_lengths_const _ (length W)). rewrite Forall_forall. intros r I. apply in_map_iff in I as (l & <- & _). now rewrite map_length, seq_length. }
  rewrite F. destruct rows as [|r rs] eqn:Er.
  - exfalso. unfold rows in Er. apply map_eq_nil in Er. destruct (some_label _ _ L Ne) as [l Il]. assert (I : In (lower l) al) by (apply D; now apply in_map). rewrite Er in I. destruct I.
  - f_equal. f_equal.
    + rewrite <- Er. unfold rows. rewrite map_map. apply map_ext. intro l. now rewrite map_map.
    + rewrite map_map. apply map_ext. intro l. now rewrite map_length.
Qed.

(** ** The tables *)
Lemma py_sum_lsum l : py_sum l = lsum l.
Proof.
  unfold py_sum. assert (H : forall a, fold_left Rplus l a = (a + lsum l)%R) by (induction l as [|x l IH]; intro a; cbn; [lra|rewrite IH; lra]). rewrite H. lra.
Qed.
Lemma lsum_app l m : lsum (l ++ m) = (lsum l + lsum m)%R.
Proof. induction l as [|x l IH]; cbn; lra. Qed.
Lemma lsum_but (l : list R) j : j < length l -> (lsum (firstn j l) + lsum (skipn (j + 1) l) = lsum l - nth j l 0)%R.
Proof.
  revert j. induction l as [|x l IH]; intros j H; [cbn in H; lia|]. destruct j as [|j]; [cbn; lra|]. cbn [length] in H. specialize (IH j ltac:(lia)). change (S j + 1) with (S (j + 1)). cbn [firstn skipn lsum nth]. lra.
Qed.
Lemma lsum_share (F : string -> nat) (l : list string) : lsum (map (fun x => (INR (F x) / n)%R) l) = (INR (list_sum (map F l)) / n)%R.
Proof. induction l as [|x l IH]; cbn [map lsum list_sum fold_right]; [cbn; unfold Rdiv; lra|]. unfold list_sum in IH. rewrite IH, plus_INR. unfold Rdiv. lra. Qed.
Lemma lsum_minus (f g : string -> R) (l : list string) : lsum (map (fun q => (fst q - snd q)%R) (combine (map f l) (map g l))) = (lsum (map f l) - lsum (map g l))%R.
Proof. induction l as [|x l IH]; cbn [map combine lsum fst snd]; lra. Qed.

Lemma recs_labels r : In r recs -> In (lower (snd r)) al.
Proof using D. intro I. destruct r as [s l]. apply D, in_map. exact (in_combine_r _ _ _ _ I). Qed.
Lemma table_ok i j w l : trans <> [] -> nth_error W i = Some w -> nth_error al j = Some l ->
  exists n11 n12 n21 n22, counts (both w l) recs n11 /\ counts (word_only w l) recs n12 /\ counts (label_only w l) recs n21 /\ counts (neither w l) recs n22 /\
    n11 + n12 + n21 + n22 = length trans /\
    table (Histo (map (fun l => map (fun i => (INR (cell_count (nth i W EmptyString) l) / n)%R) (seq 0 (length W))) al) (map (fun l => (INR (cnt (labb l) recs) / n)%R) al) al W) i j
    = [[INR n11 / n; INR n12 / n]; [INR n21 / n; INR n22 / n]]%R.
Proof using D L.
  intros Ne Ei Ej. assert (Li : i < length W) by (apply nth_error_Some; congruence). assert (Lj : j < length al) by (apply nth_error_Some; congruence).
  set (n11 := cnt (fun r => saysb w r && labb l r) recs). set (n12 := cnt (fun r => saysb w r && negb (labb l r)) recs).
  set (n21 := cnt (fun r => negb (saysb w r) && labb l r) recs). set (n22 := cnt (fun r => negb (saysb w r) && negb (labb l r)) recs).
  exists n11, n12, n21, n22.
  assert (C1 : forall r, negb (saysb w r) = true <-> ~ says (fst r) w) by (intro r; rewrite <- saysb_spec; destruct (saysb w r); cbn; intuition congruence).
  assert (C2 : forall r, negb (labb l r) = true <-> ~ lowered (snd r) l) by (intro r; rewrite <- labb_spec; destruct (labb l r); cbn; intuition congruence).
  do 4 (split; [apply cnt_counts; intro r; rewrite andb_true_iff, ?C1, ?C2, ?saysb_spec, ?labb_spec; reflexivity|]).
  assert (T1 : cnt (saysb w) recs = n11 + n12) by apply cnt_split.
  assert (T2 : cnt (labb l) recs = n11 + n21). { rewrite (cnt_split _ (saysb w)). unfold n11, n21. f_equal; apply cnt_ext; intros r _; apply andb_comm. }
  assert (T3 : cnt (fun r => negb (saysb w r)) recs = n21 + n22) by apply cnt_split.
  assert (T4 : length recs = length trans) by (unfold recs; rewrite combine_length; lia).
  assert (T5 : length trans = cnt (saysb w) recs + cnt (fun r => negb (saysb w r)) recs).
  { rewrite <- T4. transitivity (cnt (fun _ => true) recs); [symmetry; apply cnt_true|]. rewrite (cnt_split _ (saysb w)). f_equal; apply cnt_ext; intros r _; reflexivity. }
  split; [lia|].
  assert (Np : (n <> 0)%R) by (unfold n; apply not_0_INR; destruct trans; cbn; congruence).
  unfold table, h_row. cbn [h_columns h_labels]. rewrite map_map.
  assert (Er : map (fun x => nth i (map (fun i0 => (INR (cell_count (nth i0 W EmptyString) x) / n)%R) (seq 0 (length W))) 0%R) al = map (fun x => (INR (cell_count w x) / n)%R) al).
  { apply map_ext. intro x. rewrite (nth_indep _ 0%R (INR (cell_count (nth 0 W EmptyString) x) / n)%R) by (rewrite map_length, seq_length; exact Li).
    rewrite (map_nth (fun i0 => (INR (cell_count (nth i0 W EmptyString) x) / n)%R)), seq_nth by exact Li. cbn [Nat.add]. now rewrite (nth_error_nth _ _ _ Ei). }
  rewrite Er. clear Er.
  assert (Nj : forall f : string -> R, nth j (map f al) 0%R = f l) by (intro f; apply nth_error_nth; now rewrite nth_error_map, Ej).
  rewrite !py_sum_lsum, lsum_but by (rewrite map_length; exact Lj). rewrite lsum_minus, !Nj, !lsum_share.
  assert (S1 : list_sum (map (cell_count w) al) = n11 + n12).
  { rewrite <- T1. apply (cnt_by_label (saysb w) (fun r => lower (snd r)) al recs); [apply D|exact recs_labels]. }
  assert (S2 : list_sum (map (fun x => cnt (labb x) recs) al) = length trans).
  { rewrite <- T4. transitivity (cnt (fun _ => true) recs); [|apply cnt_true].
    apply (cnt_by_label (fun _ => true) (fun r => lower (snd r)) al recs); [apply D|exact recs_labels]. }
  rewrite S1, S2, T2, T5, T1, T3. change (cell_count w l) with n11. rewrite !plus_INR.
  match goal with |- [[?a; ?b]; [?c; ?d]] = [[_; ?b']; [?c'; ?d']] => replace b with b' by (field; exact Np); replace c with c' by (field; exact Np); replace d with d' by (field; exact Np) end. reflexivity.
Qed.
End Histogram.

(** ** The information *)
Lemma mapM_total {A B} (f : A -> result B) l : (forall a, In a l -> exists b, f a = Ok b) -> exists ys, mapM f l = Ok ys.
Proof.
  induction l as [|a l IH]; intro H; [now exists []|]. destruct (H a (or_introl eq_refl)) as [b Eb]. destruct IH as [ys Es]; [intros; apply H; now right|]. exists (b :: ys). cbn. now rewrite Eb, Es.
Qed.
Lemma cells2 (a b c d : R) : let m := nd_model.mat 2 [[a; b]; [c; d]] in
  shape m = [2; 2] /\ entries m = [a; b; c; d] /\ row m 0 = [a; b] /\ row m 1 = [c; d] /\ col m 0 = [a; c] /\ col m 1 = [b; d].
Proof. repeat split. Qed.
Lemma information n11 n12 n21 n22 N : n11 + n12 + n21 + n22 = N -> N <> 0 ->
  exists v, mutual_information (nd_model.mat 2 [[INR n11 / INR N; INR n12 / INR N]; [INR n21 / INR N; INR n22 / INR N]]%R) = Ok v /\ (0 <= v)%R /\
    (v = 0%R <-> n11 * N = (n11 + n12) * (n11 + n21)).
Proof.
  intros E Nz. assert (Np : (0 < INR N)%R) by (apply lt_0_INR; lia). set (h := nd_model.mat 2 _).
  assert (Es : (INR n11 + INR n12 + INR n21 + INR n22 = INR N)%R) by (rewrite <- E, !plus_INR; reflexivity).
  destruct (C48_nonneg_zero h 2 2) as (v & Ev & Pv & Z).
  - reflexivity.
  - intros idx V. destruct idx as [|i [|j [|]]]; try (destruct V as [_ V]; cbn in V; tauto); try (inversion V; fail).
    all: try (exfalso; clear - V; inversion V as [|? ? ? ? ? V']; inversion V' as [|? ? ? ? ? V'']; inversion V''; fail).
    all: cbn; destruct i as [|[|[|]]], j as [|[|[|]]]; cbn; try lra; apply Rmult_le_pos; try apply pos_INR; left; now apply Rinv_0_lt_compat.
  - change (total h) with (INR n11 / INR N + (INR n12 / INR N + (INR n21 / INR N + (INR n22 / INR N + 0))))%R. rewrite <- Es. field. lra.
  - exists v. split; [exact Ev|]. split; [exact Pv|]. rewrite Z. clear Z Ev Pv v. set (x := INR n11) in *. set (y := INR n12) in *. set (z := INR n21) in *. set (t := INR n22) in *. set (M := INR N) in *.
    assert (K : n11 * N = (n11 + n12) * (n11 + n21) <-> (x * M = (x + y) * (x + z))%R).
    { unfold x, y, z, M. rewrite <- !plus_INR, <- !mult_INR. split; [intros ->; reflexivity|apply INR_eq]. }
    rewrite K. clear K. split.
    + intro H. specialize (H 0 0 ltac:(lia) ltac:(lia)). change (x / M = (x / M + (y / M + 0)) * (x / M + (z / M + 0)))%R in H.
      apply (Rmult_eq_reg_r (/ M)); [|apply Rinv_neq_0_compat; lra]. apply (Rmult_eq_reg_r (/ M)); [|apply Rinv_neq_0_compat; lra].
      transitivity (x / M)%R; [field; lra|]. rewrite H. field. lra.
    + intros H i j Hi Hj. destruct i as [|[|]], j as [|[|]]; try lia; cbn;
      (apply (Rmult_eq_reg_r (M * M)); [|apply Rmult_integral_contrapositive_currified; lra]);
      match goal with |- (?a / M * _ = (?p / M + (?q / M + 0)) * (?r / M + (?s / M + 0)) * _)%R => transitivity (a * M)%R; [field; lra|]; transitivity ((p + q) * (r + s))%R; [|field; lra] end; rewrite <- Es in *; nra.
Qed.

Lemma word_table trans labels order h : distinct_labels (order (map lower labels)) (map lower labels) ->
  word_histo_by_label order trans labels = Ok h ->
  forall i j w l, nth_error (h_all_words h) i = Some w -> nth_error (h_all_labels h) j = Some l ->
  exists n11 n12 n21 n22, let recs := combine trans labels in let n := INR (length recs) in
    counts (both w l) recs n11 /\ counts (word_only w l) recs n12 /\ counts (label_only w l) recs n21 /\ counts (neither w l) recs n22 /\
    n11 + n12 + n21 + n22 = length recs /\ length recs <> 0 /\
    table h i j = [[INR n11 / n; INR n12 / n]; [INR n21 / n; INR n22 / n]]%R.
Proof.
  intros D E i j w l Ei Ej. assert (L : length trans = length labels).
  { unfold word_histo_by_label in E. destruct (Nat.eqb_spec (length trans) (length labels)); auto. discriminate. }
  assert (Lr : length (combine trans labels) = length trans) by (rewrite combine_length; lia).
  assert (Ne : trans <> []).
  { intros ->. destruct labels; [|discriminate]. assert (order [] = []) by (destruct (order []) as [|s o] eqn:Eo; auto; exfalso; cbn in D; rewrite Eo in D; exact (proj1 (proj2 D s) (or_introl eq_refl))).
    unfold word_histo_by_label in E. cbn in E. rewrite H in E. discriminate. }
  rewrite (histo_ok trans labels _ L D order eq_refl Ne) in E. injection E as <-. cbn [h_all_words h_all_labels] in Ei, Ej.
  destruct (table_ok trans labels _ L D i j w l Ne Ei Ej) as (a & b & c & d & H1 & H2 & H3 & H4 & H5 & H6). exists a, b, c, d. cbn zeta. rewrite Lr. do 5 (split; [assumption|]). split; [destruct trans; [congruence|discriminate]|exact H6].
Qed.
Lemma info_ok trans labels order h : distinct_labels (order (map lower labels)) (map lower labels) ->
  word_histo_by_label order trans labels = Ok h -> let recs := combine trans labels in
  exists m, word_label_info h = Ok m /\ length m = length (h_all_words h) /\
  forall i j w l, nth_error (h_all_words h) i = Some w -> nth_error (h_all_labels h) j = Some l ->
    exists row v n11 nw nl, nth_error m i = Some row /\ length row = length (h_all_labels h) /\ nth_error row j = Some v /\ (0 <= v)%R /\
      counts (both w l) recs n11 /\ counts (fun r => says (fst r) w) recs nw /\ counts (fun r => lowered (snd r) l) recs nl /\
      (v = 0%R <-> n11 * length recs = nw * nl).
Proof.
  intros D E recs.
  assert (K : forall i j w l, nth_error (h_all_words h) i = Some w -> nth_error (h_all_labels h) j = Some l ->
    exists v n11 nw nl, mutual_information (nd_model.mat 2 (table h i j)) = Ok v /\ (0 <= v)%R /\
      counts (both w l) recs n11 /\ counts (fun r => says (fst r) w) recs nw /\ counts (fun r => lowered (snd r) l) recs nl /\ (v = 0%R <-> n11 * length recs = nw * nl)).
  { intros i j w l Ei Ej. destruct (word_table trans labels order h D E i j w l Ei Ej) as (a & b & c & d & H1 & H2 & H3 & H4 & H5 & H6 & H7). fold recs in H1, H2, H3, H4, H5, H6, H7.
    destruct (information a b c d _ H5 H6) as (v & Ev & Pv & Zv). exists v, a, (a + b), (a + c). rewrite H7. split; [exact Ev|]. split; [exact Pv|]. split; [exact H1|].
    assert (Q1 : forall (P P1 P2 : string * string -> Prop), (forall r, P r <-> P1 r \/ P2 r) -> (forall r, P1 r -> P2 r -> False) -> forall l n m, counts P1 l n -> counts P2 l m -> counts P l (n + m)).
    { clear. intros P P1 P2 HP Hd l. induction l as [|r l IH]; intros n m C1 C2; inversion C1; subst; inversion C2; subst; try (exfalso; now apply (Hd r)).
      - constructor.
      - cbn. constructor; [apply HP; now left|auto].
      - rewrite Nat.add_succ_r. constructor; [apply HP; now right|auto].
      - constructor; [rewrite HP; tauto|auto]. }
    split; [|split; [|exact Zv]].
    - apply (Q1 _ (both w l) (word_only w l)); auto.
      + intro r. unfold both, word_only. rewrite <- saysb_spec, <- labb_spec. destruct (saysb w r), (labb l r); intuition congruence.
      + intros r [_ A] [_ B]. auto.
    - apply (Q1 _ (both w l) (label_only w l)); auto.
      + intro r. unfold both, label_only. rewrite <- saysb_spec, <- labb_spec. destruct (saysb w r), (labb l r); intuition congruence.
      + intros r [A _] [B _]. auto. }
  assert (R : forall i, i < length (h_all_words h) -> exists row, mapM (fun j => mutual_information (nd_model.mat 2 (table h i j))) (seq 0 (length (h_all_labels h))) = Ok row).
  { intros i Li. apply mapM_total. intros j I. apply in_seq in I. destruct (nth_error (h_all_words h) i) as [w|] eqn:Ei; [|apply nth_error_None in Ei; lia]. destruct (nth_error (h_all_labels h) j) as [l|] eqn:Ej; [|apply nth_error_None in Ej; lia].
    destruct (K i j w l Ei Ej) as (v & _ & _ & _ & Ev & _). eauto. }
  destruct (mapM_total (fun i => mapM (fun j => mutual_information (nd_model.mat 2 (table h i j))) (seq 0 (length (h_all_labels h)))) (seq 0 (length (h_all_words h)))) as [m Em]; [intros i I; apply in_seq in I; apply R; lia|].
  exists m. split; [exact Em|]. split; [rewrite (mapM_length _ _ _ Em); apply seq_length|]. intros i j w l Ei Ej.
  assert (Li : i < length (h_all_words h)) by (apply nth_error_Some; congruence). assert (Lj : j < length (h_all_labels h)) by (apply nth_error_Some; congruence).
  apply mapM_ok in Em. destruct (Forall2_nth _ _ _ Em i i) as (row & Er & Hrow); [rewrite logger_load.nth_error_seq, (proj2 (Nat.ltb_lt _ _) Li); reflexivity|].
  pose proof (mapM_length _ _ _ Hrow) as Lrow. rewrite seq_length in Lrow. apply mapM_ok in Hrow. destruct (Forall2_nth _ _ _ Hrow j j) as (v & Evj & Hv); [rewrite logger_load.nth_error_seq, (proj2 (Nat.ltb_lt _ _) Lj); reflexivity|].
  destruct (K i j w l Ei Ej) as (v' & n11 & nw & nl & Ev' & H). assert (v' = v) by congruence. subst v'. exists row, v, n11, nw, nl. tauto.
Qed.
Lemma histo_cases order trans labels : distinct_labels (order (map lower labels)) (map lower labels) ->
  (length trans <> length labels -> word_histo_by_label order trans labels = Err AssertionError) /\
  (trans = [] -> labels = [] -> word_histo_by_label order trans labels = Err ValueError) /\
  (length trans = length labels -> trans <> [] -> exists h, word_histo_by_label order trans labels = Ok h).
Proof.
  intro D. split; [|split].
  - intro L. unfold word_histo_by_label. now rewrite (proj2 (Nat.eqb_neq _ _) L).
  - intros -> ->. assert (E : order [] = []) by (destruct (order []) as [|s o] eqn:Eo; auto; exfalso; cbn in D; rewrite Eo in D; exact (proj1 (proj2 D s) (or_introl eq_refl))).
    unfold word_histo_by_label. cbn. now rewrite E.
  - intros L Ne. eexists. exact (histo_ok trans labels _ L D order eq_refl Ne).
Qed.
Lemma histo_words order trans labels h : distinct_labels (order (map lower labels)) (map lower labels) ->
  word_histo_by_label order trans labels = Ok h ->
  distinct_labels (h_all_labels h) (map lower labels) /\ NoDup (h_all_words h) /\
  (exists rest, h_all_words h = (h_all_labels h ++ rest)%list /\ StronglySorted before rest) /\
  (forall w, In w (h_all_words h) <-> In w (h_all_labels h) \/ exists s, In s trans /\ says s w).
Proof.
  intros D E. destruct (histo_cases order trans labels D) as (C1 & C2 & _). destruct (Nat.eq_dec (length trans) (length labels)) as [L|L]; [|rewrite C1 in E by exact L; discriminate].
  destruct trans as [|s t]; [destruct labels; [|discriminate]; rewrite C2 in E by reflexivity; discriminate|].
  rewrite (histo_ok (s :: t) labels _ L D order eq_refl ltac:(discriminate)) in E. injection E as <-. cbn [h_all_labels h_all_words]. split; [exact D|]. exact (all_words_facts (s :: t) labels _ D).
Qed.
Lemma lowered_in l ls : In l (map lower ls) <-> exists l0, In l0 ls /\ lowered l0 l.
Proof. rewrite in_map_iff. split; intros (l0 & A & B); exists l0; [rewrite lowered_spec|rewrite lowered_spec in B]; intuition congruence. Qed.
