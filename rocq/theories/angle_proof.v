(** * Lemmas on histograms of joint angles. *)

From Coq Require Import List ZArith Arith Reals Bool String Lia Lra.
Import ListNotations.
From Verif Require Import Py Py_proof utils_model utils_proof hac_model quant_model quant_spec quant_proof
  transf_model angle_model angle_spec.
Open Scope py_scope.
Local Open Scope R_scope.

(** ** Stacking and unstacking *)
Lemma forallb_cols {A} (xs : list (mat A)) c :
  forallb (fun b => (mcols b =? c)%nat) xs = true <-> Forall (fun m => mcols m = c) xs.
Proof.
  rewrite forallb_forall, Forall_forall. split; intros H x I; specialize (H x I); [apply Nat.eqb_eq|apply Nat.eqb_eq]; exact H.
Qed.

Lemma vstack_ok {A} (xs : list (mat A)) c : xs <> [] -> Forall (fun m => mcols m = c) xs ->
  vstack xs = Ok (Mat c (flat_map mrows xs)).
Proof.
  intros N F. destruct xs as [|a xs]; [congruence|]. unfold vstack.
  assert (E : mcols a = c) by (inversion F; assumption). rewrite E.
  rewrite (proj2 (forallb_cols (a :: xs) c) F). reflexivity.
Qed.

Lemma vstack_bad {A} (xs : list (mat A)) : ~ stackable xs -> vstack xs = Err ValueError.
Proof.
  intros N. destruct xs as [|a xs]; [reflexivity|]. unfold vstack.
  destruct (forallb _ _) eqn:E; [|reflexivity]. exfalso. apply N. split; [discriminate|].
  exists (mcols a). apply forallb_cols, E.
Qed.

Definition spans (s : nat) (ns : list nat) : list (nat * nat) :=
  combine (s :: removelast (cumsum_from s ns)) (cumsum_from s ns).
Lemma spans_cons s n ns : spans s (n :: ns) = (s, (s + n)%nat) :: spans (s + n) ns.
Proof.
  unfold spans. cbn [cumsum_from]. set (L := cumsum_from (s + n) ns).
  destruct L as [|a L]; reflexivity.
Qed.

Lemma spans_parts {A} (parts : list (list A)) : forall pre,
  map (fun ij => slice (pre ++ List.concat parts) (Z.of_nat (fst ij)) (Z.of_nat (snd ij)))
      (spans (List.length pre) (map (@List.length A) parts)) = parts.
Proof.
  induction parts as [|p parts IH]; intros pre; [reflexivity|].
  cbn [map]. rewrite spans_cons. cbn [map fst snd List.concat]. f_equal.
  - rewrite slice_nonneg. rewrite skipn_app, skipn_all, Nat.sub_diag. cbn [skipn app].
    replace (List.length pre + List.length p - List.length pre)%nat with (List.length p + 0)%nat by lia.
    rewrite firstn_app_2. cbn. apply app_nil_r.
  - rewrite app_assoc, <- app_length. apply IH.
Qed.

Lemma uncompact_parts {A} c (parts : list (list (list A))) :
  un_compact_examples (Mat c (List.concat parts)) (cumsum (map (@List.length (list A)) parts)) = map (Mat c) parts.
Proof.
  unfold un_compact_examples, cumsum. cbn [mcols mrows].
  pose proof (spans_parts parts []) as E. unfold spans in E. cbn [List.length app] in E.
  rewrite <- E at 3. rewrite map_map. reflexivity.
Qed.

Lemma mat_eta {A} c (m : mat A) : mcols m = c -> Mat c (mrows m) = m.
Proof. destruct m. cbn. intros ->. reflexivity. Qed.

Lemma compact_ok {A} (xs : list (mat A)) : stackable xs -> exists v idx,
  compact_examples xs = Ok (v, idx) /\ un_compact_examples v idx = xs /\
  mrows v = List.concat (map mrows xs) /\ Forall (fun m => mcols m = mcols v) xs /\
  idx = cumsum (map (fun y => List.length (mrows y)) xs).
Proof.
  intros (N & c & F). unfold compact_examples. rewrite (vstack_ok xs c N F). cbn [bind].
  eexists _, _. split; [reflexivity|]. cbn [mcols mrows]. rewrite flat_map_concat_map. split; [|split; [reflexivity|split; [exact F|reflexivity]]].
  rewrite <- (map_map mrows (@List.length (list A))). rewrite uncompact_parts, map_map.
  rewrite <- (map_id xs) at 2. apply map_ext_in. intros m I.
  apply mat_eta. rewrite Forall_forall in F. apply F, I.
Qed.

Lemma compact_bad {A} (xs : list (mat A)) : ~ stackable xs -> compact_examples xs = Err ValueError.
Proof. intros H. unfold compact_examples. rewrite vstack_bad by exact H. reflexivity. Qed.

(** ** Angle arrays *)
Lemma mapM_all {A B} (f : A -> result B) (P : A -> Prop) (Q : A -> B -> Prop) l :
  Forall P l -> (forall a, P a -> exists b, f a = Ok b /\ Q a b) -> exists ys, mapM f l = Ok ys /\ Forall2 Q l ys.
Proof.
  intros F H. induction F as [|a l Pa F IH]; [exists []; split; [reflexivity|constructor]|].
  destruct (H a Pa) as (b & E & QB). destruct IH as (ys & EY & FY).
  exists (b :: ys). cbn [mapM]. rewrite E. cbn [bind]. rewrite EY. cbn [bind]. split; [reflexivity|constructor; assumption].
Qed.

Lemma index_found_from (l : list string) x : forall k, In x l ->
  exists i, index_from String.eqb x l k 0 = Ok (k + i)%nat /\ (i < List.length l)%nat.
Proof.
  induction l as [|y l IH]; intros k I; [destruct I|]. cbn [index_from Nat.leb andb].
  destruct (String.eqb y x) eqn:E.
  - exists 0%nat. rewrite Nat.add_0_r. split; [reflexivity|cbn; lia].
  - destruct I as [->|I]; [rewrite String.eqb_refl in E; discriminate|].
    destruct (IH (S k) I) as (i & EI & L). exists (S i). rewrite EI. split; [f_equal; lia|cbn; lia].
Qed.
Lemma index_found (l : list string) x : In x l -> exists i, list_index String.eqb l x 0 = Ok i /\ (i < List.length l)%nat.
Proof. intros I. destruct (index_found_from l x 0 I) as (i & E & L). exists i. split; [exact E|exact L]. Qed.

Definition idx_ok (n : nat) (idx : list (Z * Z)) : Prop :=
  List.length idx = 10%nat /\
  Forall (fun sd => (0 <= fst sd < Z.of_nat n)%Z /\ (0 <= snd sd < Z.of_nat n)%Z) idx.

Lemma indices_ok names : (forall j, In j joints -> In j names) -> exists idx, angles_indices names = Ok idx /\ idx_ok (List.length names) idx.
Proof.
  intros H. unfold angles_indices.
  destruct (mapM_all (fun sd => s <- list_index String.eqb names (fst sd) 0 ;;
      d <- list_index String.eqb names (snd sd) 0 ;; Ok (Z.of_nat s, Z.of_nat d))
    (fun sd => In (fst sd) names /\ In (snd sd) names)
    (fun _ sd => (0 <= fst sd < Z.of_nat (List.length names))%Z /\ (0 <= snd sd < Z.of_nat (List.length names))%Z) ANGLES)
    as (idx & E & F).
  - unfold ANGLES. repeat constructor; cbn [fst snd]; apply H; unfold joints; cbn; tauto.
  - intros (s & d) (S & D). cbn [fst snd] in *. destruct (index_found names s S) as (i & -> & LI).
    destruct (index_found names d D) as (j & -> & LJ). cbn [bind].
    eexists. split; [reflexivity|]. cbn [fst snd]. lia.
  - exists idx. split; [exact E|]. split; [apply mapM_length in E; rewrite E; reflexivity|].
    clear -F. induction F; constructor; auto.
Qed.

Lemma indices_length names idx : angles_indices names = Ok idx -> List.length idx = 10%nat.
Proof. intros H. apply mapM_length in H. rewrite H. reflexivity. Qed.

Lemma angle_array_ok n sample idx : List.length sample = n -> Forall (fun row => List.length row = 7%nat) sample ->
  idx_ok n idx -> exists row, get_angle_array sample idx = Ok row.
Proof.
  intros L F (LI & FI). unfold get_angle_array.
  destruct (mapM_all (fun sd => get_angles sample (fst sd) (snd sd))
    (fun sd => (0 <= fst sd < Z.of_nat n)%Z /\ (0 <= snd sd < Z.of_nat n)%Z) (fun _ _ => True) idx FI) as (ys & E & _).
  - intros (s & d) (S & D). cbn [fst snd] in *. unfold get_angles.
    assert (G : forall i, (0 <= i < Z.of_nat n)%Z -> exists row q, py_nth sample i = Ok row /\ rotation_part row = Ok q).
    { intros i I. unfold py_nth. rewrite L, norm_index_in by lia. cbn [bind].
      destruct (nth_error sample (Z.to_nat i)) as [row|] eqn:ER; [|apply nth_error_None in ER; lia].
      exists row. pose proof (nth_error_In _ _ ER) as IR. rewrite Forall_forall in F. specialize (F row IR).
      destruct row as [|a [|b [|c [|x [|y [|z [|w [|t row]]]]]]]]; try discriminate F.
      exists (Quat x y z w). split; reflexivity. }
    destruct (G s S) as (r1 & q1 & E1 & E1'). destruct (G d D) as (r2 & q2 & E2 & E2').
    rewrite E1. cbn [bind]. rewrite E1'. cbn [bind]. rewrite E2. cbn [bind]. rewrite E2'. cbn [bind].
    change (axes_of "sxyz") with (Ok (Axes 0 false false false)). cbn [bind]. eexists. split; [reflexivity|exact I].
  - rewrite E. cbn [bind]. apply mapM_length in E. rewrite LI in E. destruct ys as [|y ys]; [discriminate|].
    eexists. reflexivity.
Qed.

Lemma angle_array_length sample idx row : get_angle_array sample idx = Ok row -> List.length row = (3 * List.length idx)%nat.
Proof.
  unfold get_angle_array. intros H. apply bind_ok in H. destruct H as (ys & E & H). apply mapM_length in E.
  rewrite <- E. assert (row = flat_map (fun a => [fst (fst a); snd (fst a); snd a]) ys) as -> by (destruct ys; congruence).
  clear. rename ys into l. induction l as [|a l IH]; [reflexivity|]. cbn [flat_map app List.length]. rewrite IH. lia.
Qed.

(** An array of angles: some rows of 30 numbers. *)
Definition angle_array (a : list (list R)) : Prop := a <> [] /\ Forall (fun r => List.length r = 30%nat) a.

Lemma record_array idx record a : List.length idx = 10%nat -> record_to_angle_array record idx = Ok a -> angle_array a.
Proof.
  intros LI H. unfold record_to_angle_array in H. apply bind_ok in H. destruct H as (rows & E & H).
  destruct rows as [|r rows]; [discriminate|]. injection H as <-. split; [discriminate|].
  apply mapM_ok in E. remember (r :: rows) as l. clear Heql. clear r rows.
  induction E as [|s r ss rs E F IH]; constructor; [|exact IH].
  rewrite (angle_array_length _ _ _ E), LI. reflexivity.
Qed.

Lemma angle_arrays names records angles : db_to_list_of_angle_arrays names records = Ok angles ->
  Forall angle_array angles /\ List.length angles = List.length records.
Proof.
  intros H. unfold db_to_list_of_angle_arrays in H. apply bind_ok in H. destruct H as (idx & EI & H).
  pose proof (indices_length _ _ EI) as LI. split; [|apply mapM_length in H; exact H].
  apply mapM_ok in H. induction H as [|r a rs as_ E F IH]; constructor; [|exact IH].
  exact (record_array idx r a LI E).
Qed.

Lemma good_arrays names records : good_db names records -> exists angles, db_to_list_of_angle_arrays names records = Ok angles.
Proof.
  intros (J & _ & F). destruct (indices_ok names J) as (idx & EI & OI). unfold db_to_list_of_angle_arrays.
  rewrite EI. cbn [bind].
  destruct (mapM_all (fun r => record_to_angle_array r idx) (good_record (List.length names)) (fun _ _ => True) records F) as (ys & E & _).
  - intros rec (N & FS). unfold record_to_angle_array.
    destruct (mapM_all (fun sample => get_angle_array sample idx) _ (fun _ _ => True) rec FS) as (rows & E & _).
    + intros sample (L & FR). destruct (angle_array_ok _ _ _ L FR OI) as (row & ER). exists row. tauto.
    + rewrite E. cbn [bind]. apply mapM_length in E. destruct rows as [|r rows]; [destruct rec; [congruence|discriminate]|].
      eexists. split; [reflexivity|exact I].
  - exists ys. exact E.
Qed.

Lemma row_sub_length a b : List.length a = List.length b -> List.length (row_sub a b) = List.length a.
Proof. intros E. unfold row_sub. rewrite map_length, combine_length. lia. Qed.

Lemma vel_array a : angle_array a ->
  exists v, delayed_velocities row_sub (repeat 0 (List.length (hd [] a))) 1 a Zeros = Ok v /\
    angle_array v /\ List.length v = List.length a.
Proof.
  intros (N & F). destruct (delayed_zeros row_sub (repeat 0 (List.length (hd [] a))) a 1 ltac:(lia) N) as (v & E & L & H).
  exists v. split; [exact E|]. split; [|exact L]. split; [destruct v, a; cbn in *; congruence|].
  assert (Z : List.length (repeat 0 (List.length (hd [] a))) = 30%nat).
  { rewrite repeat_length. destruct a as [|r a]; [congruence|]. inversion F; assumption. }
  rewrite Forall_forall in *. intros r I. apply In_nth_error in I. destruct I as (i & EI).
  assert (LI : (i < List.length a)%nat) by (rewrite <- L; apply nth_error_Some; congruence).
  destruct (nth_error a i) as [x|] eqn:EX; [|apply nth_error_None in EX; lia].
  destruct (H i x EX) as (H1 & H2). set (d := Nat.min _ _) in *.
  assert (LX : List.length x = 30%nat) by (apply F; exact (nth_error_In _ _ EX)).
  destruct (Nat.lt_ge_cases i d) as [LT|GE].
  - rewrite (H1 LT) in EI. injection EI as <-. rewrite row_sub_length; congruence.
  - destruct (nth_error a (i - d)) as [y|] eqn:EY; [|apply nth_error_None in EY; lia].
    rewrite (H2 y GE eq_refl) in EI. injection EI as <-.
    assert (LY : List.length y = 30%nat) by (apply F; exact (nth_error_In _ _ EY)).
    rewrite row_sub_length; congruence.
Qed.

(** Their values. *)
Lemma row_sub_nth a b k : List.length a = List.length b -> nth k (row_sub a b) 0 = nth k a 0 - nth k b 0.
Proof.
  revert b k. induction a as [|x a IH]; intros [|y b] k E; cbn in E; try discriminate; [destruct k; cbn; lra|].
  destruct k; cbn; [reflexivity|]. apply IH. congruence.
Qed.
Lemma nth_repeat0 k n : nth k (repeat 0 n) 0 = 0.
Proof. revert k. induction n; intros [|k]; cbn; auto. Qed.
Lemma vel_values a d : (1 <= d)%Z -> angle_array a ->
  exists v, delayed_velocities row_sub (repeat 0 (List.length (hd [] a))) d a Zeros = Ok v /\
    List.length v = List.length a /\ forall t k, (t < List.length a)%nat ->
      nth k (nth t v []) 0 = nth k (nth t a []) 0 - before (Z.to_nat d) t k a.
Proof.
  intros D (N & F). destruct (delayed_zeros row_sub (repeat 0 (List.length (hd [] a))) a d D N) as (v & E & L & H).
  exists v. split; [exact E|]. split; [exact L|]. intros t k T.
  assert (Z : List.length (repeat 0 (List.length (hd [] a))) = 30%nat).
  { rewrite repeat_length. destruct a as [|r a]; [congruence|]. inversion F; assumption. }
  rewrite Forall_forall in F.
  destruct (nth_error a t) as [x|] eqn:EX; [|apply nth_error_None in EX; lia].
  pose proof (F x (nth_error_In _ _ EX)) as LX. destruct (H t x EX) as (H1 & H2). unfold before.
  rewrite (nth_error_nth a t [] EX). destruct (Nat.ltb_spec t (Z.to_nat d)) as [LT|GE].
  - assert (EV : nth_error v t = Some (row_sub x (repeat 0 (List.length (hd [] a))))) by (apply H1; lia).
    rewrite (nth_error_nth v t [] EV), row_sub_nth by congruence. rewrite nth_repeat0. reflexivity.
  - destruct (nth_error a (t - Z.to_nat d)) as [y|] eqn:EY; [|apply nth_error_None in EY; lia].
    assert (M : Nat.min (Z.to_nat d) (List.length a) = Z.to_nat d) by lia. rewrite M in H2.
    pose proof (F y (nth_error_In _ _ EY)) as LY.
    rewrite (nth_error_nth v t [] (H2 y GE EY)), row_sub_nth by congruence.
    rewrite (nth_error_nth a _ [] EY). reflexivity.
Qed.
Lemma velocities_values names records d : (1 <= d)%Z -> good_db names records ->
  exists angles vels, db_to_list_of_angle_arrays names records = Ok angles /\
    db_to_angles_and_vels names records d Zeros = Ok (angles, vels) /\ List.length vels = List.length records /\
    forall e t k, (e < List.length records)%nat -> (t < List.length (nth e angles []))%nat ->
      List.length (nth e vels []) = List.length (nth e angles []) /\
      nth k (nth t (nth e vels []) []) 0 =
        nth k (nth t (nth e angles []) []) 0 - before (Z.to_nat d) t k (nth e angles []).
Proof.
  intros D G. destruct (good_arrays _ _ G) as (angles & EA). destruct (angle_arrays _ _ _ EA) as (F & LA).
  set (P := fun a v : list (list R) => List.length v = List.length a /\ forall t k, (t < List.length a)%nat ->
      nth k (nth t v []) 0 = nth k (nth t a []) 0 - before (Z.to_nat d) t k a).
  destruct (mapM_all (fun angle => delayed_velocities row_sub (repeat 0 (List.length (hd [] angle))) d angle Zeros)
    angle_array P angles F) as (vels & EV & FV); [intros a A; exact (vel_values a d D A)|].
  exists angles, vels. split; [exact EA|]. split; [unfold db_to_angles_and_vels; rewrite EA; cbn [bind]; rewrite EV; reflexivity|].
  split; [apply mapM_length in EV; congruence|]. intros e t k LE LT. rewrite <- LA in LE.
  clear - FV LE LT. revert e LE LT. induction FV as [|a v as_ vs (L & Q) FV IH]; intros [|e] LE LT; cbn in *; try lia.
  - split; [exact L|exact (Q t k LT)].
  - apply IH; [lia|exact LT].
Qed.

(** Pairs of arrays of the same height. *)
Definition same_shape (a v : list (list R)) : Prop :=
  angle_array a /\ angle_array v /\ List.length v = List.length a.

Lemma angles_and_vels names records angles : db_to_list_of_angle_arrays names records = Ok angles ->
  exists vels, db_to_angles_and_vels names records 1 Zeros = Ok (angles, vels) /\ Forall2 same_shape angles vels.
Proof.
  intros E. pose proof (angle_arrays _ _ _ E) as (F & _).
  unfold db_to_angles_and_vels. rewrite E. cbn [bind].
  destruct (mapM_all (fun angle => delayed_velocities row_sub (repeat 0 (List.length (hd [] angle))) 1 angle Zeros)
    angle_array same_shape angles F) as (vels & EV & FV).
  - intros a A. destruct (vel_array a A) as (v & EV & AV & LV). exists v. split; [exact EV|]. split; [exact A|split; assumption].
  - exists vels. rewrite EV. split; [reflexivity|exact FV].
Qed.

Lemma cut_array f (a : list (list R)) : angle_array a -> angle_array (map (map f) a).
Proof.
  intros (N & F). split; [destruct a; [congruence|discriminate]|].
  clear N. induction F; cbn; constructor; [rewrite map_length; assumption|].
  assumption.
Qed.

(** ** Data of one degree of freedom *)
Lemma column_ok a dof : Forall (fun r => List.length r = 30%nat) a -> (dof < 30)%nat ->
  exists c, column a dof = Ok c /\ List.length c = List.length a.
Proof.
  intros F D. unfold column.
  destruct (mapM_all (fun r => match nth_error r dof with Some x => Ok x | None => Err IndexError end)
    (fun r => List.length r = 30%nat) (fun _ _ => True) a F) as (c & E & _).
  - intros r L. destruct (nth_error r dof) as [x|] eqn:EX; [exists x; tauto|].
    apply nth_error_None in EX. lia.
  - exists c. split; [exact E|]. apply mapM_length in E. exact E.
Qed.

(** What an example of one degree of freedom is: two columns, as many rows as
    the array of angles. *)
Definition dof_example (a : list (list R)) (m : mat R) : Prop :=
  mcols m = 2%nat /\ rect m /\ List.length (mrows m) = List.length a.

Lemma dof_data_ok angles vels dof : Forall2 same_shape angles vels -> (dof < 30)%nat ->
  exists d, dof_data angles vels dof = Ok d /\ Forall2 dof_example angles d.
Proof.
  intros F D. unfold dof_data. induction F as [|a v angles vels S F IH].
  - exists []. split; [reflexivity|constructor].
  - destruct IH as (d & E & FD). destruct S as ((Na & Fa) & (Nv & Fv) & L).
    destruct (column_ok a dof Fa D) as (ca & Ea & La). destruct (column_ok v dof Fv D) as (cv & Ev & Lv).
    cbn [combine mapM]. rewrite E. cbn [fst snd]. rewrite Ea. cbn [bind]. rewrite Ev. cbn [bind].
    unfold two_columns. rewrite La, Lv, L, Nat.eqb_refl. cbn [bind]. eexists. split; [reflexivity|]. constructor; [|exact FD].
    split; [reflexivity|]. cbn [mcols mrows]. split.
    + unfold rect. cbn [mcols mrows]. apply Forall_forall. intros r I. apply in_map_iff in I.
      destruct I as (p & <- & _). reflexivity.
    + rewrite map_length, combine_length. lia.
Qed.

Lemma all_data_ok angles vels dofs : Forall2 same_shape angles vels -> Forall (fun k => (k < 30)%nat) dofs ->
  exists data, all_data angles (AsList vels) dofs = Ok data /\ List.length data = List.length dofs /\
    Forall (Forall2 dof_example angles) data.
Proof.
  intros F D. induction D as [|k dofs K D IH]; [exists []; repeat split; constructor|].
  destruct IH as (data & E & L & FD). destruct (dof_data_ok angles vels k F K) as (d & Ed & Fd).
  cbn [all_data elements after]. rewrite Ed. cbn [bind]. rewrite E. cbn [bind].
  exists (d :: data). repeat split; [cbn; lia|]. constructor; assumption.
Qed.

(** ** Sums *)
Lemma map_nth_seq (r : list R) : map (fun j => nth j r 0) (seq 0 (List.length r)) = r.
Proof.
  apply (nth_ext _ _ 0 0); [rewrite map_length, seq_length; reflexivity|].
  intros n N. rewrite map_length, seq_length in N. rewrite (nth_indep _ 0 ((fun j => nth j r 0) 0%nat)) by (rewrite map_length, seq_length; exact N).
  rewrite (map_nth (fun j => nth j r 0)). rewrite seq_nth by exact N. reflexivity.
Qed.
Lemma sum_map_plus {A} (f g : A -> R) l : quant_model.sum (map (fun x => f x + g x) l) = quant_model.sum (map f l) + quant_model.sum (map g l).
Proof. change quant_model.sum with add_up. induction l as [|a l IH]; cbn [map add_up]; [ring|]. rewrite IH. ring. Qed.
Lemma sum_zero {A} (l : list A) : quant_model.sum (map (fun _ => 0) l) = 0.
Proof. rewrite add_up_sum. induction l as [|a l IH]; cbn [map add_up]; [ring|]. rewrite IH. ring. Qed.
Lemma sum_app l l' : quant_model.sum (l ++ l') = quant_model.sum l + quant_model.sum l'.
Proof. change quant_model.sum with add_up. induction l as [|a l IH]; cbn [app add_up]; [ring|]. rewrite IH. ring. Qed.
Lemma sum_cons x l : quant_model.sum (x :: l) = x + quant_model.sum l.
Proof. reflexivity. Qed.

Lemma sum_rows_total k rows : Forall (fun r => List.length r = k) rows ->
  quant_model.sum (sum_rows (Mat k rows)) = quant_model.sum (map quant_model.sum rows).
Proof.
  intros F. unfold sum_rows. cbn [mcols mrows]. induction F as [|r rows L F IH].
  - cbn [map]. change (quant_model.sum []) with 0. apply sum_zero.
  - cbn [map]. rewrite sum_cons. rewrite <- IH.
    transitivity (quant_model.sum (map (fun j => nth j r 0) (seq 0 k)) + quant_model.sum (map (fun j => quant_model.sum (map (fun r => nth j r 0) rows)) (seq 0 k)));
      [|rewrite <- L at 1; rewrite map_nth_seq; reflexivity]. rewrite <- sum_map_plus. reflexivity.
Qed.

(** ** Grouping *)
(** Cut a list in parts of given sizes. *)
Lemma parts_exist {A} (ns : list nat) : forall (l : list A), List.length l = list_sum ns ->
  exists parts, List.concat parts = l /\ map (@List.length A) parts = ns.
Proof.
  induction ns as [|n ns IH]; intros l L.
  - exists []. destruct l; [split; reflexivity|discriminate].
  - cbn [list_sum fold_right] in L. change (fold_right Nat.add 0%nat ns) with (list_sum ns) in L.
    destruct (IH (skipn n l)) as (parts & E & M); [rewrite skipn_length; lia|].
    exists (firstn n l :: parts). cbn [List.concat map]. rewrite E, M, firstn_skipn, firstn_length. split; [reflexivity|f_equal; lia].
Qed.

(** The histograms of one degree of freedom: [k] columns, rows that add up to 1. *)
Definition histos_of (k n : nat) (h : mat R) : Prop :=
  mcols h = k /\ List.length (mrows h) = n /\
  Forall (fun r => List.length r = k /\ quant_model.sum r = 1 /\ Forall (fun x => 0 <= x) r) (mrows h).

Lemma Forall_concat {A} (P : A -> Prop) parts : Forall P (List.concat parts) -> Forall (Forall P) parts.
Proof.
  induction parts as [|p parts IH]; cbn; intros F; constructor; apply Forall_app in F; [tauto|apply IH; tauto].
Qed.

Lemma uncompact_histos k ns h : histos_of k (list_sum ns) h ->
  exists parts, un_compact_examples h (cumsum ns) = map (Mat k) parts /\ List.concat parts = mrows h /\
    map (@List.length (list R)) parts = ns /\
    Forall (Forall (fun r => List.length r = k /\ quant_model.sum r = 1 /\ Forall (fun x => 0 <= x) r)) parts.
Proof.
  intros (C & L & F). destruct (parts_exist ns (mrows h) L) as (parts & E & M). exists parts.
  assert (Eh : h = Mat k (List.concat parts)) by (rewrite E; symmetry; apply mat_eta, C).
  split; [rewrite Eh at 1; rewrite <- M; apply uncompact_parts|]. split; [exact E|]. split; [exact M|].
  apply Forall_concat. rewrite E. exact F.
Qed.

Lemma sum_nonneg l : Forall (fun x => 0 <= x) l -> 0 <= quant_model.sum l.
Proof. intros F. induction F as [|x l X F IH]; [rewrite add_up_sum; apply Rle_refl|rewrite sum_cons; lra]. Qed.

Lemma sum_ones l : Forall (fun x => x = 1) l -> quant_model.sum l = INR (List.length l).
Proof.
  intros F. induction F as [|x l X F IH]; [rewrite add_up_sum; reflexivity|]. cbn [List.length]. rewrite S_INR, sum_cons, IH, X. ring.
Qed.

Lemma part_sums k p : Forall (fun r => List.length r = k /\ quant_model.sum r = 1 /\ Forall (fun x => 0 <= x) r) p ->
  List.length (sum_rows (Mat k p)) = k /\ quant_model.sum (sum_rows (Mat k p)) = INR (List.length p) /\
  Forall (fun x => 0 <= x) (sum_rows (Mat k p)).
Proof.
  intros F. split; [unfold sum_rows; rewrite map_length, seq_length; reflexivity|]. split.
  - rewrite sum_rows_total; [|refine (Forall_impl _ _ F); cbn; tauto].
    rewrite sum_ones; [rewrite map_length; reflexivity|].
    apply Forall_forall. intros x I. apply in_map_iff in I. destruct I as (r & <- & I).
    rewrite Forall_forall in F. apply F, I.
  - unfold sum_rows. apply Forall_forall. intros x I. apply in_map_iff in I. destruct I as (j & <- & _).
    apply sum_nonneg. apply Forall_forall. intros y I. apply in_map_iff in I. destruct I as (r & <- & I).
    cbn [mrows] in I. rewrite Forall_forall in F. destruct (F r I) as (L & _ & NN).
    destruct (Nat.lt_ge_cases j (List.length r)) as [LT|GE].
    + rewrite Forall_forall in NN. apply NN, nth_In, LT.
    + rewrite nth_overflow by exact GE. lra.
Qed.

Lemma row_total (e : nat) (ns : list nat) (k : nat) (hs : list (list (list R))) n :
  Forall (fun h => List.length (nth e h []) = k /\ quant_model.sum (nth e h []) = INR n /\ Forall (fun x => 0 <= x) (nth e h [])) hs ->
  let row := flat_map (fun h => nth e h []) hs in
  List.length row = (k * List.length hs)%nat /\ quant_model.sum row = INR (List.length hs) * INR n /\ Forall (fun x => 0 <= x) row.
Proof.
  intros F. induction F as [|h hs (L & S & N) F IH]; cbn [flat_map List.length].
  - repeat split; [lia|rewrite add_up_sum; cbn; ring|constructor].
  - destruct IH as (IL & IS & IN). cbn zeta in *. rewrite app_length, L, IL, sum_app, S, IS. repeat split.
    + lia.
    + change (match List.length hs with 0%nat => 1 | S _ => INR (List.length hs) + 1 end) with (INR (S (List.length hs))).
      rewrite S_INR. ring.
    + apply Forall_app. split; assumption.
Qed.

Lemma combine_both {A B} (l : list A) (l' : list B) : List.length l = List.length l' ->
  map fst (combine l l') = l /\ map snd (combine l l') = l'.
Proof.
  revert l'. induction l as [|a l IH]; intros [|b l'] L; try discriminate; [split; reflexivity|].
  cbn. destruct (IH l') as (E1 & E2); [cbn in L; lia|]. rewrite E1, E2. split; reflexivity.
Qed.

Lemma group_ok nb_dofs nb_bins ns histos compacted : (0 < nb_dofs)%nat ->
  List.length histos = nb_dofs -> List.length compacted = nb_dofs -> Forall (fun n => (0 < n)%nat) ns ->
  Forall (histos_of nb_bins (list_sum ns)) histos -> Forall (fun c => snd c = cumsum ns) compacted ->
  exists X, group nb_dofs (List.length ns) nb_bins histos compacted = Ok X /\ List.length X = List.length ns /\
    Forall (histogram (nb_bins * nb_dofs)) X.
Proof.
  intros D LH LC NS FH FC. unfold group.
  assert (G : exists ex, map (map sum_rows) (map (fun hc => un_compact_examples (fst hc) (snd (snd hc))) (combine histos compacted)) = ex /\
    List.length ex = nb_dofs /\
    Forall (fun h => Forall2 (fun s n => List.length s = nb_bins /\ quant_model.sum s = INR n /\ Forall (fun x => 0 <= x) s) h ns) ex).
  { eexists. split; [reflexivity|]. split; [rewrite !map_length, combine_length; lia|].
    clear LH LC D. revert compacted FC. induction FH as [|h histos Hh FH IH]; intros compacted FC; [constructor|].
    destruct FC as [|c compacted Hc FC]; [constructor|]. cbn [combine map fst snd]. constructor; [|apply IH, FC].
    rewrite Hc. destruct (uncompact_histos _ _ _ Hh) as (parts & E & _ & M & F). rewrite E, map_map.
    clear E. revert M. clear -F. generalize ns. induction F as [|p parts P F IH]; intros ns' M; destruct ns' as [|n ns']; try discriminate; [constructor|].
    cbn [map] in *. injection M as M1 M2. constructor; [|apply IH, M2].
    destruct (part_sums _ _ P) as (L & S & N). rewrite M1 in S. tauto. }
  destruct G as (ex & -> & LE & FE).
  replace (_ && _)%bool with true.
  - eexists. split; [reflexivity|]. split; [rewrite !map_length, seq_length; reflexivity|].
    apply Forall_forall. intros row I. rewrite map_map in I. apply in_map_iff in I. destruct I as (e & <- & I).
    apply in_seq in I.
    assert (RT := row_total e ns nb_bins ex (nth e ns 0%nat)).
    destruct RT as (L & S & N).
    { refine (Forall_impl _ _ FE). intros h F2. assert (LL : List.length h = List.length ns) by (clear -F2; induction F2; cbn; congruence).
      clear -F2 I. revert e I. induction F2 as [|s n h ns H F2 IH]; intros e I; [cbn in I; lia|].
      destruct e as [|e]; [exact H|]. cbn [nth]. apply IH. cbn in I. lia. }
    cbn zeta in *. set (r := flat_map _ ex) in *. clearbody r.
    assert (POS : 0 < quant_model.sum r).
    { rewrite S, LE. apply Rmult_lt_0_compat; apply lt_0_INR; [exact D|]. rewrite Forall_forall in NS. apply NS, nth_In. lia. }
    split; [rewrite map_length, L, LE; reflexivity|]. split.
    + apply Forall_forall. intros x IX. apply in_map_iff in IX. destruct IX as (y & <- & IY).
      rewrite Forall_forall in N. apply Rmult_le_pos; [apply N, IY|]. apply Rlt_le, Rinv_0_lt_compat, POS.
    + rewrite <- add_up_sum, sum_div. field. lra.
  - symmetry. rewrite LE, Nat.eqb_refl. replace (nb_dofs =? 0)%nat with false by (symmetry; apply Nat.eqb_neq; lia).
    cbn [andb negb]. apply forallb_forall. intros h I. rewrite Forall_forall in FE. specialize (FE h I).
    apply andb_true_intro. split.
    + apply Nat.eqb_eq. clear -FE. induction FE; cbn; congruence.
    + apply forallb_forall. intros s IS. apply Nat.eqb_eq. clear -FE IS.
      induction FE as [|s' n h ns H F IH]; [destruct IS|]. destruct IS as [->|IS]; [tauto|]. apply IH, IS.
Qed.
