(** * Proofs about charts. *)

From Coq Require Import List ZArith Reals Bool Arith String Permutation Lia Lra Sorted.
Import ListNotations.
From Verif Require Import Py chart_model chart_spec.
Local Open Scope string_scope.

Lemma mem_spec s l : mem s l = true <-> In s l.
Proof.
  unfold mem. rewrite existsb_exists. split.
  - intros (t & Ht & E). apply String.eqb_eq in E. now subst.
  - intros H. exists s. split; [exact H|apply String.eqb_refl].
Qed.
Lemma mem_false s l : mem s l = false <-> ~ In s l.
Proof. rewrite <- mem_spec. destruct (mem s l); split; intros; congruence. Qed.
Lemma side_known s : is_side s <-> In s all_spines.
Proof. unfold is_side, all_spines. cbn. split; intros H; decompose [or] H; subst; auto; contradiction. Qed.

Lemma axis_eqb_spec a b : axis_eqb a b = true <-> a = b.
Proof. destruct a, b; cbn; split; congruence. Qed.

(** ** Colours *)

Lemma at_least_pos v : at_least v (Some 0%R) = true <-> exists r, v = Some r /\ (0 <= r)%R.
Proof.
  destruct v as [r|]; cbn; [|split; [discriminate|intros (r & E & _); discriminate]].
  destruct (Rle_dec 0 r); split; intros H; try discriminate; try reflexivity; [now exists r|].
  destruct H as (q & E & Hq). injection E as <-. contradiction.
Qed.
Lemma at_least_neg v : at_least (Some 0%R) v = true <-> exists r, v = Some r /\ (r <= 0)%R.
Proof.
  destruct v as [r|]; cbn; [|split; [discriminate|intros (r & E & _); discriminate]].
  destruct (Rle_dec r 0); split; intros H; try discriminate; try reflexivity; [now exists r|].
  destruct H as (q & E & Hq). injection E as <-. contradiction.
Qed.

Lemma cmap_cases x : (cmap_from_data x = Reds <-> forall v, In v x -> exists r, v = Some r /\ (0 <= r)%R) /\
  (cmap_from_data x = Blues <-> (forall v, In v x -> exists r, v = Some r /\ (r <= 0)%R) /\ exists r, In (Some r) x /\ (r < 0)%R) /\
  (cmap_from_data x = Blues_r <-> In None x \/ exists r s, In (Some r) x /\ In (Some s) x /\ (r < 0 < s)%R).
Proof.
  assert (P : forallb (fun v => at_least v (Some 0%R)) x = true <-> forall v, In v x -> exists r, v = Some r /\ (0 <= r)%R).
  { rewrite forallb_forall. split; intros H v Hv; apply at_least_pos, H, Hv. }
  assert (N : forallb (fun v => at_least (Some 0%R) v) x = true <-> forall v, In v x -> exists r, v = Some r /\ (r <= 0)%R).
  { rewrite forallb_forall. split; intros H v Hv; apply at_least_neg, H, Hv. }
  assert (P' : forallb (fun v => at_least v (Some 0%R)) x = false -> In None x \/ exists r, In (Some r) x /\ (r < 0)%R).
  { clear. induction x as [|v x IH]; cbn [forallb]; [discriminate|]. rewrite andb_false_iff. intros [H|H].
    - destruct v as [r|]; [|left; now left]. right. exists r. split; [now left|]. cbn in H. destruct (Rle_dec 0 r); [discriminate|lra].
    - destruct (IH H) as [G|(r & G & L)]; [left; now right|right; exists r; split; [now right|exact L]]. }
  assert (N' : forallb (fun v => at_least (Some 0%R) v) x = false -> In None x \/ exists r, In (Some r) x /\ (0 < r)%R).
  { clear. induction x as [|v x IH]; cbn [forallb]; [discriminate|]. rewrite andb_false_iff. intros [H|H].
    - destruct v as [r|]; [|left; now left]. right. exists r. split; [now left|]. cbn in H. destruct (Rle_dec r 0); [discriminate|lra].
    - destruct (IH H) as [G|(r & G & L)]; [left; now right|right; exists r; split; [now right|exact L]]. }
  unfold cmap_from_data. destruct (forallb (fun v => at_least v (Some 0%R)) x) eqn:E.
  - assert (P0 := proj1 P eq_refl). split; [|split].
    + split; [intros _; exact P0|reflexivity].
    + split; [discriminate|]. intros (_ & r & H & L). destruct (P0 _ H) as (q & Q & Hq). injection Q as <-. lra.
    + split; [discriminate|]. intros [H|(r & s & H & _ & L)]; [destruct (P0 _ H) as (q & Q & _); discriminate|].
      destruct (P0 _ H) as (q & Q & Hq). injection Q as <-. lra.
  - assert (NP : ~ forall v, In v x -> exists r, v = Some r /\ (0 <= r)%R) by (intros C; apply P in C; discriminate).
    destruct (forallb (fun v => at_least (Some 0%R) v) x) eqn:F.
    + assert (N0 := proj1 N eq_refl). split; [|split].
      * split; [discriminate|]. intros C. contradiction.
      * split; [intros _; split; [exact N0|]|reflexivity]. destruct (P' eq_refl) as [H|H]; [destruct (N0 _ H) as (q & Q & _); discriminate|exact H].
      * split; [discriminate|]. intros [H|(r & s & _ & H & L)]; [destruct (N0 _ H) as (q & Q & _); discriminate|].
        destruct (N0 _ H) as (q & Q & Hq). injection Q as <-. lra.
    + split; [|split].
      * split; [discriminate|]. intros C. contradiction.
      * split; [discriminate|]. intros (C & _). apply N in C. discriminate.
      * split; [intros _|reflexivity]. destruct (P' eq_refl) as [H|(r & H & L)]; [now left|]. destruct (N' eq_refl) as [H'|(s & H' & L')]; [now left|].
        right. exists r, s. split; [exact H|]. split; [exact H'|lra].
Qed.

Lemma colors_ok {C} (n : Z) (f : R -> C) : exists places, get_n_colors n f = map f places /\ length places = Z.to_nat n /\
  StronglySorted Rlt places /\ (forall p, In p places -> (0 <= p < 1)%R) /\ (forall k, (k < Z.to_nat n)%nat -> nth k places 0%R = (INR k / IZR n)%R).
Proof.
  exists (map (fun i => (INR i / IZR n)%R) (seq 0 (Z.to_nat n))). unfold get_n_colors. split; [|split; [|split; [|split]]].
  - rewrite map_map. apply map_ext. intros i. f_equal. f_equal. apply Rmult_1_l.
  - now rewrite map_length, seq_length.
  - destruct (Z.le_gt_cases n 0) as [L|L]; [replace (Z.to_nat n) with 0%nat by lia; constructor|].
    assert (Hn : (0 < IZR n)%R) by now apply IZR_lt.
    generalize 0%nat. induction (Z.to_nat n) as [|k IH]; intros s; cbn [seq map]; [constructor|]. constructor; [apply IH|].
    apply Forall_forall. intros p Hp. apply in_map_iff in Hp. destruct Hp as (i & <- & Hi). apply in_seq in Hi.
    apply Rmult_lt_compat_r; [now apply Rinv_0_lt_compat|]. apply lt_INR. lia.
  - intros p Hp. apply in_map_iff in Hp. destruct Hp as (i & <- & Hi). apply in_seq in Hi.
    assert (Hn : (0 < IZR n)%R) by (apply IZR_lt; lia).
    assert (Hi' : (INR i < IZR n)%R) by (rewrite INR_IZR_INZ; apply IZR_lt; lia).
    split; [apply Rmult_le_pos; [apply pos_INR|left; now apply Rinv_0_lt_compat]|].
    apply (Rmult_lt_reg_r (IZR n)); [exact Hn|]. unfold Rdiv. rewrite Rmult_assoc, Rinv_l, Rmult_1_r, Rmult_1_l; lra.
  - intros k Hk. rewrite (nth_indep _ 0%R ((fun i => (INR i / IZR n)%R) 0%nat)) by (rewrite map_length, seq_length; exact Hk).
    rewrite (map_nth (fun i => (INR i / IZR n)%R)), seq_nth by exact Hk. reflexivity.
Qed.

(** ** Spines *)

Lemma hide_all_ok spines : forall a, (forall s, In s spines -> is_side s) ->
  exists b, hide_all spines a = (b, Ok tt) /\ (forall s, visible b s = true <-> visible a s = true /\ ~ In s spines) /\
    thin b = thin a /\ tick_side b = tick_side a /\ grid_on b = grid_on a /\ rest_kept a b.
Proof.
  induction spines as [|t spines IH]; intros a H; cbn [hide_all].
  - exists a. split; [reflexivity|]. split; [intros s; cbn; tauto|]. repeat split.
  - assert (Ht : is_side t) by (apply H; now left). rewrite (proj2 (mem_spec t all_spines)) by now apply side_known.
    destruct (IH (hide t a)) as (b & E & V & T & S & G & R); [intros s Hs; apply H; now right|].
    exists b. split; [exact E|]. split; [|now rewrite T, S, G].
    intros s. rewrite V. cbn [hide visible In]. destruct (String.eqb_spec s t) as [->|D].
    + split; [intros [C _]; discriminate|]. intros [_ C]. exfalso. apply C. now left.
    + split; [intros [P Q]; split; [exact P|]; intros [C|C]; [congruence|contradiction]|]. intros [P Q]. split; [exact P|]. intros C. apply Q. now right.
Qed.

Lemma hide_all_unknown before t after : forall a, (forall s, In s before -> is_side s) -> ~ is_side t ->
  exists b, hide_all (before ++ t :: after) a = (b, Err KeyError) /\ (forall s, visible b s = true <-> visible a s = true /\ ~ In s before) /\
    thin b = thin a /\ tick_side b = tick_side a /\ grid_on b = grid_on a /\ rest_kept a b.
Proof.
  induction before as [|u before IH]; intros a H N; cbn [hide_all app].
  - destruct (mem t all_spines) eqn:E; [apply mem_spec, side_known in E; contradiction|].
    exists a. split; [reflexivity|]. split; [intros s; cbn; tauto|]. repeat split.
  - assert (Hu : is_side u) by (apply H; now left). rewrite (proj2 (mem_spec u all_spines)) by now apply side_known.
    destruct (IH (hide u a)) as (b & E & V & T & S & G & R); [intros s Hs; apply H; now right|exact N|].
    exists b. split; [exact E|]. split; [|now rewrite T, S, G].
    intros s. rewrite V. cbn [hide visible In]. destruct (String.eqb_spec s u) as [->|D].
    + split; [intros [C _]; discriminate|]. intros [_ C]. exfalso. apply C. now left.
    + split; [intros [P Q]; split; [exact P|]; intros [C|C]; [congruence|contradiction]|]. intros [P Q]. split; [exact P|]. intros C. apply Q. now right.
Qed.

Lemma thin_all spines l : forall a, let b := fold_left (fun a s => if mem s spines then a else make_thin s a) l a in
  (forall s, thin b s = true <-> thin a s = true \/ In s l /\ ~ In s spines) /\ visible b = visible a /\ tick_side b = tick_side a /\ grid_on b = grid_on a /\ rest_kept a b.
Proof.
  induction l as [|t l IH]; intros a b; cbn [fold_left] in b.
  - split; [intros s; cbn; tauto|]. repeat split.
  - destruct (mem t spines) eqn:E.
    + destruct (IH a) as (T & R). fold b in T, R. split; [|exact R]. apply mem_spec in E. intros s. rewrite T. cbn [In].
      split; [intros [H|[H N]]; auto|]. intros [H|[[->|H] N]]; [now left|contradiction|right; auto].
    + apply mem_false in E. destruct (IH (make_thin t a)) as (T & V & S & G & R). fold b in T, V, S, G, R.
      split; [|now rewrite V, S, G]. intros s. rewrite T. cbn [make_thin thin In]. destruct (String.eqb_spec s t) as [->|D].
      * split; [intros _; right; auto|left; reflexivity].
      * split; [intros [H|[H N]]; auto|]. intros [H|[[C|H] N]]; [now left|congruence|right; auto].
Qed.

(** ** Ticks *)

Lemma ticks_last x l : forall a, let b := fold_left (fun a p => set_ticks_position x p a) l a in
  tick_side b x = last l (tick_side a x) /\ (forall y, y <> x -> tick_side b y = tick_side a y) /\
  visible b = visible a /\ thin b = thin a /\ grid_on b = grid_on a /\ rest_kept a b.
Proof.
  induction l as [|p l IH]; intros a b; cbn [fold_left] in b.
  - repeat split; reflexivity.
  - destruct (IH (set_ticks_position x p a)) as (T & O & V & H & G & R). fold b in T, O, V, H, G, R.
    split; [|split; [|now rewrite V, H, G]].
    + rewrite T. cbn [set_ticks_position tick_side]. rewrite (proj2 (axis_eqb_spec x x) eq_refl).
      destruct l as [|q l]; [reflexivity|]. cbn [last]. clear. revert q. induction l as [|r l IH]; intros q; cbn [last]; [reflexivity|apply IH].
    + intros y Hy. rewrite O by exact Hy. cbn [set_ticks_position tick_side]. destruct (axis_eqb y x) eqn:E; [apply axis_eqb_spec in E; contradiction|reflexivity].
Qed.

Lemma last_in {A} (l : list A) d : l <> [] -> In (last l d) l.
Proof.
  induction l as [|a l IH]; intros H; [congruence|]. destruct l as [|b l]; [now left|]. right. now apply IH.
Qed.

Lemma place_ok ord spines x a : some_order ord -> let b := place_ticks ord spines a x in
  ticks_after a b spines x /\ (forall y, y <> x -> tick_side b y = tick_side a y) /\ visible b = visible a /\ thin b = thin a /\ grid_on b = grid_on a /\ rest_kept a b.
Proof.
  intros Ho b. unfold place_ticks in b. destruct (is_log a x) eqn:L.
  - destruct (ticks_last x (ord (filter (fun p => negb (mem p spines)) (sides x))) a) as (T & O & R). fold b in T, O, R.
    split; [|split; [exact O|exact R]]. split; [congruence|]. intros _.
    assert (I : forall s, In s (ord (filter (fun p => negb (mem p spines)) (sides x))) <-> belongs s x /\ ~ In s spines).
    { intros s. rewrite <- mem_false. split.
      - intros H. apply (Permutation_in s (Ho _)) in H. apply filter_In in H. destruct H as [H N]. split.
        + destruct x; cbn in H |- *; destruct H as [<-|[<-|[]]]; auto.
        + now apply negb_true_iff in N.
      - intros [H N]. apply (Permutation_in s (Permutation_sym (Ho _))). apply filter_In. split; [|now rewrite N].
        destruct x; cbn in H |- *; destruct H as [->| ->]; auto. }
    split.
    + intros s B N. apply I. rewrite T. apply last_in. intros C. assert (H : In s []) by (rewrite <- C; now apply I). contradiction.
    + intros A. rewrite T. destruct (ord (filter (fun p => negb (mem p spines)) (sides x))) as [|p l] eqn:E; [reflexivity|].
      destruct (proj1 (I p) (or_introl eq_refl)) as [B N]. exfalso. apply N, A, B.
  - assert (E : b = set_ticks_position x "none" a) by reflexivity. rewrite E. split; [|split].
    + split; [|congruence]. intros _. cbn [set_ticks_position tick_side]. now rewrite (proj2 (axis_eqb_spec x x) eq_refl).
    + intros y Hy. cbn [set_ticks_position tick_side]. destruct (axis_eqb y x) eqn:F; [apply axis_eqb_spec in F; contradiction|reflexivity].
    + repeat split.
Qed.

(** Everything up to the grid. *)
Lemma cleared ord a spines : some_order ord -> (forall s, In s spines -> is_side s) ->
  exists b, (forall s, visible b s = true <-> visible a s = true /\ ~ In s spines) /\
    (forall s, thin b s = true <-> thin a s = true \/ is_side s /\ ~ In s spines) /\
    ticks_after a b spines X /\ ticks_after a b spines Y /\ grid_on b = grid_on a /\ rest_kept a b /\
    forall grid tl, remove_chartjunk ord a spines grid tl =
      match (match grid with
             | None => (b, Ok tt)
             | Some g => if forallb (fun s => mem s ["x"; "y"]) g then (set_grid g b, Ok tt) else (b, Err AssertionError)
             end) with
      | (b, Err e) => (b, Err e)
      | (b, Ok _) => match tl with None => (b, Ok tt) | Some _ => (b, Err TypeError) end
      end.
Proof.
  intros Ho H. destruct (hide_all_ok spines a H) as (a1 & E1 & V1 & T1 & S1 & G1 & R1).
  destruct (thin_all spines all_spines a1) as (T2 & V2 & S2 & G2 & R2). set (a2 := fold_left _ all_spines a1) in *.
  destruct (place_ok ord spines X a2 Ho) as (K3 & O3 & V3 & T3 & G3 & R3). set (a3 := place_ticks ord spines a2 X) in *.
  destruct (place_ok ord spines Y a3 Ho) as (K4 & O4 & V4 & T4 & G4 & R4). set (a4 := place_ticks ord spines a3 Y) in *.
  destruct R1 as (I1 & C1 & L1 & M1 & N1). destruct R2 as (I2 & C2 & L2 & M2 & N2). destruct R3 as (I3 & C3 & L3 & M3 & N3). destruct R4 as (I4 & C4 & L4 & M4 & N4).
  exists a4. split; [|split; [|split; [|split; [|split; [|split]]]]].
  - intros s. rewrite V4, V3, V2. apply V1.
  - intros s. rewrite T4, T3, T2, T1, side_known. reflexivity.
  - unfold ticks_after in *. rewrite (O4 X) by discriminate. rewrite I2, I1, S2, S1 in K3. exact K3.
  - unfold ticks_after in *. rewrite (O3 Y) in K4 by discriminate. rewrite I3, I2, I1, S2, S1 in K4. exact K4.
  - congruence.
  - repeat split; congruence.
  - intros grid tl. unfold remove_chartjunk. rewrite E1. reflexivity.
Qed.

Lemma junk_ok ord a spines : some_order ord -> (forall s, In s spines -> is_side s) ->
  exists b, remove_chartjunk ord a spines None None = (b, Ok tt) /\
    (forall s, visible b s = true <-> visible a s = true /\ ~ In s spines) /\
    (forall s, thin b s = true <-> thin a s = true \/ is_side s /\ ~ In s spines) /\
    ticks_after a b spines X /\ ticks_after a b spines Y /\ grid_on b = grid_on a /\ rest_kept a b.
Proof.
  intros Ho H. destruct (cleared ord a spines Ho H) as (b & V & T & X1 & Y1 & G & R & E). exists b. rewrite (E None None). auto 8.
Qed.

Lemma junk_unknown ord a before t after grid tl : (forall s, In s before -> is_side s) -> ~ is_side t ->
  exists b, remove_chartjunk ord a (before ++ t :: after) grid tl = (b, Err KeyError) /\
    (forall s, visible b s = true <-> visible a s = true /\ ~ In s before) /\ thin b = thin a /\ tick_side b = tick_side a /\ rest_kept a b.
Proof.
  intros H N. destruct (hide_all_unknown before t after a H N) as (b & E & V & T & S & G & R). exists b.
  unfold remove_chartjunk. rewrite E. auto.
Qed.

Lemma junk_grid ord a spines g tl : some_order ord -> (forall s, In s spines -> is_side s) ->
  exists b r, remove_chartjunk ord a spines (Some g) tl = (b, r) /\
   ((forall s, In s g -> s = "x" \/ s = "y") -> grid_on b = Some g /\ (tl = None -> r = Ok tt)) /\
   ((exists s, In s g /\ s <> "x" /\ s <> "y") -> grid_on b = grid_on a /\ r = Err AssertionError).
Proof.
  intros Ho H. destruct (cleared ord a spines Ho H) as (b & V & T & X1 & Y1 & G & R & E). rewrite (E (Some g) tl).
  destruct (forallb (fun s => mem s ["x"; "y"]) g) eqn:F.
  - rewrite forallb_forall in F.
    exists (set_grid g b), (match tl with None => Ok tt | Some _ => Err TypeError end). split; [destruct tl; reflexivity|]. split.
    + intros _. split; [reflexivity|]. intros ->. reflexivity.
    + intros (s & Hs & N1 & N2). apply F, mem_spec in Hs. destruct Hs as [C|[C|[]]]; congruence.
  - exists b, (Err AssertionError). split; [reflexivity|]. split.
    + intros A. exfalso. assert (K : forallb (fun s => mem s ["x"; "y"]) g = true); [|congruence].
      apply forallb_forall. intros s Hs. apply mem_spec. destruct (A s Hs) as [->| ->]; cbn; auto.
    + intros _. auto.
Qed.

Lemma junk_labels ord a spines grid tl b r : some_order ord -> (forall s, In s spines -> is_side s) ->
  remove_chartjunk ord a spines grid (Some tl) = (b, r) -> labels b = labels a /\ exists e, r = Err e /\ (grid = None -> e = TypeError).
Proof.
  intros Ho H E. destruct (cleared ord a spines Ho H) as (c & V & T & X1 & Y1 & G & (R1 & R2 & R3 & R4 & R5) & E'). rewrite (E' grid (Some tl)) in E.
  destruct grid as [g|].
  - destruct (forallb _ g); injection E as <- <-; (split; [exact R3|]); eexists; (split; [reflexivity|discriminate]).
  - injection E as <- <-. split; [exact R3|]. eexists. split; reflexivity.
Qed.

(** ** Meshes *)

Lemma middles_ok n : length (middles n) = n /\ forall k, (k < n)%nat -> nth k (middles n) 0%R = (INR k + / 2)%R.
Proof.
  unfold middles. split; [now rewrite map_length, seq_length|]. intros k Hk.
  rewrite (nth_indep _ 0%R ((fun k => (INR k + / 2)%R) 0%nat)) by (rewrite map_length, seq_length; exact Hk).
  rewrite (map_nth (fun k => (INR k + / 2)%R)), seq_nth by exact Hk. reflexivity.
Qed.

Definition given (l : option (list string)) : option (list string) := match l with Some [] => None | _ => l end.
Lemma labelled_ok x n l a : let b := labelled x n l a in
  (forall y, labels b y = if axis_eqb y x then match given l with Some l => l | None => labels a y end else labels a y) /\
  (forall y, locations b y = if axis_eqb y x then match given l with Some _ => middles n | None => locations a y end else locations a y) /\
  visible b = visible a /\ limits b = limits a /\ mesh b = mesh a /\ tick_side b = tick_side a.
Proof.
  destruct l as [[|s l]|]; cbn; repeat split; intros y; destruct (axis_eqb y x); reflexivity.
Qed.

Lemma mesh_ok ord a n m x map_given xl yl : some_order ord -> exists b, pcolormesh ord a n m x map_given xl yl = (b, Ok tt) /\
  (forall s, is_side s -> visible b s = false) /\
  mesh b = Some (match map_given with Some s => GivenMap s | None => cmap_from_data x end, n, m) /\
  limits b X = (0%R, INR m) /\ limits b Y = (0%R, INR n) /\
  (forall l, xl = Some l -> l <> [] -> labels b X = l /\ locations b X = middles m) /\
  (forall l, yl = Some l -> l <> [] -> labels b Y = l /\ locations b Y = middles n) /\
  (xl = None \/ xl = Some [] -> labels b X = labels a X /\ locations b X = locations a X) /\
  (yl = None \/ yl = Some [] -> labels b Y = labels a Y /\ locations b Y = locations a Y).
Proof.
  intros Ho. unfold pcolormesh. set (c := match map_given with Some s => GivenMap s | None => cmap_from_data x end).
  destruct (junk_ok ord (set_mesh (c, n, m) a) ["top"; "right"; "bottom"; "left"] Ho) as (a1 & E & V & T & X1 & Y1 & G & (R1 & R2 & R3 & R4 & R5)).
  { intros s. unfold is_side. cbn. intros H. decompose [or] H; subst; auto. contradiction. }
  rewrite E. destruct (labelled_ok X m xl a1) as (LX & CX & VX & MX & NX & SX). set (a2 := labelled X m xl a1) in *.
  destruct (labelled_ok Y n yl a2) as (LY & CY & VY & MY & NY & SY). set (a3 := labelled Y n yl a2) in *.
  eexists. split; [reflexivity|]. cbn [set_limits visible mesh limits labels locations axis_eqb].
  split; [|split; [|split; [|split; [|split; [|split; [|split]]]]]].
  - intros s Hs. rewrite VY, VX. destruct (visible a1 s) eqn:W; [|reflexivity]. apply V in W. destruct W as [_ W]. exfalso. apply W.
    unfold is_side in Hs. cbn. decompose [or] Hs; subst; auto.
  - rewrite NY, NX, R5. reflexivity.
  - reflexivity.
  - reflexivity.
  - intros l -> N. rewrite LY, CY. cbn [axis_eqb]. rewrite LX, CX. cbn [axis_eqb]. destruct l; [congruence|]. cbn. auto.
  - intros l -> N. rewrite LY, CY. cbn [axis_eqb]. destruct l; [congruence|]. cbn. auto.
  - intros H. rewrite LY, CY. cbn [axis_eqb]. rewrite LX, CX. cbn [axis_eqb]. rewrite R3, R2. destruct H as [->| ->]; cbn; auto.
  - intros H. rewrite LY, CY. cbn [axis_eqb]. rewrite LX, CX. cbn [axis_eqb]. rewrite R3, R2. destruct H as [->| ->]; cbn; auto.
Qed.
