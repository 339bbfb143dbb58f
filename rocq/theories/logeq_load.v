(** * Proofs about the equality of a log with its copy loaded from disk. *)

From Coq Require Import List ZArith Bool QArith String Lia Arith.
Import ListNotations.
From Verif Require Import Py Py_proof logger_model logger_spec logger_proof logeq_model logeq_spec logeq_proof logeq_logs.
From Verif Require logger_load.
Open Scope py_scope.
Local Open Scope nat_scope.
Notation length := List.length.

Section Load.
Context {Arr : Type}.
Notation val := (val Arr).
Notation dict := (dict Arr).
Notation world := (world Arr).
Notation get := (dict_get String.eqb).
Implicit Types v x y : val.
Implicit Types d : dict.

(** ** What comes back *)
Lemma images_all (l m : list val) : images l m <-> Forall2 json_image l m.
Proof. split; induction 1; constructor; assumption. Qed.
Lemma dict_in (d d' : list (key * val)) : dict_images d d' -> forall k' y, In (k', y) d' -> exists k s x, In (k, x) d /\ key_text k s /\ k' = KStr s /\ json_image x y.
Proof.
  intro H. induction d as [|[k x] d IH] in d', H |- *; inversion H as [|? s ? y ? e' Kt J D]; subst; intros k' z I; [destruct I|].
  destruct I as [[= <- <-]|I].
  - exists k, s, x. split; [now left|]. auto.
  - destruct (IH e' D k' z I) as (k0 & s0 & x0 & I0 & R). exists k0, s0, x0. split; [now right|exact R].
Qed.
Lemma dict_in2 (d d' : list (key * val)) : dict_images d d' -> forall k x, In (k, x) d -> exists s y, In (KStr s, y) d' /\ key_text k s /\ json_image x y.
Proof.
  intro H. induction d as [|[k x] d IH] in d', H |- *; inversion H as [|? s ? y ? e' Kt J D]; subst; intros k' z I; [destruct I|].
  destruct I as [[= <- <-]|I].
  - exists s, y. split; [now left|]. auto.
  - destruct (IH e' D k' z I) as (s0 & x0 & I0 & R). exists s0, x0. split; [now right|exact R].
Qed.
Lemma text_keys (d d' : list (key * val)) : dict_images d d' -> map (fun kv => as_int (fst kv)) d' = map fst d'.
Proof. intro H. induction d as [|[k x] d IH] in d', H |- *; inversion H as [|? s ? y ? e' Kt J D]; subst; [reflexivity|]. cbn [map fst as_int]. now rewrite (IH e' D). Qed.

Lemma image_plain v : forall v', json_image v v' -> plain v'.
Proof.
  induction v as [|b|z|q|s|a|n|l IH|l IH|d IH] using val_induction; intros v' J; inversion J as [| | | | |? l' F|? l' F|? d' F N]; subst; try (constructor; fail).
  - constructor. apply images_all in F. clear J. intros x I. induction F as [|u u' l l' H F IHF]; [destruct I|]. destruct I as [<-|I]; [apply (IH u (or_introl eq_refl) _ H)|]. apply IHF; [|exact I]. intros z I'. apply IH. now right.
  - constructor. apply images_all in F. clear J. intros x I. induction F as [|u u' l l' H F IHF]; [destruct I|]. destruct I as [<-|I]; [apply (IH u (or_introl eq_refl) _ H)|]. apply IHF; [|exact I]. intros z I'. apply IH. now right.
  - constructor; [rewrite (text_keys d d' F); exact N|]. intros k y I. destruct (dict_in d d' F k y I) as (k0 & s & x & I0 & _ & _ & J0). exact (IH k0 x I0 y J0).
Qed.
Lemma known v : forall v', json_like v -> json_image v v' -> v' = v.
Proof.
  induction v as [|b|z|q|s|a|n|l IH|l IH|d IH] using val_induction; intros v' K J; inversion J as [| | | | |? l' F|? l' F|? d' F N]; subst; try reflexivity.
  - f_equal. inversion K as [| | | | |? A|]; subst. apply images_all in F. clear J K. induction F as [|u u' l l' H F IHF]; [reflexivity|]. f_equal; [apply (IH u (or_introl eq_refl) _ (A u (or_introl eq_refl)) H)|].
    apply IHF; intros z I'; [apply IH|apply A]; now right.
  - inversion K.
  - f_equal. inversion K as [| | | | | |? A]; subst. clear J K N. induction d as [|[k x] d IHd] in d', F, IH, A |- *; inversion F as [|? s ? y ? e' Kt J D]; subst; [reflexivity|].
    destruct (A k x (or_introl eq_refl)) as [(s' & ->) K]. inversion Kt; subst. f_equal; [f_equal; exact (IH (KStr s) x (or_introl eq_refl) y K J)|].
    apply IHd; [|exact D|]; intros k' x' I; [apply (IH k')|apply A]; now right.
Qed.
Lemma as_text k s : as_int k = KStr s -> k = KStr s.
Proof. destruct k as [s'|z|[|]| |n]; cbn; congruence. Qed.
Lemma image_same v : forall v', json_image v v' -> same v v' -> json_like v.
Proof.
  induction v as [|b|z|q|s|a|n|l IH|l IH|d IH] using val_induction; intros v' J S; try (constructor; fail); try (inversion J; fail).
  - inversion J as [| | | | |? l' F| |]; subst. inversion S as [|? ? ? ? X|?|? ? F2| |]; subst; [inversion X|]. constructor. apply images_all in F. apply sames_all in F2. clear J S.
    intros x I. induction F as [|u u' l l' H F IHF]; [destruct I|]. inversion F2 as [|? ? ? ? H2 F3]; subst. destruct I as [<-|I]; [apply (IH u (or_introl eq_refl) u' H H2)|].
    apply IHF; [|exact F3|exact I]. intros z I'. apply IH. now right.
  - inversion J; subst. inversion S as [|? ? ? ? X|?| | |]; subst; inversion X.
  - inversion J as [| | | | | | |? d' F N]; subst. inversion S as [|? ? ? ? X|?| | |? ? A B]; subst; [inversion X|]. constructor. intros k x I.
    destruct (A k x I) as (k' & y' & I' & K & Sx). destruct (dict_in d d' F k' y' I') as (_ & s & _ & _ & _ & -> & _). cbn [as_int] in K. apply as_text in K. subst k.
    split; [now exists s|]. destruct (dict_in2 d d' F (KStr s) x I) as (s2 & y & I2 & Kt & Jx). inversion Kt; subst s2.
    assert (y = y') as ->; [|exact (IH (KStr s) x I y' Jx Sx)].
    clear -N I' I2. induction d' as [|[k z] d' IHd]; [destruct I'|]. cbn [map fst] in N. apply NoDup_cons_iff in N as [N0 N].
    destruct I' as [E'|I'], I2 as [E|I2].
    + congruence.
    + injection E' as -> ->. destruct (N0 (in_map fst _ _ I2)).
    + injection E as -> ->. destruct (N0 (in_map fst _ _ I')).
    + exact (IHd N I' I2).
Qed.
Lemma image_exact v v' : json_image v v' -> (same v v' <-> json_like v).
Proof.
  intro J. split; [apply (image_same v v' J)|]. intro K. pose proof (image_plain v v' J) as P. rewrite (known v v' K J) in *. now apply same_refl.
Qed.

(** ** The log that was saved, in the world where its copy was loaded *)
Lemma load_appends (w w' : world) fl f sf ln j : load w fl f sf ln = (w', Ok j) -> j = length (w_logs w) /\ exists es l', w' = mkWorld (w_runs w ++ es) (w_logs w ++ [l']).
Proof.
  unfold load. intro H. match goal with H : (match ?b with _ => _ end) = _ |- _ => destruct b as [[s [g es]]|e] end; [|discriminate].
  injection H as <- <-. split; [reflexivity|]. now exists es, (mkLogger g (seq (length (w_runs w)) (length es)) (set_of_list (sv_exp_keys s)) [] (if sf then Some f else None) (Some (set_of_list (sv_result_keys s)))).
Qed.
Lemma kept_log (w : world) es l' i l : nth_error (w_logs w) i = Some l -> nth_error (w_logs (mkWorld (w_runs w ++ es) (w_logs w ++ [l']))) i = Some l.
Proof. intro H. cbn [w_logs]. rewrite nth_error_app1; [exact H|]. apply nth_error_Some. congruence. Qed.
Lemma kept_run (w : world) es l' r : r < length (w_runs w) -> nth_error (w_runs (mkWorld (w_runs w ++ es) (w_logs w ++ [l']))) r = nth_error (w_runs w) r.
Proof. intro H. cbn [w_runs]. now rewrite nth_error_app1. Qed.
Lemma kept_value (w : world) es l' i l : wf_world w -> nth_error (w_logs w) i = Some l ->
  let w' := mkWorld (w_runs w ++ es) (w_logs w ++ [l']) in
  (forall k, global_at w' i k = global_at w i k) /\ (forall p k, value_at w' i p k = value_at w i p k).
Proof.
  intros [W _] H w'. destruct (W i l H) as [_ B]. split; [intro k; unfold global_at; unfold w'; now rewrite H, (kept_log w es l' i l H)|].
  intros p k. unfold value_at. unfold w' at 1. rewrite H, (kept_log w es l' i l H). destruct (nth_error (lg_exps l) p) as [r|] eqn:R; [|reflexivity].
  unfold w'. now rewrite (kept_run w es l' r (B r (nth_error_In _ _ R))).
Qed.

Variable foreign : val -> val -> result bool.

Lemma opt_plain (x y : option val) v : (forall u, x = Some u -> plain u) -> opt_rel restored x y -> y = Some v -> plain v.
Proof.
  intros P R ->. destruct x as [u|]; [|destruct R]. cbn [opt_rel] in R. destruct R as [a|u v J]; [exact (P _ eq_refl)|exact (image_plain u v J)].
Qed.
Lemma opt_exact (x y : option val) : (forall u, x = Some u -> plain u) -> opt_rel restored x y -> (opt_rel same x y <-> forall v, x = Some v -> json_like v).
Proof.
  intros P R. destruct x as [u|], y as [u'|]; cbn [opt_rel] in *; try (destruct R; fail).
  - assert (J : json_image u u') by (destruct R as [a|? ? J]; [pose proof (P _ eq_refl) as Q; inversion Q|exact J]). rewrite (image_exact u u' J). split; [intros H v [= <-]; exact H|intro H; now apply H].
  - split; [discriminate|trivial].
Qed.

Theorem loaded_eq ord (w w' : world) i j l f fl fl' (sf : bool) : enumerates ord -> wf_world w -> nth_error (w_logs w) i = Some l -> lg_filename l = Some f -> ~ has_suffix f ".npz" ->
  all_storable w i -> all_values plain w i -> save ord w i fl = (fl', Ok tt) -> load w fl' f sf true = (w', Ok j) ->
  decides (logger_eq foreign w' i j) (sf = true /\ lg_result_keys l = [] /\ all_values json_like w i).
Proof.
  intros O W L F NS AS [Pg Pv] SV LD. destruct (logger_load.roundtrip ord w i l f fl w sf O W W L F NS AS) as (fl2 & w2 & l' & SV2 & LD2 & W' & SC & L' & RK & FN & _).
  rewrite SV in SV2. injection SV2 as <-. rewrite LD in LD2. injection LD2 as <- ->. destruct (load_appends w w' fl' f sf true _ LD) as (_ & es & l2 & Ew).
  destruct SC as (a & b & A & B & Len & G & V & K). rewrite L in A. injection A as <-. rewrite L' in B. injection B as <-.
  pose proof (kept_value w es l2 i l W L) as [Kg Kv]. rewrite <- Ew in Kg, Kv.
  assert (Lw : nth_error (w_logs w') i = Some l) by (rewrite Ew; now apply kept_log).
  pose proof (logger_eq_ok foreign w' i (length (w_logs w)) l l' W' Lw L') as D.
  destruct D as (e & E & He).
  { split; [intros k v; rewrite Kg; apply Pg|intros p k v; rewrite Kv; apply Pv]. }
  { split.
    - intros k v. apply (opt_plain (global_at w i k)); [apply (Pg k)|apply G].
    - intros p k v. apply (opt_plain (value_at w i p k)); [apply (Pv p k)|apply V]. }
  exists e. split; [exact E|]. rewrite He. split.
  - intros (x & y & X & Y & H1 & H2 & _ & H4 & _ & H6). rewrite Lw in X. rewrite L' in Y. injection X as <-. injection Y as <-.
    split; [rewrite F, FN in H1; destruct sf; [reflexivity|discriminate]|]. split.
    + rewrite RK in H6. destruct (lg_result_keys l) as [|k r]; [reflexivity|]. destruct (proj1 (H6 k) (or_introl eq_refl)).
    + split.
      * intro k. apply (opt_exact (global_at w i k) _ (Pg k) (G k)). rewrite <- Kg. apply H2.
      * intros p k. apply (opt_exact (value_at w i p k) _ (Pv p k) (V p k)). rewrite <- Kv. apply H4.
  - intros (-> & R & [Jg Jv]). exists l, l'. split; [exact Lw|]. split; [exact L'|]. split; [congruence|]. split; [|split; [|split; [|split]]].
    + intro k. rewrite Kg. apply (opt_exact _ _ (Pg k) (G k)), Jg.
    + unfold runs_of. rewrite Lw, L'. cbn [option_map]. now rewrite Len.
    + intros p k. rewrite Kv. apply (opt_exact _ _ (Pv p k) (V p k)), Jv.
    + intro k. symmetry. apply K.
    + intro k. rewrite R, RK. reflexivity.
Qed.

(** ** Arrays *)
Definition ready (v v' : val) : Prop := (exists a, v = VArr a /\ v' = VArr a) \/ (v' = v /\ plain v).
Lemma entries_arrays e d d' : (forall a, In (VArr a) (map snd d) -> foreign (VArr a) (VArr a) = Err e) ->
  (forall k v, In (k, v) d -> exists v', get d' k = Some v' /\ ready v v') ->
  entries_eq foreign d d' = if existsb is_foreign (map snd d) then Err e else Ok true.
Proof.
  intros H R. induction d as [|[k v] d IH]; [reflexivity|]. cbn [entries_eq map snd existsb]. destruct (R k v (or_introl eq_refl)) as (v' & -> & [(a & -> & ->)|[-> P]]).
  - cbn [py_eq is_foreign orb]. rewrite (H a (or_introl eq_refl)). reflexivity.
  - rewrite (proj2 (decides_true _ _ (py_eq_ok foreign v v P P)) (same_refl v P)). cbn [bind]. rewrite IH; [|intros a I; apply H; now right|intros; apply R; now right].
    rewrite (plain_known v P). reflexivity.
Qed.
Lemma dict_arrays e d d' : NoDup (map fst d) -> NoDup (map fst d') -> (forall a, In (VArr a) (map snd d) -> foreign (VArr a) (VArr a) = Err e) ->
  (forall k, match get d k, get d' k with Some v, Some v' => ready v v' | None, None => True | _, _ => False end) ->
  dict_eq foreign d d' = if existsb is_foreign (map snd d) then Err e else Ok true.
Proof.
  intros N N' H R. unfold dict_eq. assert (L : length d = length d').
  { rewrite <- (map_length fst d), <- (map_length fst d'). apply Nat.le_antisymm; apply NoDup_incl_length; try assumption; intros k I; specialize (R k).
    - destruct (get d' k) as [y|] eqn:G; [apply get_in in G; apply (in_map fst _ _ G)|]. destruct (get d k) eqn:G2; [destruct R|]. apply get_none in G2. destruct (G2 I).
    - destruct (get d k) as [y|] eqn:G; [apply get_in in G; apply (in_map fst _ _ G)|]. destruct (get d' k) eqn:G2; [destruct R|]. apply get_none in G2. destruct (G2 I). }
  rewrite L, Nat.eqb_refl. apply entries_arrays; [exact H|]. intros k v I. specialize (R k). rewrite (proj2 (get_in_iff d k v N) I) in R. destruct (get d' k) as [v'|]; [|destruct R]. now exists v'.
Qed.
Definition runs_hold (w : world) (l : list nat) : bool := existsb (fun r => match nth_error (w_runs w) r with Some d => existsb is_foreign (map snd d) | None => false end) l.
Lemma runs_arrays e (w : world) l m : (forall r d, nth_error (w_runs w) r = Some d -> NoDup (map fst d)) -> length l = length m ->
  (forall r, In r l -> r < length (w_runs w)) -> (forall r, In r m -> r < length (w_runs w)) -> (forall r, In r l -> ~ In r m) ->
  (forall p k a, run_at w l p k = Some (VArr a) -> foreign (VArr a) (VArr a) = Err e) ->
  (forall p k, match run_at w l p k, run_at w m p k with Some v, Some v' => ready v v' | None, None => True | _, _ => False end) ->
  runs_eq foreign w l m = if runs_hold w l then Err e else Ok true.
Proof.
  intro N. revert m. induction l as [|r l IH]; intros [|s m] L B B' Dj H R; cbn [List.length] in L; try discriminate; [reflexivity|].
  cbn [runs_eq runs_hold existsb]. destruct (Nat.eqb_spec r s) as [<-|_]; [destruct (Dj r); now left|].
  destruct (nth_error (w_runs w) r) as [d|] eqn:E. 2: { apply nth_error_None in E. pose proof (B r (or_introl eq_refl)). lia. }
  destruct (nth_error (w_runs w) s) as [d'|] eqn:E'. 2: { apply nth_error_None in E'. pose proof (B' s (or_introl eq_refl)). lia. }
  rewrite (proj2 (get_run_ok w r d) E), (proj2 (get_run_ok w s d') E'). cbn [bind].
  rewrite (dict_arrays e d d' (N r d E) (N s d' E')).
  - destruct (existsb is_foreign (map snd d)); [reflexivity|]. cbn [bind orb]. apply (IH m); [lia|intros; apply B; now right|intros; apply B'; now right|intros x I J; apply (Dj x); now right|intros p; apply (H (S p))|intros p; apply (R (S p))].
  - intros a I. apply in_map_iff in I as ([k v] & Ev & I). cbn [snd] in Ev. subst v. apply (H 0 k a). unfold run_at. cbn [nth_error]. rewrite E. apply get_in_iff; [apply (N r d E)|exact I].
  - intro k. specialize (R 0 k). unfold run_at in R. cbn [nth_error] in R. now rewrite E, E' in R.
Qed.

Lemma opt_ready (x y : option val) : (forall v, x = Some v -> is_array v \/ json_like v) -> opt_rel restored x y ->
  match x, y with Some v, Some v' => ready v v' | None, None => True | _, _ => False end.
Proof.
  intros C R. destruct x as [v|], y as [v'|]; cbn [opt_rel] in R; try exact R. destruct (C v eq_refl) as [(a & ->)|K].
  - left. exists a. inversion R as [|? ? J]; subst; [auto|]. inversion J.
  - destruct R as [a|v v' J]; [inversion K|]. right. pose proof (image_plain v v' J) as P. rewrite (known v v' K J) in *. auto.
Qed.
Lemma exists_foreign d : NoDup (map fst d) -> (forall k v, get d k = Some v -> is_array v \/ json_like v) -> existsb is_foreign (map snd d) = true <-> exists k a, get d k = Some (VArr a).
Proof.
  intros N C. rewrite existsb_exists. split.
  - intros (v & I & Fv). apply in_map_iff in I as ([k u] & Eu & I). cbn [snd] in Eu. subst u. apply (get_in_iff d k v N) in I. destruct (C k v I) as [(a & ->)|K]; [now exists k, a|]. destruct K; discriminate.
  - intros (k & a & G). exists (VArr a). split; [|reflexivity]. apply get_in in G. exact (in_map snd _ _ G).
Qed.

Theorem loaded_arrays ord (w w' : world) i j l f fl fl' e : enumerates ord -> wf_world w -> nth_error (w_logs w) i = Some l -> lg_filename l = Some f -> ~ has_suffix f ".npz" ->
  all_storable w i -> all_values (fun v => is_array v \/ json_like v) w i -> has_array w i ->
  all_values (fun v => is_array v -> foreign v v = Err e) w i ->
  save ord w i fl = (fl', Ok tt) -> load w fl' f true true = (w', Ok j) -> logger_eq foreign w' i j = Err e.
Proof.
  intros O W L F NS AS [Cg Cv] HA [Hg Hv] SV LD. destruct (logger_load.roundtrip ord w i l f fl w true O W W L F NS AS) as (fl2 & w2 & l' & SV2 & LD2 & W' & SC & L' & RK & FN & _).
  rewrite SV in SV2. injection SV2 as <-. rewrite LD in LD2. injection LD2 as <- ->.
  destruct SC as (a & b & A & B & Len & G & V & K). rewrite L in A. injection A as <-. rewrite L' in B. injection B as <-.
  assert (FR : exists es, w' = mkWorld (w_runs w ++ es) (w_logs w ++ [l']) /\ forall r, In r (lg_exps l') -> length (w_runs w) <= r).
  { clear -LD L'. revert LD. unfold load. intro H. match goal with H : (match ?b with _ => _ end) = _ |- _ => destruct b as [[s [g es]]|e] end; [|discriminate].
    injection H as <-. exists es. cbn [w_logs] in L'. rewrite nth_error_app2 in L' by lia. rewrite Nat.sub_diag in L'. cbn in L'. injection L' as <-. split; [reflexivity|].
    cbn [lg_exps]. intros r I. apply in_seq in I. lia. }
  destruct FR as (es & Ew & FR). pose proof (kept_value w es l' i l W L) as [Kg Kv]. rewrite <- Ew in Kg, Kv.
  assert (Lw : nth_error (w_logs w') i = Some l) by (rewrite Ew; now apply kept_log).
  assert (Ii : i < length (w_logs w)) by (apply nth_error_Some; congruence).
  destruct W as [W Nr]. destruct (W i l L) as [Ng Ba]. destruct W' as [W' Nr']. destruct (W' _ l' L') as [Ng' Bb].
  unfold logger_eq. rewrite (proj2 (get_logger_ok w' i l) Lw), (proj2 (get_logger_ok w' _ l') L'). cbn [bind].
  rewrite (proj2 (filename_ok (lg_filename l) (lg_filename l'))) by congruence. cbn [negb]. replace (i =? length (w_logs w)) with false by (symmetry; apply Nat.eqb_neq; lia).
  assert (GG : forall k, global_at w i k = get (lg_glob l) k) by (intro k; unfold global_at; now rewrite L).
  assert (GG' : forall k, global_at w' (length (w_logs w)) k = get (lg_glob l') k) by (intro k; unfold global_at; now rewrite L').
  rewrite (dict_arrays e (lg_glob l) (lg_glob l') Ng Ng').
  2: { intros x I. apply in_map_iff in I as ([k v] & Ev & I). cbn [snd] in Ev. subst v. apply (Hg k (VArr x)); [rewrite GG; now apply get_in_iff|now exists x]. }
  2: { intro k. rewrite <- GG, <- GG'. apply opt_ready; [apply Cg|apply G]. }
  destruct (existsb is_foreign (map snd (lg_glob l))) eqn:EG; [reflexivity|]. cbn [bind negb]. rewrite Len, Nat.eqb_refl.
  assert (In1 : forall r, In r (lg_exps l) -> r < length (w_runs w')) by (intros r I; rewrite Ew; cbn [w_runs]; rewrite app_length; pose proof (Ba r I); lia).
  rewrite (runs_arrays e w' (lg_exps l) (lg_exps l') Nr' (eq_sym Len) In1 Bb).
  2: { intros r I J. pose proof (Ba r I). pose proof (FR r J). lia. }
  2: { intros p k x X. rewrite <- (value_run w' i l p k Lw), Kv in X. apply (Hv p k _ X). now exists x. }
  2: { intros p k. rewrite <- (value_run w' i l p k Lw), Kv, <- (value_run w' _ l' p k L'). apply opt_ready; [apply Cv|apply V]. }
  assert (RH : runs_hold w' (lg_exps l) = true); [|now rewrite RH].
  destruct HA as [(k & x & X)|(p & k & x & X)].
  - exfalso. rewrite GG in X. assert (existsb is_foreign (map snd (lg_glob l)) = true); [|congruence]. apply (exists_foreign (lg_glob l) Ng); [intros k0 v0; rewrite <- GG; apply Cg|]. now exists k, x.
  - unfold value_at in X. rewrite L in X. destruct (nth_error (lg_exps l) p) as [r|] eqn:Er; [|discriminate]. destruct (nth_error (w_runs w) r) as [d|] eqn:Ed; [|discriminate].
    unfold runs_hold. apply existsb_exists. exists r. split; [now apply (nth_error_In _ p)|]. rewrite Ew, (kept_run w es l' r (Ba r (nth_error_In _ _ Er))), Ed.
    apply existsb_exists. exists (VArr x). split; [|reflexivity]. apply get_in in X. exact (in_map snd _ _ X).
Qed.
End Load.
