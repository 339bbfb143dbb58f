(** * Proofs about the equality of logs: dictionaries, runs, loaded logs. *)

From Coq Require Import List ZArith Bool QArith String Lia Arith.
Import ListNotations.
From Verif Require Import Py Py_proof logger_model logger_spec logger_proof logeq_model logeq_spec logeq_proof.
From Verif Require logger_load.
Open Scope py_scope.
Local Open Scope nat_scope.
Notation length := List.length.

Section Logs.
Context {Arr : Type}.
Notation val := (val Arr).
Notation dict := (dict Arr).
Notation world := (world Arr).
Notation get := (dict_get String.eqb).
Implicit Types v x y : val.
Implicit Types d : dict.

(** ** [same] is an equivalence on plain values. *)
Lemma sames_all (l m : list val) : sames l m <-> Forall2 same l m.
Proof. split; induction 1; constructor; assumption. Qed.
Lemma same_refl v : plain v -> same v v.
Proof.
  induction v as [|b|z|q|s|a|n|l IH|l IH|d IH] using val_induction; intro P; inversion P as [| | | | |? Q|? Q|? N Q]; subst.
  - constructor.
  - destruct b; eapply sa_number; try constructor; reflexivity.
  - eapply sa_number; try constructor; reflexivity.
  - eapply sa_number; try constructor; reflexivity.
  - constructor.
  - constructor. apply sames_all. clear P. induction l as [|y l IHl]; constructor; [apply IH; [now left|apply Q; now left]|]. apply IHl; intros x I; [apply IH|apply Q]; now right.
  - constructor. apply sames_all. clear P. induction l as [|y l IHl]; constructor; [apply IH; [now left|apply Q; now left]|]. apply IHl; intros x I; [apply IH|apply Q]; now right.
  - constructor; intros k v I; exists k, v; (split; [exact I|]); (split; [reflexivity|]); apply (IH k v I), (Q k v I).
Qed.
Lemma same_sym v : forall v', same v v' -> same v' v.
Proof.
  induction v as [|b|z|q|s|a|n|l IH|l IH|d IH] using val_induction; intros v' S; inversion S as [|? ? p0 q0 X Y E|?|? m F|? m F|? ? A B]; subst;
    try (eapply sa_number; [exact Y|exact X|symmetry; exact E]; fail); try (constructor; fail).
  - constructor. apply sames_all. apply sames_all in F. clear S. induction F as [|x y l m H F IHF]; constructor; [apply IH; [now left|exact H]|]. apply IHF. intros z I. apply IH. now right.
  - constructor. apply sames_all. apply sames_all in F. clear S. induction F as [|x y l m H F IHF]; constructor; [apply IH; [now left|exact H]|]. apply IHF. intros z I. apply IH. now right.
  - constructor.
    + intros k v I. destruct (B k v I) as (k' & x & I' & K & E). exists k', x. split; [exact I'|]. split; [symmetry; exact K|]. exact (IH k' x I' v E).
    + intros k v I. destruct (A k v I) as (k' & x & I' & K & E). exists k', x. split; [exact I'|]. split; [symmetry; exact K|]. exact (IH k v I x E).
Qed.
Lemma same_trans v : forall v' v'', same v v' -> same v' v'' -> same v v''.
Proof.
  induction v as [|b|z|q|s|a|n|l IH|l IH|d IH] using val_induction; intros v' v'' S T; inversion S as [|? ? p0 q0 X Y E|?|? m F|? m F|? ? A B]; subst;
    try (inversion X; fail); try exact T;
    try (inversion T as [|? ? p1 q1 X' Y' E'|?|? m' F'|? m' F'|? ? A' B']; subst; try (inversion Y; fail);
      rewrite (is_number_unique _ _ _ X' Y) in E'; eapply sa_number; [exact X|exact Y'|now rewrite E]; fail).
  - inversion T as [|? ? p1 q1 X' Y' E'|?|? m' F'|? m' F'|? ? A' B']; subst; [inversion X'|]. constructor. apply sames_all. apply sames_all in F. apply sames_all in F'. clear S T. revert m' F'.
    induction F as [|x y l m H F IHF]; intros m' F'; inversion F' as [|? z ? n' H' F'']; subst; constructor; [apply (IH x (or_introl eq_refl) y z H H')|]. apply IHF; [|assumption]. intros u I. apply IH. now right.
  - inversion T as [|? ? p1 q1 X' Y' E'|?|? m' F'|? m' F'|? ? A' B']; subst; [inversion X'|]. constructor. apply sames_all. apply sames_all in F. apply sames_all in F'. clear S T. revert m' F'.
    induction F as [|x y l m H F IHF]; intros m' F'; inversion F' as [|? z ? n' H' F'']; subst; constructor; [apply (IH x (or_introl eq_refl) y z H H')|]. apply IHF; [|assumption]. intros u I. apply IH. now right.
  - inversion T as [|? ? p1 q1 X' Y' E'|?|? m' F'|? m' F'|? ? A' B']; subst; [inversion X'|]. constructor.
    + intros k v I. destruct (A k v I) as (k1 & v1 & I1 & K1 & S1). destruct (A' k1 v1 I1) as (k2 & v2 & I2 & K2 & S2). exists k2, v2. split; [exact I2|]. split; [unfold same_key in *; congruence|]. exact (IH k v I v1 v2 S1 S2).
    + intros k v I. destruct (B' k v I) as (k1 & v1 & I1 & K1 & S1). destruct (B k1 v1 I1) as (k2 & v2 & I2 & K2 & S2). exists k2, v2. split; [exact I2|]. split; [unfold same_key in *; congruence|]. exact (IH k2 v2 I2 v1 v S2 S1).
Qed.

Variable foreign : val -> val -> result bool.

(** ** Dictionaries of a log *)
Lemma entries_ok d d' : NoDup (map fst d') -> (forall k x, In (k, x) d -> plain x) -> (forall k y, In (k, y) d' -> plain y) ->
  decides (entries_eq foreign d d') (forall k x, In (k, x) d -> exists y, get d' k = Some y /\ same x y).
Proof.
  intros N' P P'. induction d as [|[k x] d IH].
  - exists true. split; [reflexivity|]. split; [intros _ k v []|reflexivity].
  - cbn [entries_eq]. destruct (get d' k) as [y|] eqn:G.
    + destruct (py_eq_ok foreign x y (P k x (or_introl eq_refl)) (P' k y (get_in d' k y G))) as (e & E & He). rewrite E. cbn [bind]. destruct e.
      * destruct (IH (fun a b I => P a b (or_intror I))) as (e2 & E2 & H2). exists e2. split; [exact E2|]. rewrite H2. split.
        -- intros A k0 v0 [[= <- <-]|I]; [|exact (A k0 v0 I)]. exists y. split; [exact G|]. now apply He.
        -- intros A k0 v0 I. apply A. now right.
      * exists false. split; [reflexivity|]. split; [discriminate|]. intro A. apply He. destruct (A k x (or_introl eq_refl)) as (y2 & G2 & S2). congruence.
    + exists false. split; [reflexivity|]. split; [discriminate|]. intro A. destruct (A k x (or_introl eq_refl)) as (y2 & G2 & S2). congruence.
Qed.
Lemma dict_ok d d' : NoDup (map fst d) -> NoDup (map fst d') -> (forall k x, In (k, x) d -> plain x) -> (forall k y, In (k, y) d' -> plain y) ->
  decides (dict_eq foreign d d') (forall k, opt_rel same (get d k) (get d' k)).
Proof.
  intros N N' P P'. unfold dict_eq.
  assert (Q1 : (forall k, opt_rel same (get d k) (get d' k)) <-> (forall k x, In (k, x) d -> exists y, get d' k = Some y /\ same x y) /\ length d = length d').
  { split.
    - intro A. split.
      + intros k x I. specialize (A k). rewrite (proj2 (get_in_iff d k x N) I) in A. destruct (get d' k) as [y|]; [|destruct A]. exists y. split; [reflexivity|exact A].
      + rewrite <- (map_length fst d), <- (map_length fst d'). apply Nat.le_antisymm; apply NoDup_incl_length; try assumption; intros k I; specialize (A k).
        * destruct (get d' k) as [y|] eqn:G; [apply (in_map fst) in G || apply get_in in G; apply (in_map fst _ _ G)|].
          exfalso. destruct (get d k) as [x|] eqn:G2; [destruct A|]. apply get_none in G2. exact (G2 I).
        * destruct (get d k) as [y|] eqn:G; [apply get_in in G; apply (in_map fst _ _ G)|].
          exfalso. destruct (get d' k) as [x|] eqn:G2; [destruct A|]. apply get_none in G2. exact (G2 I).
    - intros [A L] k. destruct (get d k) as [x|] eqn:G; cbn [opt_rel].
      + apply get_in in G. destruct (A k x G) as (y & -> & S). exact S.
      + destruct (get d' k) as [y|] eqn:G'; [|exact I]. apply get_none in G. apply G.
        assert (Inc : incl (map fst d) (map fst d')).
        { intros c J. apply in_map_iff in J as ([k0 x0] & <- & J). destruct (A k0 x0 J) as (y0 & G0 & _). apply get_in in G0. apply (in_map fst _ _ G0). }
        apply (NoDup_length_incl (l' := map fst d') N ltac:(rewrite !map_length; lia) Inc). apply get_in in G'. apply (in_map fst _ _ G'). }
  unfold decides. setoid_rewrite Q1. destruct (Nat.eqb_spec (length d) (length d')) as [L|L].
  - destruct (entries_ok d d' N' P P') as (e & E & He). exists e. split; [exact E|]. rewrite He. tauto.
  - exists false. split; [reflexivity|]. split; [discriminate|]. tauto.
Qed.

(** ** Runs *)
Definition run_at (w : world) (l : list nat) (p : nat) (k : string) : option val :=
  match nth_error l p with None => None | Some r => match nth_error (w_runs w) r with None => None | Some d => get d k end end.
Lemma value_run (w : world) i l p k : nth_error (w_logs w) i = Some l -> value_at w i p k = run_at w (lg_exps l) p k.
Proof. intro H. unfold value_at, run_at. now rewrite H. Qed.
Lemma runs_ok (w : world) l m : (forall r d, nth_error (w_runs w) r = Some d -> NoDup (map fst d)) -> length l = length m ->
  (forall r, In r l -> r < length (w_runs w)) -> (forall r, In r m -> r < length (w_runs w)) ->
  (forall p k v, run_at w l p k = Some v -> plain v) -> (forall p k v, run_at w m p k = Some v -> plain v) ->
  decides (runs_eq foreign w l m) (forall p k, opt_rel same (run_at w l p k) (run_at w m p k)).
Proof.
  intro N. revert m. induction l as [|r l IH]; intros [|s m] L B B' P P'; cbn [List.length] in L; try discriminate.
  - exists true. split; [reflexivity|]. split; [|reflexivity]. intros _ [|p] k; exact I.
  - cbn [runs_eq].
    destruct (nth_error (w_runs w) r) as [d|] eqn:R. 2: { apply nth_error_None in R. pose proof (B r (or_introl eq_refl)). lia. }
    destruct (nth_error (w_runs w) s) as [d'|] eqn:R'. 2: { apply nth_error_None in R'. pose proof (B' s (or_introl eq_refl)). lia. }
    assert (Pd : forall k x, In (k, x) d -> plain x). { intros k x I. apply (P 0 k x). unfold run_at. cbn [nth_error]. rewrite R. now apply get_in_iff; [apply (N r)|]. }
    assert (Pd' : forall k x, In (k, x) d' -> plain x). { intros k x I. apply (P' 0 k x). unfold run_at. cbn [nth_error]. rewrite R'. now apply get_in_iff; [apply (N s)|]. }
    assert (H : decides (if r =? s then Ok true else d0 <- get_run w r ;; d0' <- get_run w s ;; dict_eq foreign d0 d0') (forall k, opt_rel same (get d k) (get d' k))).
    { destruct (Nat.eqb_spec r s) as [<-|].
      - assert (d' = d) as -> by congruence. exists true. split; [reflexivity|]. split; [|reflexivity]. intros _ k. destruct (get d k) as [x|] eqn:G; [|exact I]. apply same_refl, (Pd k). now apply get_in.
      - rewrite (proj2 (get_run_ok w r d) R), (proj2 (get_run_ok w s d') R'). cbn [bind]. apply dict_ok; [apply (N r)|apply (N s)| |]; assumption. }
    destruct H as (e & -> & He). cbn [bind]. destruct e.
    + destruct (IH m ltac:(lia) (fun a I => B a (or_intror I)) (fun a I => B' a (or_intror I)) (fun p => P (S p)) (fun p => P' (S p))) as (e2 & E2 & H2). exists e2. split; [exact E2|]. rewrite H2. split.
      * intros A [|p] k; [|apply (A p k)]. unfold run_at. cbn [nth_error]. rewrite R, R'. now apply He.
      * intros A p k. apply (A (S p) k).
    + exists false. split; [reflexivity|]. split; [discriminate|]. intro A. apply He. intro k. specialize (A 0 k). unfold run_at in A. cbn [nth_error] in A. rewrite R, R' in A. exact A.
Qed.

(** ** Logs *)
Lemma filename_ok f g : filename_eqb f g = true <-> f = g.
Proof. destruct f, g; cbn [filename_eqb]; try (split; congruence). rewrite String.eqb_eq. split; congruence. Qed.
Lemma logger_eq_ok (w : world) i j a b : wf_world w -> nth_error (w_logs w) i = Some a -> nth_error (w_logs w) j = Some b ->
  all_values plain w i -> all_values plain w j -> decides (logger_eq foreign w i j) (same_logs w i j).
Proof.
  intros W A B [Pg Pv] [Pg' Pv']. destruct W as [W Nr]. destruct (W i a A) as [Ng Ba]. destruct (W j b B) as [Ng' Bb].
  unfold logger_eq. rewrite (proj2 (get_logger_ok w i a) A), (proj2 (get_logger_ok w j b) B). cbn [bind].
  assert (Q1 : same_logs w i j <-> lg_filename a = lg_filename b /\ (forall k, opt_rel same (get (lg_glob a) k) (get (lg_glob b) k)) /\ length (lg_exps a) = length (lg_exps b) /\
    (forall p k, opt_rel same (run_at w (lg_exps a) p k) (run_at w (lg_exps b) p k)) /\
    (forall k, In k (lg_exp_keys a) <-> In k (lg_exp_keys b)) /\ (forall k, In k (lg_result_keys a) <-> In k (lg_result_keys b))).
  { unfold same_logs. split.
    - intros (a' & b' & A' & B' & H). rewrite A in A'. rewrite B in B'. injection A' as <-. injection B' as <-.
      destruct H as (H1 & H2 & H3 & H4 & H5 & H6). split; [exact H1|]. split. { intro k. specialize (H2 k). unfold global_at in H2. now rewrite A, B in H2. }
      split. { unfold runs_of in H3. rewrite A, B in H3. now injection H3. } split; [|tauto]. intros p k. specialize (H4 p k). now rewrite (value_run w i a p k A), (value_run w j b p k B) in H4.
    - intros (H1 & H2 & H3 & H4 & H5 & H6). exists a, b. split; [exact A|]. split; [exact B|]. split; [exact H1|]. split. { intro k. unfold global_at. now rewrite A, B. }
      split. { unfold runs_of. rewrite A, B. cbn [option_map]. now rewrite H3. } split; [|tauto]. intros p k. now rewrite (value_run w i a p k A), (value_run w j b p k B). }
  unfold decides. setoid_rewrite Q1. clear Q1.
  destruct (filename_eqb (lg_filename a) (lg_filename b)) eqn:F; cbn [negb].
  2: { exists false. split; [reflexivity|]. split; [discriminate|]. intros (H & _). apply filename_ok in H. congruence. }
  apply filename_ok in F.
  assert (Pa : forall k x, In (k, x) (lg_glob a) -> plain x). { intros k x I. apply (Pg k x). unfold global_at. rewrite A. now apply get_in_iff. }
  assert (Pb : forall k x, In (k, x) (lg_glob b) -> plain x). { intros k x I. apply (Pg' k x). unfold global_at. rewrite B. now apply get_in_iff. }
  assert (H : decides (if i =? j then Ok true else dict_eq foreign (lg_glob a) (lg_glob b)) (forall k, opt_rel same (get (lg_glob a) k) (get (lg_glob b) k))).
  { destruct (Nat.eqb_spec i j) as [<-|].
    - assert (b = a) as -> by congruence. exists true. split; [reflexivity|]. split; [|reflexivity]. intros _ k. destruct (get (lg_glob a) k) as [x|] eqn:G; [|exact I]. apply same_refl, (Pa k). now apply get_in.
    - now apply dict_ok. }
  destruct H as (e & -> & He). cbn [bind]. destruct e; cbn [negb].
  2: { exists false. split; [reflexivity|]. split; [discriminate|]. intros (_ & H & _). now apply He. }
  pose proof (proj1 He eq_refl) as Hg.
  destruct (Nat.eqb_spec (length (lg_exps a)) (length (lg_exps b))) as [L|L].
  2: { cbn [bind negb]. exists false. split; [reflexivity|]. split; [discriminate|]. intros (_ & _ & H & _). destruct (L H). }
  destruct (runs_ok w (lg_exps a) (lg_exps b) Nr L Ba Bb) as (e & -> & Hr).
  { intros p k v H. apply (Pv p k v). now rewrite (value_run w i a p k A). }
  { intros p k v H. apply (Pv' p k v). now rewrite (value_run w j b p k B). }
  cbn [bind]. destruct e; cbn [negb].
  2: { exists false. split; [reflexivity|]. split; [discriminate|]. intros (_ & _ & _ & H & _). now apply Hr. }
  pose proof (proj1 Hr eq_refl) as Hv.
  eexists. split; [reflexivity|]. rewrite andb_true_iff, !set_eqb_iff. tauto.
Qed.

(** A log is equal to itself whatever it contains. *)
Lemma runs_refl (w : world) l : runs_eq foreign w l l = Ok true.
Proof. induction l as [|r l IH]; [reflexivity|]. cbn [runs_eq]. rewrite Nat.eqb_refl. exact IH. Qed.
Lemma logger_eq_refl (w : world) i a : nth_error (w_logs w) i = Some a -> logger_eq foreign w i i = Ok true.
Proof.
  intro A. unfold logger_eq. rewrite (proj2 (get_logger_ok w i a) A). cbn [bind]. rewrite (proj2 (filename_ok _ _) eq_refl). cbn [negb].
  rewrite !Nat.eqb_refl. cbn [bind negb]. rewrite runs_refl. cbn [bind negb]. f_equal. apply andb_true_iff. split; apply set_eqb_iff; intro; tauto.
Qed.

Lemma opt_sym (x y : option val) : opt_rel same x y -> opt_rel same y x.
Proof. destruct x, y; cbn; try tauto. apply same_sym. Qed.
Lemma opt_trans (x y z : option val) : opt_rel same x y -> opt_rel same y z -> opt_rel same x z.
Proof. destruct x, y, z; cbn; try tauto. apply same_trans. Qed.
Lemma same_logs_sym (w : world) i j : same_logs w i j -> same_logs w j i.
Proof.
  intros (a & b & A & B & F & G & R & V & E & S). exists b, a. split; [exact B|]. split; [exact A|]. split; [now symmetry|]. split; [intro; now apply opt_sym|]. split; [now symmetry|].
  split; [intros; now apply opt_sym|]. split; intro k; symmetry; auto.
Qed.
Lemma same_logs_trans (w : world) i j k : same_logs w i j -> same_logs w j k -> same_logs w i k.
Proof.
  intros (a & b & A & B & F & G & R & V & E & S) (b' & c & B' & C & F' & G' & R' & V' & E' & S'). rewrite B in B'. injection B' as <-.
  exists a, c. split; [exact A|]. split; [exact C|]. split; [congruence|]. split; [intro; eapply opt_trans; eauto|]. split; [congruence|].
  split; [intros; eapply opt_trans; eauto|]. split; intro x; [rewrite E|rewrite S]; auto.
Qed.
Lemma decides_true r P : decides r P -> (r = Ok true <-> P).
Proof. intros (e & -> & H). rewrite <- H. split; congruence. Qed.
Lemma logger_eq_sym (w : world) i j : wf_world w -> all_values plain w i -> all_values plain w j -> logger_eq foreign w i j = Ok true -> logger_eq foreign w j i = Ok true.
Proof.
  intros W P Q H. destruct (nth_error (w_logs w) i) as [a|] eqn:A; [|unfold logger_eq, get_logger in H; rewrite A in H; discriminate].
  destruct (nth_error (w_logs w) j) as [b|] eqn:B; [|unfold logger_eq, get_logger in H; rewrite A, B in H; discriminate].
  apply (decides_true _ _ (logger_eq_ok w j i b a W B A Q P)), same_logs_sym, (decides_true _ _ (logger_eq_ok w i j a b W A B P Q)), H.
Qed.
Lemma logger_eq_trans (w : world) i j k : wf_world w -> all_values plain w i -> all_values plain w j -> all_values plain w k ->
  logger_eq foreign w i j = Ok true -> logger_eq foreign w j k = Ok true -> logger_eq foreign w i k = Ok true.
Proof.
  intros W P Q T H H'. destruct (nth_error (w_logs w) i) as [a|] eqn:A; [|unfold logger_eq, get_logger in H; rewrite A in H; discriminate].
  destruct (nth_error (w_logs w) j) as [b|] eqn:B; [|unfold logger_eq, get_logger in H; rewrite A, B in H; discriminate].
  destruct (nth_error (w_logs w) k) as [c|] eqn:C; [|unfold logger_eq, get_logger in H'; rewrite B, C in H'; discriminate].
  apply (decides_true _ _ (logger_eq_ok w i k a c W A C P T)). apply (same_logs_trans w i j k).
  - apply (decides_true _ _ (logger_eq_ok w i j a b W A B P Q)), H.
  - apply (decides_true _ _ (logger_eq_ok w j k b c W B C Q T)), H'.
Qed.
End Logs.
