(** * Lemmas about the files written by the script of sliding windows. *)
From Coq Require Import List ZArith Bool Arith String Ascii QArith Lia.
Import ListNotations.
From Verif Require Import Py Py_proof ListUtil logger_proof sound_model figures_model sliding_model slidefiles_model slidefiles_spec.
From Verif Require launch_spec launch_proof experiment_proof.
Open Scope py_scope.
Local Open Scope nat_scope.

(** ** Texts *)
Lemma in_lines_join l : in_lines l (join_with newline l).
Proof.
  induction l as [|a [|b l] IH]; [constructor|constructor|]. cbn [join_with]. apply lines_more. exact IH.
Qed.
Lemma in_test_in idx r : in_test_records idx r = true <-> In r idx.
Proof.
  unfold in_test_records. rewrite existsb_exists. split.
  - intros (x & H & E). apply Nat.eqb_eq in E. now subst.
  - intro H. exists r. split; [exact H|apply Nat.eqb_refl].
Qed.
Lemma train_part idx (trans : list string) : forall n,
  part (fun r => ~ In r idx) n trans (map snd (filter (fun r => negb (in_test_records idx (fst r))) (combine (seq n (List.length trans)) trans))).
Proof.
  induction trans as [|t trans IH]; intro n; [constructor|]. cbn [List.length seq combine filter fst]. specialize (IH (S n)).
  pose proof (in_test_in idx n) as E. destruct (in_test_records idx n); cbn [negb map snd].
  - apply part_skip; [intro H; apply H, E; reflexivity|exact IH].
  - apply part_take; [intro H; apply E in H; discriminate|exact IH].
Qed.
Lemma train_lines idx trans : exists ts, part (fun r => ~ In r idx) 0 trans ts /\ in_lines ts (train_text trans idx).
Proof. eexists. split; [apply (train_part idx trans 0)|apply in_lines_join]. Qed.
Lemma part_unique {A} (p : nat -> Prop) : forall n (l m m' : list A), part p n l m -> part p n l m' -> m = m'.
Proof.
  intros n l m m' H. revert m'. induction H as [n|n a l m P H IH|n a l m P H IH]; intros m' H'; inversion H'; subst; auto; try contradiction. f_equal. auto.
Qed.
Lemma wins_part idx sounds : part (fun n => exists r, nth_error sounds n = Some r /\ In r idx) 0 sounds (test_wins sounds idx).
Proof.
  assert (G : forall pre l, sounds = pre ++ l -> part (fun n => exists r, nth_error sounds n = Some r /\ In r idx) (List.length pre) l (test_wins l idx)).
  { intros pre l. revert pre. induction l as [|r l IH]; intros pre E; [constructor|].
    assert (En : nth_error sounds (List.length pre) = Some r) by (rewrite E, nth_error_app2, Nat.sub_diag by lia; reflexivity).
    assert (H : part (fun n => exists r, nth_error sounds n = Some r /\ In r idx) (S (List.length pre)) l (test_wins l idx)).
    { specialize (IH (pre ++ [r])). rewrite app_length, Nat.add_comm in IH. apply IH. now rewrite <- app_assoc. }
    unfold test_wins. cbn [filter]. pose proof (in_test_in idx r) as T. destruct (in_test_records idx r).
    - apply part_take; [exists r; split; [exact En|now apply T]|exact H].
    - apply part_skip; [|exact H]. intros (r' & E' & I). assert (r' = r) by congruence. subst r'. apply T in I. discriminate. }
  exact (G [] sounds eq_refl).
Qed.
Lemma one_line_head a b l s : one_line a -> one_line b -> (a ++ String (ascii_of_nat 10) l = b ++ String (ascii_of_nat 10) s)%string -> a = b /\ l = s.
Proof.
  revert b. induction a as [|x a IH]; intros [|y b] Ha Hb E; cbn in E.
  - now injection E.
  - injection E as <- E. exfalso. exact (Hb ""%string b eq_refl).
  - injection E as -> E. exfalso. exact (Ha ""%string a eq_refl).
  - injection E as -> E. destruct (IH b) as (-> & ->); auto.
    + intros c d X. apply (Ha (String y c) d). cbn. now rewrite X.
    + intros c d X. apply (Hb (String y c) d). cbn. now rewrite X.
Qed.
Lemma lines_back l t : in_lines l t -> forall l', in_lines l' t -> l <> [] -> l' <> [] -> Forall one_line l -> Forall one_line l' -> l = l'.
Proof.
  induction 1 as [|a|a b l s H IH]; intros l' H' N N' F F'; [now elim N| |]; apply Forall_inv in F as Fa.
  - inversion H' as [E|a' E|a' b' m s' Hm E]; subst; [now elim N'|reflexivity|]. elim (Fa a' s' eq_refl).
  - apply Forall_inv_tail in F. inversion H' as [E|a' E|a' b' m s' Hm E E']; subst; [now elim N'| |].
    + apply Forall_inv in F'. elim (F' a s eq_refl).
    + pose proof (Forall_inv F') as Fb. apply Forall_inv_tail in F'. apply one_line_head in E' as (-> & ->); auto. f_equal. apply IH; auto; discriminate.
Qed.

(** ** Names *)
Lemma before_stem name : stem name (before_point name).
Proof.
  split.
  - induction name as [|c name IH]; intros a b E; cbn in E; [destruct a; discriminate|]. destruct (Ascii.eqb_spec c "."%char) as [->|N]; [destruct a; discriminate|].
    destruct a as [|c' a]; cbn in E; injection E as -> E; [now apply N|]. exact (IH a b E).
  - induction name as [|c name [IH|(b & IH)]]; [now left| |]; cbn; destruct (Ascii.eqb_spec c "."%char) as [->|N].
    + right. now exists name.
    + left. f_equal. exact IH.
    + right. now exists name.
    + right. exists b. cbn. f_equal. exact IH.
Qed.
Lemma point_head s s' t t' : (forall a b, s <> (a ++ "." ++ b)%string) -> (forall a b, s' <> (a ++ "." ++ b)%string) ->
  (s ++ "." ++ t = s' ++ "." ++ t')%string -> s = s' /\ t = t'.
Proof.
  revert s'. induction s as [|x a IH]; intros [|y b] Ha Hb E; cbn in E.
  - now injection E.
  - injection E as <- E. exfalso. exact (Hb ""%string b eq_refl).
  - injection E as -> E. exfalso. exact (Ha ""%string a eq_refl).
  - injection E as -> E. destruct (IH b) as (-> & ->); auto.
    + intros c d X. apply (Ha (String y c) d). cbn. now rewrite X.
    + intros c d X. apply (Hb (String y c) d). cbn. now rewrite X.
Qed.
Lemma append_nil_r s : (s ++ "" = s)%string.
Proof. induction s; cbn; congruence. Qed.
Lemma stem_unique name s : stem name s -> s = before_point name.
Proof.
  intros (P & H). destruct (before_stem name) as (P' & H'). destruct H as [H|(b & H)], H' as [H'|(b' & H')].
  - congruence.
  - exfalso. apply (P (before_point name) b'). congruence.
  - exfalso. apply (P' s b). congruence.
  - apply (point_head s (before_point name) b b'); auto. congruence.
Qed.
Lemma before_no_slash name ext : no_slash name -> starts_with_slash (before_point name ++ "." ++ ext)%string = false.
Proof.
  intro N. destruct name as [|c name]; [reflexivity|]. cbn. destruct (Ascii.eqb_spec c "."%char) as [->|N']; [reflexivity|].
  cbn. apply Ascii.eqb_neq. intros ->. exact (N ""%string name eq_refl).
Qed.
Lemma name_inj dir n n' e e' : no_slash n -> no_slash n' ->
  path_join dir (before_point n ++ "." ++ e) = path_join dir (before_point n' ++ "." ++ e') -> before_point n = before_point n' /\ e = e'.
Proof.
  intros N N' E. apply launch_proof.join_inj in E; try now apply before_no_slash. apply point_head in E; [exact E|apply before_stem|apply before_stem].
Qed.

Section Files.
Context {F : Type}.
Notation disk := (disk F).
Notation get := (dict_get String.eqb).

Lemma get_filter {V} (d : list (string * V)) path p : get (filter (fun e => negb (String.eqb (fst e) path)) d) p = if String.eqb path p then None else get d p.
Proof.
  induction d as [|[a x] d IH]; cbn [filter dict_get fst]; [now destruct (String.eqb path p)|].
  destruct (String.eqb_spec a path) as [->|N]; cbn [negb dict_get]; rewrite IH; destruct (String.eqb_spec path p) as [->|N2]; auto;
    try (now rewrite String.eqb_refl); destruct (String.eqb_spec a p); congruence.
Qed.
Lemma is_dir_in (k : disk) p : is_dir k p = true <-> In p (k_dirs k).
Proof.
  unfold is_dir. rewrite existsb_exists. split.
  - intros (x & H & E). apply String.eqb_eq in E. now subst.
  - intro H. exists p. split; [exact H|apply String.eqb_refl].
Qed.
Lemma not_dir (k : disk) p : ~ In p (k_dirs k) -> is_dir k p = false.
Proof. intro H. pose proof (is_dir_in k p) as X. destruct (is_dir k p); [elim H; now apply X|reflexivity]. Qed.
Lemma has_in {A} (l : list (string * A)) p : has l p = true <-> In p (map fst l).
Proof.
  unfold has. rewrite existsb_exists, in_map_iff. split.
  - intros (x & H & E). apply String.eqb_eq in E. eauto.
  - intros (x & E & H). exists x. split; [exact H|now apply String.eqb_eq].
Qed.
Lemma exists_taken (k : disk) p : path_exists k p = true <-> taken k p.
Proof. unfold path_exists, taken. rewrite !orb_true_iff, is_dir_in, !has_in. tauto. Qed.

(** ** Saving *)
Lemma save_ok (k : disk) dir name f : In dir (k_dirs k) -> ~ In (path_join dir name) (k_dirs k) ->
  exists k', save_figure k dir name f = (k', Ok tt) /\ k_dirs k' = k_dirs k /\
  (forall p, get (k_figures k') p = if String.eqb (path_join dir name) p then Some f else get (k_figures k) p) /\
  (forall p, get (k_texts k') p = if String.eqb (path_join dir name) p then None else get (k_texts k) p).
Proof.
  intros D N. unfold save_figure. rewrite (proj2 (is_dir_in k dir) D), (not_dir k _ N). cbn [andb negb]. eexists. split; [reflexivity|]. cbn.
  split; [reflexivity|]. split; intro p; [apply get_set|apply get_filter].
Qed.
Definition saved_path (dir s ext : string) : string := path_join dir (s ++ "." ++ ext).
Lemma formats_ok dir s f exts : forall k : disk, In dir (k_dirs k) -> (forall e, In e exts -> ~ In (saved_path dir s e) (k_dirs k)) ->
  exists k', save_formats dir s f exts k = (k', map (fun e => "Written: " ++ saved_path dir s e ++ ".")%string exts, Ok tt) /\ k_dirs k' = k_dirs k /\
  (forall e, In e exts -> get (k_figures k') (saved_path dir s e) = Some f) /\
  (forall p, (forall e, In e exts -> p <> saved_path dir s e) -> get (k_figures k') p = get (k_figures k) p /\ get (k_texts k') p = get (k_texts k) p).
Proof.
  induction exts as [|e exts IH]; intros k D N; [exists k; repeat split; auto; intros ? []|].
  destruct (save_ok k dir (s ++ "." ++ e) f D (N e (or_introl eq_refl))) as (k1 & E1 & D1 & F1 & T1).
  destruct (IH k1) as (k2 & E2 & D2 & F2 & O2). { now rewrite D1. } { intros e' H. rewrite D1. apply N. now right. }
  exists k2. cbn [save_formats map]. rewrite E1, E2. split; [reflexivity|]. split; [congruence|]. fold (saved_path dir s e) in *. split.
  - intros e' [<-|H]; [|auto]. destruct (in_dec string_dec (saved_path dir s e) (map (saved_path dir s) exts)) as [I|I].
    + apply in_map_iff in I as (e' & X & I). rewrite <- X. auto.
    + rewrite (proj1 (O2 _ (fun e' H X => I (eq_ind_r (fun y => In y _) (in_map _ _ _ H) X)))). rewrite F1, String.eqb_refl. reflexivity.
  - intros p H. destruct (O2 p) as (A & B); [intros e' H'; apply H; now right|]. rewrite A, B, F1, T1.
    destruct (String.eqb_spec (saved_path dir s e) p) as [X|X]; [elim (H e (or_introl eq_refl)); congruence|auto].
Qed.
Lemma formats_no_dir dir s f e exts (k : disk) : ~ In dir (k_dirs k) -> save_formats dir s f (e :: exts) k = (k, [], Err IOError).
Proof. intro N. cbn [save_formats]. unfold save_figure. now rewrite (not_dir k dir N). Qed.

Lemma nth_py {A} (l : list A) i : py_nth l (Z.of_nat i) = match nth_error l i with Some x => Ok x | None => Err IndexError end.
Proof. apply experiment_proof.py_nth_nat. Qed.

Section Loop.
Variables (plot : nat -> list annotation -> result F) (audio : nat -> string) (dir : string) (wins : list nat).
Hypothesis Ns : forall w, In w wins -> no_slash (audio w).
Notation path w e := (saved_path dir (before_point (audio w)) e).
Definition loop_done (anns : list (nat * list annotation)) (k k' : disk) (out : list string) : Prop :=
  k_dirs k' = k_dirs k /\
  Forall2 (fun x line => exists w, nth_error wins (fst x) = Some w /\ line = ("Written: " ++ path w (snd x) ++ ".")%string) (list_prod (map fst anns) formats) out /\
  (forall l1 i ann l2 w f e, anns = l1 ++ (i, ann) :: l2 -> nth_error wins i = Some w -> plot w ann = Ok f -> In e formats ->
     (forall j ann' w', In (j, ann') l2 -> nth_error wins j = Some w' -> before_point (audio w') <> before_point (audio w)) ->
     get (k_figures k') (path w e) = Some f) /\
  (forall p, (forall i ann w e, In (i, ann) anns -> nth_error wins i = Some w -> In e formats -> p <> path w e) ->
     get (k_figures k') p = get (k_figures k) p /\ get (k_texts k') p = get (k_texts k) p).
Lemma annotated_ok anns : forall k : disk, In dir (k_dirs k) -> (forall w e, In w wins -> In e formats -> ~ In (path w e) (k_dirs k)) ->
  (forall i ann, In (i, ann) anns -> exists w f, nth_error wins i = Some w /\ plot w ann = Ok f) ->
  exists k' out, save_annotated plot audio dir wins anns k = (k', out, Ok tt) /\ loop_done anns k k' out.
Proof.
  induction anns as [|(i & ann) anns IH]; intros k D Nd H.
  - exists k, []. split; [reflexivity|]. split; [reflexivity|]. split; [constructor|]. split; [intros [|? ?]; discriminate|auto].
  - destruct (H i ann (or_introl eq_refl)) as (w & f & Ew & Ef).
    assert (Iw : In w wins) by (eapply nth_error_In; exact Ew).
    destruct (formats_ok dir (before_point (audio w)) f formats k D) as (k1 & E1 & D1 & F1 & O1); [intros e He; now apply Nd|].
    destruct (IH k1) as (k2 & out & E2 & D2 & L2 & F2 & O2).
    { now rewrite D1. } { intros w' e Hw He. rewrite D1. now apply Nd. } { intros i' ann' Hi. apply H. now right. }
    eexists k2, _. cbn [save_annotated]. rewrite nth_py, Ew. cbn [bind]. rewrite Ef. cbn [bind]. change ["svg"; "pdf"; "eps"]%string with formats. rewrite E1, E2.
    split; [reflexivity|]. split; [congruence|]. split.
    { cbn [list_prod map fst]. apply Forall2_app; [|exact L2]. unfold formats. cbn [map]. repeat constructor; exists w; auto. }
    split.
    + intros [|(i0 & a0) l1] i' ann' l2 w' f' e E Ew' Ef' He Later; cbn in E; injection E as E.
      * subst i' ann' anns. assert (w' = w) by congruence. subst w'. assert (f' = f) by congruence. subst f'.
        destruct (O2 (path w e)) as (A & _); [|rewrite A; now apply F1]. intros j a w' e' Hj Ew2 He' X.
        apply name_inj in X as (X & _); [|now apply Ns|apply Ns; eapply nth_error_In; exact Ew2]. elim (Later j a w' Hj Ew2). now symmetry.
      * eapply F2; eauto.
    + intros p Hp. destruct (O2 p) as (A & B). { intros i' ann' w' e Hi. apply (Hp i' ann'). now right. }
      destruct (O1 p) as (A1 & B1). { intros e He. apply (Hp i ann w e); auto. now left. } split; congruence.
Qed.
End Loop.
Lemma annotated_app plot audio dir wins l1 l2 : forall k : disk,
  save_annotated plot audio dir wins (l1 ++ l2) k =
  match save_annotated plot audio dir wins l1 k with
  | (k, out, Err e) => (k, out, Err e)
  | (k, out, Ok _) => let '(k, out', r) := save_annotated plot audio dir wins l2 k in (k, out ++ out', r)
  end.
Proof.
  induction l1 as [|(i & ann) l1 IH]; intro k; cbn [app save_annotated].
  - destruct (save_annotated plot audio dir wins l2 k) as ((k', o), r). reflexivity.
  - destruct (py_nth wins (Z.of_nat i)) as [w|e]; cbn [bind]; [|reflexivity]. destruct (plot w ann) as [f|e]; cbn [bind]; [|reflexivity].
    destruct (save_formats dir (before_point (audio w)) f ["svg"; "pdf"; "eps"]%string k) as ((k1 & o1) & [u|e]); [|reflexivity].
    rewrite IH. destruct (save_annotated plot audio dir wins l1 k1) as ((k2 & o2) & [u2|e]); [|reflexivity].
    destruct (save_annotated plot audio dir wins l2 k2) as ((k3 & o3) & r). now rewrite app_assoc.
Qed.

(** ** The directories *)
Lemma dest_inside workdir d : plots_dir workdir d <-> d = DESTDIR workdir.
Proof. apply launch_proof.join_inside. reflexivity. Qed.
Lemma str_app_assoc (a b c : string) : ((a ++ b) ++ c = a ++ (b ++ c))%string.
Proof. induction a as [|x a IH]; cbn; [reflexivity|now rewrite IH]. Qed.
Lemma dest_shape workdir : exists p, DESTDIR workdir = (p ++ "sliding_win_plots")%string.
Proof.
  unfold DESTDIR, path_join. cbn [starts_with_slash]. change (Ascii.eqb "s" "/") with false. cbv iota.
  destruct (match workdir with EmptyString => true | _ => ends_with_slash workdir end); [now exists workdir|]. exists (workdir ++ "/")%string.
  now rewrite str_app_assoc.
Qed.
Lemma ends_app p s : s <> ""%string -> ends_with_slash (p ++ s) = ends_with_slash s.
Proof. intro N. induction p as [|c p IH]; [reflexivity|]. cbn. destruct p as [|c' p]; cbn in *; [destruct s; [contradiction|exact IH]|exact IH]. Qed.
Lemma dest_join workdir name : starts_with_slash name = false -> path_join (DESTDIR workdir) name = (DESTDIR workdir ++ "/" ++ name)%string.
Proof.
  intro S. destruct (dest_shape workdir) as (p & ->). unfold path_join. rewrite S. rewrite ends_app by discriminate. destruct p; reflexivity.
Qed.
Definition annotated_dir (workdir : string) : string := path_join (DESTDIR workdir) "annotated".
Lemma annotated_join workdir name : starts_with_slash name = false -> path_join (annotated_dir workdir) name = (DESTDIR workdir ++ "/" ++ "annotated/" ++ name)%string.
Proof.
  intro S. unfold annotated_dir. rewrite dest_join by reflexivity. unfold path_join. rewrite S. rewrite !ends_app by discriminate. destruct (dest_shape workdir) as (p & ->).
  destruct p; cbn -[append]; rewrite !str_app_assoc; reflexivity.
Qed.
(** What the disk is like once the directories are there. *)
Definition prepared_disk (workdir : string) (k : disk) : Prop :=
  In (DESTDIR workdir) (k_dirs k) /\ In (annotated_dir workdir) (k_dirs k) /\
  forall s, In (DESTDIR workdir ++ "/" ++ s)%string (k_dirs k) -> s = "annotated"%string.
Lemma cancel_dest (d s s' : string) : (d ++ "/" ++ s = d ++ "/" ++ s')%string -> s = s'.
Proof. intro E. apply launch_proof.append_cancel in E. cbn in E. now injection E. Qed.
Lemma longer (a s : string) : (a ++ "/" ++ s)%string <> a.
Proof. induction a as [|c a IH]; cbn; intro E; [discriminate|]. injection E as E. exact (IH E). Qed.
Lemma make_ok workdir (k : disk) : new_place workdir k \/ old_place workdir k ->
  exists k', make_dirs workdir k = (k', Ok tt) /\ prepared_disk workdir k' /\ k_texts k' = k_texts k /\ k_figures k' = k_figures k.
Proof.
  set (d := DESTDIR workdir). assert (Pd : plots_dir workdir d) by now apply dest_inside.
  assert (Ia : forall d2, launch_spec.inside d "annotated" d2 <-> d2 = annotated_dir workdir) by (intro d2; apply launch_proof.join_inside; reflexivity).
  intros [(W & H)|H]; destruct (H d Pd) as (T & A & B).
  - unfold make_dirs. fold d. destruct (path_exists k d) eqn:Ex; [elim T; now apply exists_taken|].
    unfold mkdir at 1. fold (DESTDIR workdir). fold d. rewrite (proj2 (is_dir_in k workdir) W), Ex. cbn [andb negb].
    unfold mkdir. change (path_join d "annotated") with (annotated_dir workdir).
    assert (Na : ~ taken (Disk (d :: k_dirs k) (k_texts k) (k_figures k)) (annotated_dir workdir)).
    { intros [[X|X]|X]; [|apply (A _ (proj2 (Ia _) eq_refl)); now left|apply (A _ (proj2 (Ia _) eq_refl)); now right].
      unfold annotated_dir in X. rewrite dest_join in X by reflexivity. symmetry in X. exact (longer _ _ X). }
    rewrite (proj2 (is_dir_in _ d)) by (now left). match goal with |- context [path_exists ?K (annotated_dir workdir)] => destruct (path_exists K (annotated_dir workdir)) eqn:Ex2 end; [elim Na; now apply exists_taken|].
    cbn [andb negb]. eexists. split; [reflexivity|]. split; [|split; reflexivity]. cbn [k_dirs]. split; [right; now left|]. split; [now left|].
    intros s [X|[X|X]].
    + unfold annotated_dir in X. rewrite dest_join in X by reflexivity. apply cancel_dest in X. now symmetry.
    + symmetry in X. elim (longer _ _ X).
    + elim (B _ X). eauto.
  - unfold make_dirs. fold d. rewrite (proj2 (exists_taken k d)) by (now left). exists k. split; [reflexivity|]. split; [|split; reflexivity].
    split; [exact T|]. split; [apply A, Ia; reflexivity|]. intros s X. exact (B _ s X eq_refl).
Qed.
Definition train_name (workdir : string) : string := path_join (DESTDIR workdir) "train_trans.txt".
Lemma text_ok workdir (k : disk) t : prepared_disk workdir k ->
  exists k', write_text k (DESTDIR workdir) "train_trans.txt" t = (k', Ok tt) /\ prepared_disk workdir k' /\ get (k_texts k') (train_name workdir) = Some t /\
  forall p, p <> train_name workdir -> get (k_texts k') p = get (k_texts k) p /\ get (k_figures k') p = get (k_figures k) p.
Proof.
  intros (D & A & B). unfold write_text. fold (train_name workdir). rewrite (proj2 (is_dir_in k _) D), not_dir.
  - cbn [andb negb]. eexists. split; [reflexivity|]. split; [split; auto|]. cbn [k_texts k_figures]. split; [rewrite get_set, String.eqb_refl; reflexivity|].
    intros p N. rewrite get_set, get_filter. destruct (String.eqb_spec (train_name workdir) p); [congruence|auto].
  - intro X. unfold train_name in X. rewrite dest_join in X by reflexivity. apply B in X. discriminate.
Qed.
Lemma no_dir_there workdir (k : disk) name e : no_slash name -> prepared_disk workdir k -> ~ In (saved_path (annotated_dir workdir) (before_point name) e) (k_dirs k).
Proof.
  intros N (_ & _ & B) X. unfold saved_path in X. rewrite annotated_join in X by now apply before_no_slash. apply B in X. discriminate X.
Qed.
Lemma train_other workdir name e : no_slash name -> train_name workdir <> saved_path (annotated_dir workdir) (before_point name) e.
Proof.
  intros N X. unfold saved_path, train_name in X. rewrite annotated_join in X by now apply before_no_slash. rewrite dest_join in X by reflexivity.
  apply cancel_dest in X. discriminate X.
Qed.
Lemma figure_path_is workdir name e p : no_slash name -> (figure_path workdir name e p <-> p = saved_path (annotated_dir workdir) (before_point name) e).
Proof.
  intro N. unfold figure_path, saved_path. split.
  - intros (d1 & d2 & s & P1 & P2 & S & P3). apply dest_inside in P1. subst d1. apply launch_proof.join_inside in P2; [|reflexivity]. subst d2.
    apply stem_unique in S. subst s. apply launch_proof.join_inside in P3; [exact P3|now apply before_no_slash].
  - intros ->. exists (DESTDIR workdir), (annotated_dir workdir), (before_point name). split; [now apply dest_inside|]. split; [apply launch_proof.join_inside; reflexivity|].
    split; [apply before_stem|]. apply launch_proof.join_inside; [now apply before_no_slash|reflexivity].
Qed.
Lemma train_path_is workdir p : train_path workdir p <-> p = train_name workdir.
Proof.
  unfold train_path. split.
  - intros (d & P & I). apply dest_inside in P. subst d. apply launch_proof.join_inside in I; [exact I|reflexivity].
  - intros ->. exists (DESTDIR workdir). split; [now apply dest_inside|]. apply launch_proof.join_inside; reflexivity.
Qed.
Lemma same_stem_is x y : same_stem x y <-> before_point x = before_point y.
Proof.
  split.
  - intros (s & X & Y). apply stem_unique in X, Y. congruence.
  - intro E. exists (before_point x). split; [apply before_stem|]. rewrite E. apply before_stem.
Qed.
Lemma sentence_in i ann : sentence i ann <-> In (i, ann) ANNOTATIONS.
Proof.
  unfold ANNOTATIONS. split.
  - intros []; cbn; tauto.
  - intros [E|[E|[E|[E|[]]]]]; injection E as <- <-; constructor.
Qed.
Lemma list_split {A} (l a1 : list A) x a2 : l = a1 ++ x :: a2 -> List.length a1 < List.length l.
Proof. intros ->. rewrite app_length. cbn. lia. Qed.
Lemma sentence_split i ann : sentence i ann -> exists l1 l2, ANNOTATIONS = l1 ++ (i, ann) :: l2 /\ forall j ann', In (j, ann') l2 -> later i j.
Proof.
  assert (Gen : forall l1 l2, map fst ANNOTATIONS = map fst (l1 ++ (i, ann) :: l2) -> forall j ann', In (j, ann') l2 -> later i j).
  { intros l1 l2 E j ann' H. apply in_split in H as (b & c & ->). exists (map fst l1), (map fst b), (map fst c).
    change [36; 89; 16; 67] with (map fst ANNOTATIONS). rewrite E, map_app. cbn [map fst]. rewrite map_app. reflexivity. }
  intro H. apply sentence_in, in_split in H as (l1 & l2 & E). exists l1, l2. split; [exact E|]. apply (Gen l1 l2). now rewrite E.
Qed.

Section Whole.
Variables (plot : nat -> list annotation -> result F) (audio : nat -> string) (trans : list string) (workdir : string) (sounds idx wins : list nat) (k : disk).
Hypothesis Place : new_place workdir k \/ old_place workdir k.
Hypothesis Wins : windows_of sounds idx wins.
Hypothesis Names : forall w, In w wins -> no_slash (audio w).

Lemma wins_are : test_wins sounds idx = wins.
Proof. eapply part_unique; [apply wins_part|exact Wins]. Qed.
Lemma begin : exists k1, write_files plot audio trans workdir sounds idx k = save_annotated plot audio (annotated_dir workdir) wins ANNOTATIONS k1 /\
  prepared_disk workdir k1 /\ get (k_texts k1) (train_name workdir) = Some (train_text trans idx) /\
  forall p, p <> train_name workdir -> get (k_texts k1) p = get (k_texts k) p /\ get (k_figures k1) p = get (k_figures k) p.
Proof.
  destruct (make_ok workdir k Place) as (k0 & E0 & P0 & T0 & F0). destruct (text_ok workdir k0 (train_text trans idx) P0) as (k1 & E1 & P1 & T1 & O1).
  exists k1. unfold write_files. rewrite E0, E1, wins_are. split; [reflexivity|]. rewrite T0, F0 in O1. auto.
Qed.
Lemma after_loop anns k1 k2 out : prepared_disk workdir k1 -> get (k_texts k1) (train_name workdir) = Some (train_text trans idx) ->
  (forall p, p <> train_name workdir -> get (k_texts k1) p = get (k_texts k) p /\ get (k_figures k1) p = get (k_figures k) p) ->
  loop_done plot audio (annotated_dir workdir) wins anns k1 k2 out ->
  train_file workdir trans idx k2 /\ Forall2 (printed workdir audio wins) (list_prod (map fst anns) formats) out /\
  other_files_same k k2 (fun p => train_path workdir p \/ exists i ann w e, In (i, ann) anns /\ nth_error wins i = Some w /\ In e formats /\ figure_path workdir (audio w) e p).
Proof.
  intros P1 T1 O1 (D2 & L2 & F2 & O2). split; [|split].
  - intros d p Hd Hp. assert (E : p = train_name workdir) by (apply train_path_is; exists d; auto). subst p.
    destruct (train_lines idx trans) as (ts & Pt & Lt). exists ts, (train_text trans idx). split; [exact Pt|]. split; [exact Lt|]. unfold text_at.
    rewrite (proj2 (O2 _ (fun i ann w e _ Hw _ => train_other workdir (audio w) e (Names w (nth_error_In _ _ Hw))))). exact T1.
  - eapply Forall2_impl; [|exact L2]. intros (i & e) line (w & Ew & El). exists w. eexists. split; [exact Ew|]. split; [|exact El]. cbn [snd] in *. apply figure_path_is; [apply Names; eapply nth_error_In; exact Ew|reflexivity].
  - intros p Hp. destruct (O2 p) as (A & B).
    { intros i ann w e Hi Ew He X. apply Hp. right. exists i, ann, w, e. repeat split; auto. apply figure_path_is; [apply Names; eapply nth_error_In; exact Ew|exact X]. }
    destruct (O1 p) as (A1 & B1). { intro X. apply Hp. left. now apply train_path_is. } split; congruence.
Qed.
Lemma written : (forall i ann, sentence i ann -> exists w f, nth_error wins i = Some w /\ plot w ann = Ok f) ->
  exists k' out, write_files plot audio trans workdir sounds idx k = (k', out, Ok tt) /\ train_file workdir trans idx k' /\
  Forall2 (printed workdir audio wins) (list_prod [36; 89; 16; 67] formats) out /\
  (forall i ann w f e p, sentence i ann -> nth_error wins i = Some w -> plot w ann = Ok f -> In e formats -> figure_path workdir (audio w) e p ->
     (forall j w', later i j -> nth_error wins j = Some w' -> ~ same_stem (audio w) (audio w')) -> figure_at k' p f) /\
  other_files_same k k' (fun p => train_path workdir p \/ exists i ann w e, sentence i ann /\ nth_error wins i = Some w /\ In e formats /\ figure_path workdir (audio w) e p).
Proof.
  intro H. destruct begin as (k1 & E1 & P1 & T1 & O1).
  destruct (annotated_ok plot audio (annotated_dir workdir) wins Names ANNOTATIONS k1) as (k2 & out & E2 & L).
  { apply P1. } { intros w e Hw _. apply no_dir_there; auto. } { intros i ann Hi. apply H, sentence_in, Hi. }
  exists k2, out. rewrite E1. split; [exact E2|]. destruct (after_loop _ _ _ _ P1 T1 O1 L) as (A & B & C). split; [exact A|]. split; [exact B|]. split.
  - intros i ann w f e p S Ew Ef He Hp Hl. apply figure_path_is in Hp; [|apply Names; eapply nth_error_In; exact Ew]. subst p.
    destruct (sentence_split _ _ S) as (l1 & l2 & E & Lt). destruct L as (_ & _ & F2 & _). unfold figure_at. apply (F2 l1 i ann l2 w f e E Ew Ef He).
    intros j ann' w' Hj Ew' X. apply (Hl j w' (Lt _ _ Hj) Ew'). apply same_stem_is. now symmetry.
  - intros p Hp. apply C. intros [X|(i & ann & w & e & Hi & X)]; apply Hp; [now left|right]. exists i, ann, w, e. rewrite sentence_in. auto.
Qed.
Lemma none_written : nth_error wins 36 = None ->
  exists k', write_files plot audio trans workdir sounds idx k = (k', [], Err IndexError) /\ train_file workdir trans idx k' /\ other_files_same k k' (train_path workdir).
Proof.
  intro N. destruct begin as (k1 & E1 & P1 & T1 & O1). exists k1. rewrite E1. unfold ANNOTATIONS. cbn [save_annotated]. rewrite nth_py, N. split; [reflexivity|].
  destruct (after_loop [] k1 k1 [] P1 T1 O1) as (A & _ & C). { split; [reflexivity|]. split; [constructor|]. split; [intros [|? ?]; discriminate|auto]. }
  split; [exact A|]. intros p Hp. apply C. intros [X|(i & ann & w & e & [] & _)]. exact (Hp X).
Qed.
Lemma one_written w f : nth_error wins 36 = Some w -> nth_error wins 89 = None -> plot w [("book"%string, (8 # 10, 1%Q))] = Ok f ->
  exists k' out, write_files plot audio trans workdir sounds idx k = (k', out, Err IndexError) /\ train_file workdir trans idx k' /\
  Forall2 (printed workdir audio wins) (list_prod [36] formats) out /\
  (forall e p, In e formats -> figure_path workdir (audio w) e p -> figure_at k' p f) /\
  other_files_same k k' (fun p => train_path workdir p \/ exists e, In e formats /\ figure_path workdir (audio w) e p).
Proof.
  intros Ew N Ef. destruct begin as (k1 & E1 & P1 & T1 & O1).
  set (a1 := [(36, [("book"%string, (8 # 10, 1%Q))])]).
  destruct (annotated_ok plot audio (annotated_dir workdir) wins Names a1 k1) as (k2 & out & E2 & L).
  { apply P1. } { intros w' e Hw _. apply no_dir_there; auto. } { intros i ann [E|[]]. injection E as <- <-. exists w, f. auto. }
  exists k2, out. rewrite E1. change ANNOTATIONS with (a1 ++ tl ANNOTATIONS). rewrite annotated_app, E2. unfold ANNOTATIONS. cbn [tl save_annotated]. rewrite nth_py, N. cbn [bind].
  rewrite app_nil_r. split; [reflexivity|].
  destruct (after_loop _ _ _ _ P1 T1 O1 L) as (A & B & C). split; [exact A|]. split; [exact B|]. split.
  - intros e p He Hp. apply figure_path_is in Hp; [|apply Names; eapply nth_error_In; exact Ew]. subst p.
    destruct L as (_ & _ & F2 & _). apply (F2 [] 36 _ [] w f e eq_refl Ew Ef He). intros j ann' w' [].
  - intros p Hp. apply C. intros [X|(i & ann & w' & e & [E|[]] & Ew' & He & X)]; apply Hp; [now left|right]. injection E as <- <-. assert (w' = w) by congruence. subst w'. eauto.
Qed.
(** A sentence with the same name as a later one is lost. *)
Lemma overwritten : (forall i ann, sentence i ann -> exists w f, nth_error wins i = Some w /\ plot w ann = Ok f) ->
  forall i j ann w w' f e p, later i j -> sentence j ann -> nth_error wins i = Some w -> nth_error wins j = Some w' -> same_stem (audio w) (audio w') ->
  plot w' ann = Ok f -> In e formats -> figure_path workdir (audio w) e p ->
  (forall n v, later j n -> nth_error wins n = Some v -> ~ same_stem (audio w') (audio v)) ->
  exists k' out, write_files plot audio trans workdir sounds idx k = (k', out, Ok tt) /\ figure_at k' p f.
Proof.
  intros H i j ann w w' f e p _ S Ew Ew' Same Ef He Hp Hl. destruct (written H) as (k' & out & E & _ & _ & Fg & _). exists k', out. split; [exact E|].
  apply (Fg j ann w' f e p S Ew' Ef He); [|exact Hl]. apply figure_path_is; [apply Names; eapply nth_error_In; exact Ew'|].
  apply figure_path_is in Hp; [|apply Names; eapply nth_error_In; exact Ew]. apply same_stem_is in Same. now rewrite <- Same.
Qed.
End Whole.
Lemma no_annotated plot audio trans workdir sounds idx wins (k : disk) w f : windows_of sounds idx wins ->
  (forall d, plots_dir workdir d -> is_directory k d /\ (forall d2, launch_spec.inside d "annotated" d2 -> ~ is_directory k d2) /\ forall p, launch_spec.inside d "train_trans.txt" p -> ~ is_directory k p) ->
  nth_error wins 36 = Some w -> plot w [("book"%string, (8 # 10, 1%Q))] = Ok f ->
  exists k', write_files plot audio trans workdir sounds idx k = (k', [], Err IOError) /\ train_file workdir trans idx k' /\ other_files_same k k' (train_path workdir).
Proof.
  intros W H Ew Ef. destruct (H (DESTDIR workdir)) as (D & A & T); [now apply dest_inside|].
  assert (Na : ~ In (annotated_dir workdir) (k_dirs k)) by (apply A, launch_proof.join_inside; reflexivity).
  assert (Nt : ~ In (train_name workdir) (k_dirs k)) by (apply T, launch_proof.join_inside; reflexivity).
  unfold write_files, make_dirs. rewrite (proj2 (exists_taken k _)) by (now left). unfold write_text. fold (train_name workdir).
  rewrite (proj2 (is_dir_in k _) D), (not_dir k _ Nt). cbn [andb negb]. rewrite (wins_are sounds idx wins W). unfold ANNOTATIONS. cbn [save_annotated].
  rewrite nth_py, Ew. cbn [bind]. rewrite Ef. cbn [bind]. fold (annotated_dir workdir). rewrite formats_no_dir by exact Na. eexists. split; [reflexivity|]. split.
  - intros d p Hd Hp. assert (E : p = train_name workdir) by (apply train_path_is; exists d; auto). subst p.
    destruct (train_lines idx trans) as (ts & Pt & Lt). exists ts, (train_text trans idx). split; [exact Pt|]. split; [exact Lt|]. unfold text_at. cbn [k_texts].
    now rewrite get_set, String.eqb_refl.
  - intros p Hp. cbn [k_texts k_figures]. rewrite get_set, get_filter. destruct (String.eqb_spec (train_name workdir) p) as [X|X]; [|auto]. elim Hp. now apply train_path_is.
Qed.
End Files.
