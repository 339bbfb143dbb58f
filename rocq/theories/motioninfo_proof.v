(** * Proofs about the text printed about a motion database. *)

From Coq Require Import List ZArith Arith Bool String Ascii Lia.
Import ListNotations.
From Verif Require Import Py logger_model logger_file serial_model sound_model figures_model table_spec table_proof motion_model motioninfo_model motioninfo_spec.
Local Open Scope string_scope.

Lemma app_assoc_s (a b c : string) : (a ++ b) ++ c = a ++ b ++ c.
Proof. induction a; cbn; congruence. Qed.

Lemma join_sizes dims : join_with ", " ("T" :: map string_of_nat dims) = "T" ++ sizes dims.
Proof.
  assert (H : forall a, join_with ", " (a :: map string_of_nat dims) = a ++ sizes dims).
  { induction dims as [|n dims IH]; intros a; cbn [map sizes].
    - cbn. induction a; cbn; congruence.
    - change (join_with ", " (a :: string_of_nat n :: map string_of_nat dims)) with (a ++ ", " ++ join_with ", " (string_of_nat n :: map string_of_nat dims)).
      now rewrite IH. }
  apply H.
Qed.
Lemma join_lines pre ms : forall m, pre ++ join_with (newline ++ pre) (m :: ms) ++ newline = lines (map (fun m => pre ++ m) (m :: ms)).
Proof.
  induction ms as [|m' ms IH]; intros m.
  - cbn [join_with map lines]. now rewrite app_assoc_s.
  - change (join_with (newline ++ pre) (m :: m' :: ms)) with (m ++ (newline ++ pre) ++ join_with (newline ++ pre) (m' :: ms)).
    change (lines (map (fun m => pre ++ m) (m :: m' :: ms))) with ((pre ++ m) ++ newline ++ lines (map (fun m => pre ++ m) (m' :: ms))).
    rewrite <- IH, !app_assoc_s. reflexivity.
Qed.

Section Info.
Context {Arr : Type}.
Variable shape : Arr -> list nat.

Lemma info (d : motion_db Arr) a ls rest : m_records d = (a, ls) :: rest -> m_markers d <> [] ->
  print_info shape d = (lines (description (tl (shape a)) (m_markers d)), Ok tt).
Proof.
  intros R M. unfold print_info, get_data_dimension. rewrite R. cbn [fst].
  replace (skipn 1 (shape a)) with (tl (shape a)) by (destruct (shape a); reflexivity).
  rewrite join_sizes. f_equal. destruct (m_markers d) as [|m ms]; [contradiction|].
  pose proof (join_lines (tab ++ "- ") ms m) as J.
  change (fun m => (tab ++ "- ") ++ m) with (fun m => String "009" ("- " ++ m)) in J.
  unfold description. cbn [lines]. rewrite <- J, !app_assoc_s. reflexivity.
Qed.
Lemma info_empty (d : motion_db Arr) : m_records d = [] -> print_info shape d = ("", Err ValueError).
Proof. intros R. unfold print_info, get_data_dimension. now rewrite R. Qed.
Lemma info_no_marker (d : motion_db Arr) a ls rest : m_records d = (a, ls) :: rest -> m_markers d = [] ->
  print_info shape d = (lines (description (tl (shape a)) [""]), Ok tt).
Proof.
  intros R M. unfold print_info, get_data_dimension. rewrite R. cbn [fst].
  replace (skipn 1 (shape a)) with (tl (shape a)) by (destruct (shape a); reflexivity).
  rewrite join_sizes, M. f_equal. unfold description. cbn [lines map join_with]. rewrite !app_assoc_s. reflexivity.
Qed.

Lemma cut (P : ascii -> Prop) (a : string) : forall b x y c e, (forall c, In c (list_ascii_of_string a) -> P c) -> (forall c, In c (list_ascii_of_string b) -> P c) ->
  ~ P c -> ~ P e -> a ++ String c x = b ++ String e y -> a = b /\ String c x = String e y.
Proof.
  induction a as [|u a IH]; intros [|v b] x y c e A B N N' H; cbn in H.
  - auto.
  - injection H as -> H. exfalso. apply N, B. now left.
  - injection H as -> H. exfalso. apply N', A. now left.
  - injection H as -> H. destruct (IH b x y c e) as (-> & ->); auto.
    + intros k K. apply A. now right.
    + intros k K. apply B. now right.
Qed.
Lemma lines_inj l : forall l', (forall s, In s l -> one_line s) -> (forall s, In s l' -> one_line s) -> lines l = lines l' -> l = l'.
Proof.
  induction l as [|a l IH]; intros [|b l'] A B H; cbn in H; auto.
  - destruct b; discriminate.
  - destruct a; discriminate.
  - apply (cut (fun c => c <> "010"%char)) in H.
    + destruct H as (-> & H). injection H as H. f_equal. apply IH; auto; intros s S; [apply A|apply B]; now right.
    + intros c C ->. now apply (A a (or_introl eq_refl)).
    + intros c C ->. now apply (B b (or_introl eq_refl)).
    + auto.
    + auto.
Qed.
Lemma chars_app a b : list_ascii_of_string (a ++ b) = (list_ascii_of_string a ++ list_ascii_of_string b)%list.
Proof. induction a; cbn; congruence. Qed.
Lemma one_line_app a b : one_line a -> one_line b -> one_line (a ++ b).
Proof. unfold one_line. intros A B. rewrite chars_app, in_app_iff. tauto. Qed.
Lemma digit_not c : 48 <= nat_of_ascii c <= 57 -> c <> "010"%char /\ c <> ","%char /\ c <> ")"%char.
Proof. intros H. repeat split; intros ->; cbn in H; lia. Qed.
Lemma nat_chars n c : In c (list_ascii_of_string (string_of_nat n)) -> 48 <= nat_of_ascii c <= 57.
Proof. destruct (nat_digits n) as (D & _). exact (D c). Qed.
Lemma sizes_one_line dims : one_line (sizes dims).
Proof.
  induction dims as [|n dims IH]; [intros []|]. cbn [sizes]. apply one_line_app; [cbv; intuition discriminate|]. apply one_line_app; [|exact IH].
  intros I. apply nat_chars in I. cbn in I. lia.
Qed.
Lemma sizes_head dims : exists c x, sizes dims ++ ") array." = String c x /\ ~ 48 <= nat_of_ascii c <= 57.
Proof. destruct dims as [|n dims]; cbn [sizes]; [exists ")"%char, " array."|exists ","%char; eexists]; (split; [reflexivity|cbn; lia]). Qed.
Lemma sizes_inj d : forall d', sizes d ++ ") array." = sizes d' ++ ") array." -> d = d'.
Proof.
  induction d as [|n d IH]; intros [|n' d'] H; cbn [sizes] in H; auto; try discriminate.
  rewrite !app_assoc_s in H. apply str_app_inj_l in H.
  destruct (sizes_head d) as (c & x & E & N), (sizes_head d') as (c' & x' & E' & N').
  rewrite E, E' in H. apply (cut (fun c => 48 <= nat_of_ascii c <= 57)) in H; auto; try (intros k K; exact (nat_chars _ _ K)).
  destruct H as (H & K). apply string_of_nat_inj in H. subst n'. f_equal. apply IH. congruence.
Qed.
Lemma description_one_line dims ms : (forall m, In m ms -> one_line m) -> forall s, In s (description dims ms) -> one_line s.
Proof.
  intros M s [<-|[<-|I]].
  - apply one_line_app; [cbv; intuition discriminate|]. apply one_line_app; [apply sizes_one_line|cbv; intuition discriminate].
  - cbv; intuition discriminate.
  - apply in_map_iff in I. destruct I as (m & <- & I). apply (one_line_app (String "009" "- ")); [cbv; intuition discriminate|auto].
Qed.
Lemma description_inj dims ms dims' ms' : description dims ms = description dims' ms' -> dims = dims' /\ ms = ms'.
Proof.
  unfold description. intros H. 
  assert (H1 : "Each data example is a (T" ++ sizes dims ++ ") array." = "Each data example is a (T" ++ sizes dims' ++ ") array.") by congruence.
  apply str_app_inj_l, sizes_inj in H1. split; auto.
  assert (H2 : map (fun m => String "009" ("- " ++ m)) ms = map (fun m => String "009" ("- " ++ m)) ms') by congruence.
  clear -H2. revert ms' H2. induction ms as [|m ms IH]; intros [|m' ms'] H; cbn in H; try discriminate; auto.
  injection H as H K. f_equal; auto.
Qed.

Lemma info_inj (d d' : motion_db Arr) a ls rest a' ls' rest' :
  m_records d = (a, ls) :: rest -> m_records d' = (a', ls') :: rest' -> m_markers d <> [] -> m_markers d' <> [] ->
  (forall m, In m (m_markers d) -> one_line m) -> (forall m, In m (m_markers d') -> one_line m) ->
  fst (print_info shape d) = fst (print_info shape d') -> m_markers d = m_markers d' /\ tl (shape a) = tl (shape a').
Proof.
  intros R R' M M' L L' H. rewrite (info _ _ _ _ R M), (info _ _ _ _ R' M') in H. cbn [fst] in H.
  apply lines_inj in H; [|now apply description_one_line|now apply description_one_line].
  apply description_inj in H. tauto.
Qed.

Lemma load_result k location verbose : snd (load_printing shape k location verbose) = load_from_npz shape k location verbose.
Proof.
  unfold load_printing, print_info. destruct verbose.
  - unfold load_from_npz. destruct (dict_get _ _ _) as [[v|]|]; try reflexivity. cbn [bind].
    repeat match goal with |- context [bind ?x _] => destruct x; cbn [bind]; [|reflexivity] end.
    reflexivity.
  - destruct (load_from_npz shape k location false); reflexivity.
Qed.
Lemma load_text k location d : load_from_npz shape k location false = Ok d ->
  (forall a ls rest, m_records d = (a, ls) :: rest -> m_markers d <> [] ->
     load_printing shape k location true = (lines (count_line (List.length (m_records d)) (m_name d) :: description (tl (shape a)) (m_markers d)), Ok d)) /\
  (m_records d = [] -> load_printing shape k location true = (lines [count_line 0 (m_name d)], Err ValueError)) /\
  load_printing shape k location false = ("", Ok d).
Proof.
  intros L. unfold load_printing. rewrite L. repeat split.
  - intros a ls rest R M. rewrite (info _ _ _ _ R M). f_equal. unfold count_line. cbn [lines]. rewrite !app_assoc_s. reflexivity.
  - intros R. rewrite info_empty by exact R. rewrite R. f_equal. unfold count_line. cbn [lines]. rewrite !app_assoc_s. reflexivity.
Qed.
Lemma load_fails k location verbose e : load_from_npz shape k location false = Err e -> load_printing shape k location verbose = ("", Err e).
Proof. intros L. unfold load_printing. now rewrite L. Qed.
End Info.
