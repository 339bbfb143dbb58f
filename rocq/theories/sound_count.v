(** * Lemmas: counts, statistics and paths of sound databases. *)

From Coq Require Import List ZArith Arith Bool String Ascii Lia.
Import ListNotations.
From Verif Require Import Py Py_proof logger_model serial_model sound_model sound_spec sound_proof.
Local Open Scope nat_scope.
Open Scope py_scope.

Definition cell (m : list (list nat)) (t u : nat) : nat := nth u (nth t m []) 0.
Definition square (n : nat) (m : list (list nat)) : Prop := List.length m = n /\ Forall (fun r => List.length r = n) m.

Lemma nth_list_set {A} (l : list A) k x i dflt : k < List.length l -> nth i (list_set l k x) dflt = if Nat.eqb i k then x else nth i l dflt.
Proof.
  revert k i. induction l as [|y l IH]; intros [|k] [|i] L; cbn in *; try lia; auto.
  rewrite IH by lia. reflexivity.
Qed.
Lemma row_length n m t : square n m -> t < n -> List.length (nth t m []) = n.
Proof. intros (L & F) T. rewrite Forall_forall in F. apply F. apply nth_In. lia. Qed.
Lemma py_nth_in {A} (l : list A) k dflt : k < List.length l -> py_nth l (Z.of_nat k) = Ok (nth k l dflt).
Proof. intros L. unfold py_nth. rewrite norm_index_nonneg, (proj2 (Nat.ltb_lt _ _) L). cbn [bind]. rewrite (nth_error_nth' l dflt L). reflexivity. Qed.
Lemma py_set_in {A} (l : list A) k x : k < List.length l -> py_set l (Z.of_nat k) x = Ok (list_set l k x).
Proof. intros L. unfold py_set. rewrite norm_index_nonneg, (proj2 (Nat.ltb_lt _ _) L). reflexivity. Qed.
Lemma incr_ok n m t u : square n m -> t < n -> u < n -> exists m', incr m (Z.of_nat t) (Z.of_nat u) = Ok m' /\ square n m' /\
  forall a b, a < n -> cell m' a b = cell m a b + (if Nat.eqb a t && Nat.eqb b u then 1 else 0).
Proof.
  intros S T U. pose proof S as (L & F). pose proof (row_length n m t S T) as RL. unfold incr.
  rewrite (py_nth_in m t []) by lia. cbn [bind]. rewrite (py_nth_in _ u 0) by lia. cbn [bind]. rewrite py_set_in by lia. cbn [bind].
  rewrite py_set_in by lia. eexists. split; [reflexivity|]. split.
  - split; [rewrite list_set_length; exact L|]. apply Forall_forall. intros r I. apply In_list_set in I. destruct I as [->|I].
    + rewrite list_set_length. exact RL.
    + rewrite Forall_forall in F. auto.
  - intros a b A. unfold cell. rewrite nth_list_set by lia. destruct (Nat.eqb_spec a t) as [->|N]; cbn [andb]; [|lia].
    rewrite nth_list_set by lia. destruct (Nat.eqb_spec b u) as [->|]; lia.
Qed.

Definition occ (us : list Z) (b : nat) : nat := count_occ Z.eq_dec us (Z.of_nat b).
Definition valid (n : nat) (ts : list Z) : Prop := forall t, In t ts -> (0 <= t < Z.of_nat n)%Z.
Lemma occ_cons z us b : occ (z :: us) b = (if Z.eq_dec z (Z.of_nat b) then 1 else 0) + occ us b.
Proof. unfold occ. cbn [count_occ]. destruct (Z.eq_dec z (Z.of_nat b)); lia. Qed.
Lemma inner_ok n t us : forall m, square n m -> t < n -> valid n us -> exists m',
  foldM (fun counts u => if negb (Z.of_nat t =? u)%Z then incr counts (Z.of_nat t) u else Ok counts) us m = Ok m' /\ square n m' /\
  forall a b, a < n -> cell m' a b = cell m a b + (if Nat.eqb a t && negb (Nat.eqb a b) then occ us b else 0).
Proof.
  induction us as [|u us IH]; intros m S T V; cbn [foldM].
  - exists m. split; [reflexivity|]. split; [exact S|]. intros a b A. destruct (_ && _); cbn; lia.
  - assert (U : (0 <= u < Z.of_nat n)%Z) by (apply V; left; reflexivity).
    assert (V' : valid n us) by (intros x I; apply V; right; exact I).
    destruct (Z.eqb_spec (Z.of_nat t) u) as [E|N]; cbn [negb bind].
    + destruct (IH m S T V') as (m' & E' & S' & H). exists m'. split; [exact E'|]. split; [exact S'|]. intros a b A. rewrite (H a b A).
      destruct (Nat.eqb_spec a t) as [->|]; cbn [andb]; [|lia]. destruct (Nat.eqb_spec t b) as [->|NB]; cbn [negb]; [lia|].
      rewrite occ_cons. destruct (Z.eq_dec u (Z.of_nat b)); lia.
    + destruct (incr_ok n m t (Z.to_nat u) S T ltac:(lia)) as (m1 & E1 & S1 & H1). rewrite Z2Nat.id in E1 by lia. rewrite E1. cbn [bind].
      destruct (IH m1 S1 T V') as (m' & E' & S' & H). exists m'. split; [exact E'|]. split; [exact S'|]. intros a b A. rewrite (H a b A), (H1 a b A).
      destruct (Nat.eqb_spec a t) as [->|]; cbn [andb]; [|lia]. rewrite occ_cons.
      destruct (Nat.eqb_spec t b) as [->|NB]; cbn [negb].
      * destruct (Nat.eqb_spec b (Z.to_nat u)); lia.
      * destruct (Nat.eqb_spec b (Z.to_nat u)), (Z.eq_dec u (Z.of_nat b)); lia.
Qed.
Lemma outer_ok n us ts : forall m, square n m -> valid n ts -> valid n us -> exists m',
  foldM (fun counts t => foldM (fun counts u => if negb (t =? u)%Z then incr counts t u else Ok counts) us counts) ts m = Ok m' /\ square n m' /\
  forall a b, a < n -> cell m' a b = cell m a b + (if negb (Nat.eqb a b) then occ ts a * occ us b else 0).
Proof.
  induction ts as [|t ts IH]; intros m S V VU; cbn [foldM].
  - exists m. split; [reflexivity|]. split; [exact S|]. intros a b A. destruct (negb _); cbn; lia.
  - assert (T : (0 <= t < Z.of_nat n)%Z) by (apply V; left; reflexivity).
    assert (V' : valid n ts) by (intros x I; apply V; right; exact I).
    destruct (inner_ok n (Z.to_nat t) us m S ltac:(lia) VU) as (m1 & E1 & S1 & H1). rewrite Z2Nat.id in E1 by lia. rewrite E1. cbn [bind].
    destruct (IH m1 S1 V' VU) as (m' & E' & S' & H). exists m'. split; [exact E'|]. split; [exact S'|]. intros a b A. rewrite (H a b A), (H1 a b A).
    rewrite occ_cons. destruct (Nat.eqb_spec a (Z.to_nat t)), (Z.eq_dec t (Z.of_nat a)); try lia; cbn [andb]; destruct (negb _); lia.
Qed.

Section Proof.
Context {Arr : Type}.
Notation record := (record Arr).
Notation database := (database Arr).
Implicit Types d : database.
Definition pairs (rs : list record) (a b : nat) : nat := if negb (Nat.eqb a b) then list_sum (map (fun r => times a r * times b r) rs) else 0.
Lemma pairs_together rs a b : pairs rs a b = together rs a b.
Proof. unfold pairs, together. destruct (Nat.eqb a b); reflexivity. Qed.
Lemma records_count n (rs : list record) : forall m, square n m -> (forall r, In r rs -> valid n (r_tags r)) -> exists m',
  foldM (fun counts r => foldM (fun counts t => foldM (fun counts u =>
      if negb (t =? u)%Z then incr counts t u else Ok counts) (r_tags r) counts) (r_tags r) counts) rs m = Ok m' /\ square n m' /\
  forall a b, a < n -> cell m' a b = cell m a b + pairs rs a b.
Proof.
  induction rs as [|r rs IH]; intros m S V; cbn [foldM].
  - exists m. split; [reflexivity|]. split; [exact S|]. intros a b A. unfold pairs. destruct (negb _); cbn; lia.
  - assert (VR : valid n (r_tags r)) by (apply V; left; reflexivity).
    destruct (outer_ok n (r_tags r) (r_tags r) m S VR VR) as (m1 & E1 & S1 & H1). rewrite E1. cbn [bind].
    destruct (IH m1 S1) as (m' & E' & S' & H); [intros x I; apply V; right; exact I|]. exists m'. split; [exact E'|]. split; [exact S'|].
    intros a b A. rewrite (H a b A), (H1 a b A). unfold pairs. destruct (negb _); [|lia]. cbn [map list_sum fold_right]. unfold times, occ.
    unfold list_sum. lia.
Qed.
Lemma pairs_app l l' a b : pairs (l ++ l') a b = pairs l a b + pairs l' a b.
Proof. unfold pairs. destruct (negb _); [|reflexivity]. rewrite map_app, list_sum_app. reflexivity. Qed.
Lemma speakers_count n (ss : list (list record)) : forall m, square n m -> (forall rs r, In rs ss -> In r rs -> valid n (r_tags r)) -> exists m',
  foldM (fun counts s => foldM (fun counts r => foldM (fun counts t => foldM (fun counts u =>
      if negb (t =? u)%Z then incr counts t u else Ok counts) (r_tags r) counts) (r_tags r) counts) s counts) ss m = Ok m' /\ square n m' /\
  forall a b, a < n -> cell m' a b = cell m a b + pairs (List.concat ss) a b.
Proof.
  induction ss as [|s ss IH]; intros m S V; cbn [foldM List.concat].
  - exists m. split; [reflexivity|]. split; [exact S|]. intros a b A. unfold pairs. destruct (negb _); cbn; lia.
  - destruct (records_count n s m S) as (m1 & E1 & S1 & H1); [intros r I; apply (V s); [left; reflexivity|exact I]|]. rewrite E1. cbn [bind].
    destruct (IH m1 S1) as (m' & E' & S' & H); [intros rs r I J; apply (V rs); [right; exact I|exact J]|]. exists m'. split; [exact E'|]. split; [exact S'|].
    intros a b A. rewrite (H a b A), (H1 a b A), pairs_app. lia.
Qed.
Lemma counts_ok d : (forall rs r t, In rs (d_records d) -> In r rs -> In t (r_tags r) -> (0 <= t < Z.of_nat (List.length (d_tags d)))%Z) ->
  let n := List.length (d_tags d) in
  exists c, count_by_keywords d = Ok c /\ List.length c = n /\ Forall (fun row => List.length row = n) c /\
    (forall t u, t < n -> u < n -> nth u (nth t c []) 0 = together (List.concat (d_records d)) t u) /\
    (forall t u, t < n -> u < n -> nth u (nth t c []) 0 = nth t (nth u c []) 0) /\
    (forall t, t < n -> nth t (nth t c []) 0 = 0).
Proof.
  intros V n. destruct (speakers_count n (d_records d) (repeat (repeat 0 n) n)) as (c & E & (L & F) & H).
  - split; [apply repeat_length|]. apply Forall_forall. intros r I. apply repeat_spec in I. subst. apply repeat_length.
  - intros rs r I J t T. exact (V rs r t I J T).
  - assert (H' : forall t u, t < n -> nth u (nth t c []) 0 = together (List.concat (d_records d)) t u).
    { intros t u T. specialize (H t u T). rewrite pairs_together in H. unfold cell in H. rewrite H.
      replace (nth u (nth t (repeat (repeat 0 n) n) []) 0) with 0; [reflexivity|].
      destruct (nth_in_or_default t (repeat (repeat 0 n) n) []) as [I|I]; [apply repeat_spec in I|]; rewrite I; [|destruct u; reflexivity].
      destruct (nth_in_or_default u (repeat 0 n) 0) as [I2|I2]; [apply repeat_spec in I2|]; auto. }
    exists c. split; [exact E|]. split; [exact L|]. split; [exact F|]. split; [intros t u T _; apply H', T|]. split.
    + intros t u T U. rewrite (H' t u T), (H' u t U). unfold together. rewrite (Nat.eqb_sym u t). destruct (Nat.eqb t u); [reflexivity|].
      f_equal. apply map_ext. intros r. lia.
    + intros t T. rewrite (H' t t T). unfold together. rewrite Nat.eqb_refl. reflexivity.
Qed.
Lemma size_ok d : size d = List.length (List.concat (d_records d)).
Proof. unfold size. induction (d_records d) as [|s ss IH]; cbn; [reflexivity|]. rewrite app_length. unfold list_sum in IH. lia. Qed.

Lemma statistics_fails d : (d_records d <> [] -> statistics d = Err TypeError) /\
  (statistics d = Ok tt <-> d_records d = [] /\ d_tags d = []).
Proof.
  unfold statistics, all_records. destruct (d_records d) as [|s ss]; cbn [join_objects bind].
  - cbn [List.concat foldM bind]. destruct (d_tags d) as [|t ts]; cbn [join_objects bind].
    + split; [congruence|]. split; auto.
    + split; [congruence|]. split; [discriminate|intros (_ & [=])].
  - split; [reflexivity|]. split; [discriminate|intros ([=] & _)].
Qed.

(** ** Paths *)
Local Open Scope string_scope.
Lemma ends_directory s : directory s -> ends_with_slash s = false /\ s <> "".
Proof.
  intros (a & c & -> & N). split.
  - induction a as [|x a IH]; cbn [String.append ends_with_slash].
    + destruct (Ascii.eqb_spec c "/"%char); [contradiction|reflexivity].
    + destruct (a ++ String c "") eqn:E; [destruct a; discriminate|exact IH].
  - destruct a; discriminate.
Qed.
Lemma starts_plain s : plain_name s -> starts_with_slash s = false.
Proof.
  intros (_ & N). destruct s as [|c s]; [reflexivity|]. cbn. destruct (Ascii.eqb_spec c "/"%char) as [->|]; [|reflexivity].
  destruct N. left. reflexivity.
Qed.
Lemma join_directory a b : directory a -> plain_name b -> path_join a b = a ++ "/" ++ b.
Proof.
  intros A B. unfold path_join. rewrite (starts_plain b B). destruct (ends_directory a A) as (E & N). rewrite E. destruct a; [congruence|reflexivity].
Qed.
Lemma join_empty a : directory a -> path_join a "" = a ++ "/".
Proof. intros A. unfold path_join. cbn. destruct (ends_directory a A) as (E & N). rewrite E. destruct a; [congruence|reflexivity]. Qed.
Lemma append_assoc (a b c : string) : (a ++ b) ++ c = a ++ b ++ c.
Proof. induction a as [|x a IH]; cbn; [reflexivity|]. now rewrite IH. Qed.
Lemma ends_slash a : ends_with_slash (a ++ "/") = true.
Proof. induction a as [|x a IH]; [reflexivity|]. cbn [String.append ends_with_slash]. destruct (a ++ "/") eqn:E; [destruct a; discriminate|exact IH]. Qed.
Lemma join_slash a b : plain_name b -> path_join (a ++ "/") b = a ++ "/" ++ b.
Proof.
  intros B. unfold path_join. rewrite (starts_plain b B), ends_slash. destruct (a ++ "/") eqn:E; [destruct a; discriminate|]. rewrite <- E. apply append_assoc.
Qed.
Lemma plain_directory s : plain_name s -> directory s.
Proof.
  intros (NE & N). induction s as [|c s IH]; [congruence|]. destruct s as [|c' s].
  - exists "", c. split; [reflexivity|]. intros ->. destruct N. left. reflexivity.
  - destruct IH as (a & x & E & X); [discriminate|intros I; apply N; right; exact I|]. exists (String c a), x. rewrite E. auto.
Qed.
Lemma directory_app a s : directory s -> directory (a ++ s).
Proof. intros (b & c & -> & N). exists (a ++ b), c. rewrite append_assoc. auto. Qed.
Lemma audio_path d (r : record) root s a : d_root d = VStr root -> directory root -> py_nth (d_spkrs d) (r_spkr_id r) = Ok s -> plain_name s ->
  r_audio r = VStr a -> plain_name a ->
  get_audio_path "" d r = Ok (root ++ "/" ++ s ++ "/" ++ a) /\
  forall wav, plain_name wav -> get_audio_path wav d r = Ok (root ++ "/" ++ wav ++ "/" ++ s ++ "/" ++ a).
Proof.
  intros RT D S PS A PA. unfold get_audio_path, get_wav_dir. rewrite S, RT, A. cbn [bind as_string]. split; [|intros wav W]; f_equal.
  - rewrite (join_empty root D), (join_slash root s PS). rewrite join_directory; [rewrite !append_assoc; reflexivity| |exact PA].
    apply directory_app, (directory_app "/"), plain_directory, PS.
  - rewrite (join_directory root wav D W). rewrite (join_directory _ s); [| |exact PS].
    + rewrite join_directory; [rewrite !append_assoc; reflexivity| |exact PA]. apply directory_app, (directory_app "/"), plain_directory, PS.
    + apply directory_app, (directory_app "/"), plain_directory, W.
Qed.
Lemma slash_split s : forall s' a a', plain_name s -> plain_name s' -> s ++ "/" ++ a = s' ++ "/" ++ a' -> s = s' /\ a = a'.
Proof.
  assert (H : forall s s' a a', ~ In slash (list_ascii_of_string s) -> ~ In slash (list_ascii_of_string s') -> s ++ "/" ++ a = s' ++ "/" ++ a' -> s = s' /\ a = a').
  { clear s. induction s as [|c s IH]; intros [|c' s'] a a' N N' E; cbn in E.
    - injection E as ->. auto.
    - injection E as <- _. destruct N'. left. reflexivity.
    - injection E as -> _. destruct N. left. reflexivity.
    - injection E as -> E. destruct (IH s' a a') as (-> & ->); auto; intros I; [apply N|apply N']; right; exact I. }
  intros s' a a' (_ & N) (_ & N'). apply H; assumption.
Qed.
Lemma app_cancel p a b : p ++ a = p ++ b -> a = b.
Proof. induction p as [|c p IH]; cbn; [auto|]. intros [= E]. auto. Qed.
Lemma paths_differ d (r r' : record) root s s' a a' : d_root d = VStr root -> directory root ->
  py_nth (d_spkrs d) (r_spkr_id r) = Ok s -> plain_name s -> r_audio r = VStr a -> plain_name a ->
  py_nth (d_spkrs d) (r_spkr_id r') = Ok s' -> plain_name s' -> r_audio r' = VStr a' -> plain_name a' ->
  get_audio_path "" d r = get_audio_path "" d r' -> s = s' /\ a = a'.
Proof.
  intros RT D S PS A PA S' PS' A' PA' E. rewrite (proj1 (audio_path d r root s a RT D S PS A PA)), (proj1 (audio_path d r' root s' a' RT D S' PS' A' PA')) in E.
  injection E as E. apply app_cancel in E. injection E as E. apply slash_split; assumption.
Qed.
End Proof.
