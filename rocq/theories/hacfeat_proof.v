(** * Codebooks and features of sounds: proofs. *)

From Coq Require Import List ZArith Arith Bool String Ascii Lia.
Import ListNotations.
From Verif Require Import Py Py_proof utils_model logger_model serial_model sound_model sound_spec sound_proof hac_model hac_spec hac_proof
  angle_model angle_proof acorns_model acorns_spec acorns_proof acorns_load vctk_model motion_proof hacfeat_model hacfeat_spec.
Open Scope py_scope.
Local Open Scope nat_scope.

Lemma F2_map_right {A B C} (P : A -> C -> Prop) (f : B -> C) l l' : Forall2 P l (map f l') <-> Forall2 (fun a b => P a (f b)) l l'.
Proof.
  revert l'. induction l as [|a l IH]; intros [|b l']; cbn; split; intros H; inversion H; subst; constructor; try assumption; apply IH; assumption.
Qed.

Lemma F2_imp {A B} (P Q : A -> B -> Prop) l l' : (forall a b, P a b -> Q a b) -> Forall2 P l l' -> Forall2 Q l l'.
Proof. intros I H. induction H; constructor; auto. Qed.

Section Codebooks.
Context {F Sound : Type}.
Variable zero : F.
Variable wavs : string -> result Sound.
Variable mfcc : Sound -> result (mat F).
Variable delta : mat F -> nat -> result (mat F).
Variable kmeans2 iterative_kmeans : mat F -> Z -> result (mat F).

Lemma vstack_rows {A} (xs : list (mat A)) v : vstack xs = Ok v -> mrows v = List.concat (map (@mrows A) xs).
Proof.
  intros E. unfold vstack in E. destruct xs as [|x xs]; [discriminate E|]. destruct (forallb _ _); [|discriminate E].
  injection E as <-. cbn [mrows map List.concat]. rewrite flat_map_concat_map. reflexivity.
Qed.

Lemma sounds_read names mfccs : mapM (fun w => s <- wavs w ;; mfcc s) names = Ok mfccs ->
  Forall2 (fun w m => exists s, wavs w = Ok s /\ mfcc s = Ok m) names mfccs.
Proof.
  intros E. apply mapM_ok in E. revert E. apply F2_imp. intros w m E. apply bind_ok in E. destruct E as (s & A & B). exists s. split; assumption.
Qed.

Lemma pooled_0 names mfccs data : Forall2 (fun w m => exists s, wavs w = Ok s /\ mfcc s = Ok m) names mfccs ->
  vstack (map (transpose zero) mfccs) = Ok data -> pooled zero wavs mfcc delta 0 names data.
Proof.
  intros R V. exists mfccs. split.
  - revert R. apply F2_imp. intros w m (s & A & B). exists s. split; [exact A|]. exists m. split; [exact B|reflexivity].
  - apply vstack_rows in V. rewrite V, map_map. reflexivity.
Qed.

Lemma pooled_d i names mfccs ds data : i <> 0 -> Forall2 (fun w m => exists s, wavs w = Ok s /\ mfcc s = Ok m) names mfccs ->
  mapM (fun m => delta m i) mfccs = Ok ds -> vstack (map (transpose zero) ds) = Ok data -> pooled zero wavs mfcc delta i names data.
Proof.
  intros I R D V. exists ds. split.
  - apply mapM_ok in D. clear V. revert ds D. induction R as [|w m names mfccs (s & A & B) R IH]; intros ds D; inversion D; subst; constructor.
    + exists s. split; [exact A|]. exists m. split; [exact B|]. destruct i; [congruence|assumption].
    + apply IH. assumption.
  - apply vstack_rows in V. rewrite V, map_map. reflexivity.
Qed.

Lemma built names ks mode cs : build_codebooks_from_list_of_wav zero wavs mfcc delta kmeans2 iterative_kmeans names ks mode = Ok cs ->
  List.length cs = 3 /\ forall i, i < 3 -> exists data k c, nth_error ks i = Some k /\ nth_error cs i = Some c /\
    pooled zero wavs mfcc delta i names data /\
    ((mode = "raw"%string /\ kmeans2 data k = Ok c) \/ (mode = "iterative"%string /\ iterative_kmeans data k = Ok c)).
Proof.
  intros E. unfold build_codebooks_from_list_of_wav in E.
  apply bind_ok in E. destruct E as (mfccs & EM & E). apply sounds_read in EM.
  apply bind_ok in E. destruct E as (d0 & E0 & E). apply bind_ok in E. destruct E as (k0 & EK0 & E). apply bind_ok in E. destruct E as (c0 & EC0 & E).
  apply bind_ok in E. destruct E as (ds & ED & E).
  apply bind_ok in E. destruct E as (d1 & E1 & E). apply bind_ok in E. destruct E as (k1 & EK1 & E). apply bind_ok in E. destruct E as (c1 & EC1 & E).
  apply bind_ok in E. destruct E as (dds & EDD & E).
  apply bind_ok in E. destruct E as (d2 & E2 & E). apply bind_ok in E. destruct E as (k2 & EK2 & E). apply bind_ok in E. destruct E as (c2 & EC2 & E).
  injection E as <-. split; [reflexivity|].
  assert (M : forall data k c, build_codebook kmeans2 iterative_kmeans data k mode = Ok c ->
    (mode = "raw"%string /\ kmeans2 data k = Ok c) \/ (mode = "iterative"%string /\ iterative_kmeans data k = Ok c)).
  { intros data k c B. unfold build_codebook in B. destruct (String.eqb_spec mode "raw"); [left; split; assumption|].
    destruct (String.eqb_spec mode "iterative"); [right; split; assumption|discriminate B]. }
  assert (N : forall i k, py_nth ks (Z.of_nat i) = Ok k -> nth_error ks i = Some k).
  { intros i k P. unfold py_nth in P. rewrite norm_index_nonneg in P. destruct (Nat.ltb_spec i (List.length ks)); [|discriminate P].
    cbn [bind] in P. destruct (nth_error ks i); [congruence|discriminate P]. }
  intros [|[|[|i]]] I; [| | |lia].
  - exists d0, k0, c0. split; [exact (N 0 _ EK0)|]. split; [reflexivity|]. split; [exact (pooled_0 _ _ _ EM E0)|exact (M _ _ _ EC0)].
  - exists d1, k1, c1. split; [exact (N 1 _ EK1)|]. split; [reflexivity|]. split; [exact (pooled_d 1 _ _ _ _ ltac:(lia) EM ED E1)|exact (M _ _ _ EC1)].
  - exists d2, k2, c2. split; [exact (N 2 _ EK2)|]. split; [reflexivity|]. split; [exact (pooled_d 2 _ _ _ _ ltac:(lia) EM EDD E2)|exact (M _ _ _ EC2)].
Qed.

Lemma stacks n (ms : list (mat F)) : ms <> [] -> Forall (fun m => List.length (mrows m) = n) ms ->
  exists v, vstack (map (transpose zero) ms) = Ok v /\ mcols v = n.
Proof.
  intros N H. eexists. split; [apply (vstack_ok _ n)|].
  - destruct ms; [congruence|discriminate].
  - clear N. induction H as [|m ms E H IH]; cbn [map]; constructor; [exact E|exact IH].
  - reflexivity.
Qed.

Lemma buildable n names k0 k1 k2 rest : names <> [] -> Forall (readable wavs mfcc delta n) names -> gives_k kmeans2 ->
  (0 < k0)%Z -> (0 < k1)%Z -> (0 < k2)%Z ->
  exists c0 c1 c2, build_codebooks_from_list_of_wav zero wavs mfcc delta kmeans2 iterative_kmeans names (k0 :: k1 :: k2 :: rest) "raw" = Ok [c0; c1; c2] /\
    shape c0 = (Z.to_nat k0, n) /\ shape c1 = (Z.to_nat k1, n) /\ shape c2 = (Z.to_nat k2, n).
Proof.
  intros N R K P0 P1 P2.
  assert (exists mfccs ds dds, mapM (fun w => s <- wavs w ;; mfcc s) names = Ok mfccs /\ mapM (fun m => delta m 1) mfccs = Ok ds /\
    mapM (fun m => delta m 2) mfccs = Ok dds /\ List.length mfccs = List.length names /\ List.length ds = List.length names /\ List.length dds = List.length names /\
    Forall (fun m => List.length (mrows m) = n) mfccs /\ Forall (fun m => List.length (mrows m) = n) ds /\ Forall (fun m => List.length (mrows m) = n) dds)
    as (mfccs & ds & dds & EM & ED & EDD & LM & LD & LDD & FM & FD & FDD).
  { clear N. induction R as [|w names (s & m & d1 & d2 & W & M & D1 & D2 & L & L1 & L2) R IH]; [exists [], [], []; repeat split; constructor|].
    destruct IH as (mfccs & ds & dds & EM & ED & EDD & LM & LD & LDD & FM & FD & FDD).
    exists (m :: mfccs), (d1 :: ds), (d2 :: dds). cbn [mapM]. rewrite W. cbn [bind]. rewrite M, EM. cbn [bind]. rewrite D1, D2, ED, EDD. cbn.
    repeat split; try congruence; constructor; assumption. }
  assert (NM : mfccs <> [] /\ ds <> [] /\ dds <> []).
  { destruct names; [congruence|]. destruct mfccs; [discriminate LM|]. destruct ds; [discriminate LD|]. destruct dds; [discriminate LDD|]. repeat split; discriminate. }
  destruct NM as (NM & ND & NDD).
  destruct (stacks n mfccs NM FM) as (v0 & V0 & C0). destruct (stacks n ds ND FD) as (v1 & V1 & C1). destruct (stacks n dds NDD FDD) as (v2 & V2 & C2).
  destruct (K v0 k0 P0) as (c0 & B0 & S0 & Z0). destruct (K v1 k1 P1) as (c1 & B1 & S1 & Z1). destruct (K v2 k2 P2) as (c2 & B2 & S2 & Z2).
  exists c0, c1, c2. unfold build_codebooks_from_list_of_wav. rewrite EM. cbn [bind]. rewrite V0. cbn [bind].
  replace (py_nth (k0 :: k1 :: k2 :: rest) 0) with (Ok k0) by (symmetry; exact (py_nth_at (k0 :: k1 :: k2 :: rest) 0 k0 eq_refl)).
  replace (py_nth (k0 :: k1 :: k2 :: rest) 1) with (Ok k1) by (symmetry; exact (py_nth_at (k0 :: k1 :: k2 :: rest) 1 k1 eq_refl)).
  replace (py_nth (k0 :: k1 :: k2 :: rest) 2) with (Ok k2) by (symmetry; exact (py_nth_at (k0 :: k1 :: k2 :: rest) 2 k2 eq_refl)).
  cbn [bind].
  unfold build_codebook. change (String.eqb "raw" "raw") with true. cbn iota. rewrite B0. cbn [bind]. rewrite ED. cbn [bind]. rewrite V1. cbn [bind]. rewrite B1. cbn [bind].
  rewrite EDD. cbn [bind]. rewrite V2. cbn [bind]. rewrite B2. cbn [bind]. split; [reflexivity|]. unfold shape. repeat split; congruence.
Qed.
Lemma acorns_codebook {Arr} py3 (fs : files Arr) db_dir id ks cs :
  build_acorns_codebook zero wavs mfcc delta kmeans2 iterative_kmeans py3 fs db_dir id ks = Ok cs ->
  exists d1 d2 names1 names2, acorns_model.load py3 fs db_dir (id 1%Z) 1 None false = Ok d1 /\ acorns_model.load py3 fs db_dir (id 2%Z) 2 None false = Ok d2 /\
    Forall2 (fun r p => sound_model.get_audio_path "WAV"%string d1 r = Ok p) (List.concat (d_records d1)) names1 /\
    Forall2 (fun r p => sound_model.get_audio_path "WAV"%string d2 r = Ok p) (List.concat (d_records d2)) names2 /\
    List.length cs = 3 /\ forall i, i < 3 -> exists data k c, nth_error ks i = Some k /\ nth_error cs i = Some c /\
      pooled zero wavs mfcc delta i (names1 ++ names2) data /\ kmeans2 data k = Ok c.
Proof.
  unfold build_acorns_codebook. intros H.
  destruct (acorns_model.load py3 fs db_dir (id 1%Z) 1 None false) as [d1|e] eqn:E1; [|discriminate H]. cbn [bind] in H.
  destruct (acorns_model.load py3 fs db_dir (id 2%Z) 2 None false) as [d2|e] eqn:E2; [|discriminate H]. cbn [bind] in H.
  destruct (mapM (acorns_audio d1) (List.concat (d_records d1))) as [n1|e] eqn:N1; [|discriminate H]. cbn [bind] in H.
  destruct (mapM (acorns_audio d2) (List.concat (d_records d2))) as [n2|e] eqn:N2; [|discriminate H]. cbn [bind] in H.
  apply mapM_ok in N1. apply mapM_ok in N2. exists d1, d2, n1, n2. do 4 (split; [first [reflexivity|assumption]|]).
  destruct (built _ _ _ _ H) as (L & B). split; [exact L|]. intros i I. destruct (B i I) as (data & k & c & K & C & P & [(_ & Q)|(M & _)]); [|discriminate M].
  exists data, k, c. auto.
Qed.
End Codebooks.

(** ** Files *)
Section Files.
Context {F : Type}.
Notation store := (list (string * mat_file F)).

Lemma cells_kept (l : list (mat F)) a b : In a l -> In b l -> shape a <> shape b -> stored (Cells l) = Cells l.
Proof.
  intros A B D. unfold stored. replace (same_shapes l) with false; [reflexivity|]. symmetry.
  destruct (same_shapes l) eqn:E; [|reflexivity]. exfalso. apply D. unfold same_shapes in E. rewrite forallb_forall in E.
  specialize (E a A). rewrite forallb_forall in E. specialize (E b B). apply andb_true_iff in E. destruct E as (E1 & E2).
  apply Nat.eqb_eq in E1, E2. destruct (shape a), (shape b). cbn in *. congruence.
Qed.

Lemma cells_lost (l : list (mat F)) s : Forall (fun m => shape m = s) l -> exists x, stored (Cells l) = Numbers x.
Proof.
  intros H. unfold stored. replace (same_shapes l) with true; [eexists; reflexivity|]. symmetry. unfold same_shapes.
  rewrite Forall_forall in H. apply forallb_forall. intros a A. apply forallb_forall. intros b B. rewrite (H a A), (H b B), !Nat.eqb_refl. reflexivity.
Qed.

Definition feature_path (dir : string) (year : Z) (k : nat) : string := path_join dir (feature_file_name year (Z.of_nat k)).
Lemma feature_paths dir y k y' k' : feature_path dir y k = feature_path dir y' k' -> y = y' /\ k = k'.
Proof.
  intros E. apply join_cancel in E; [|reflexivity|reflexivity]. apply file_names in E. destruct E as (-> & E). split; [reflexivity|lia].
Qed.
Lemma not_codebook dir y k : feature_path dir y k <> CODEBOOK_PATH dir.
Proof. intros E. apply join_cancel in E; [discriminate E|reflexivity|reflexivity]. Qed.
End Files.

Section Features.
Context {F Sound Arr : Type}.
Variable zero : F.
Variable wavs : string -> result Sound.
Variable mfcc : Sound -> result (mat F).
Variable delta : mat F -> nat -> result (mat F).
Variable vq : mat F -> mat F -> result (list Z).
Notation store := (list (string * mat_file F)).
Notation database := (database Arr).
Notation record := (record Arr).
Notation speakers := (save_speakers zero wavs mfcc delta vq).
Notation years := (save_years zero wavs mfcc delta vq).

(** Width of the rows. *)
Definition widths (cs : list (mat F)) : nat := list_sum (map (fun c => 2 * (List.length (mrows c) * List.length (mrows c))) (firstn 3 cs)).

Lemma cooc_width q n lag v : codes n q -> (0 <= n)%Z -> 1 <= lag -> coocurrences q n (Z.of_nat lag) = Ok v -> List.length v = Z.to_nat (n * n).
Proof. intros C N L E. destruct (counts q n lag C N L) as (v' & E' & (LV & _)). congruence. Qed.

Lemma block_width data c v : gives_codes vq -> compute_coocurrences F vq data c [5; 2]%Z = Ok v ->
  List.length v = 2 * (List.length (mrows c) * List.length (mrows c)).
Proof.
  intros G E. unfold compute_coocurrences in E. apply bind_ok in E. destruct E as (q & EQ & E). apply G in EQ.
  apply bind_ok in E. destruct E as (l & EL & E). cbn [mapM] in EL.
  apply bind_ok in EL. destruct EL as (a & EA & EL). apply bind_ok in EL. destruct EL as (r & ER & EL). injection EL as <-.
  apply bind_ok in ER. destruct ER as (b & EB & ER). apply bind_ok in ER. destruct ER as (r' & ER' & ER). injection ER as <-. injection ER' as <-.
  cbn in E. injection E as <-. rewrite !app_length. change 5%Z with (Z.of_nat 5) in EA. change 2%Z with (Z.of_nat 2) in EB.
  apply cooc_width in EA; [|exact EQ|lia|lia]. apply cooc_width in EB; [|exact EQ|lia|lia]. rewrite EA, EB. cbn [List.length].
  rewrite <- Nat2Z.inj_mul, Nat2Z.id. lia.
Qed.

Lemma hac_width s cs row : gives_codes vq -> hac F zero vq Sound mfcc delta s cs [5; 2]%Z = Ok row -> List.length row = widths cs.
Proof.
  intros G E. unfold hac in E. apply bind_ok in E. destruct E as (m & _ & E). apply bind_ok in E. destruct E as (d1 & _ & E).
  apply bind_ok in E. destruct E as (d2 & _ & E). apply bind_ok in E. destruct E as (hs & EH & E).
  assert (row = List.concat hs) as ->. { unfold hstack1 in E. destruct hs; [discriminate E|]. congruence. }
  clear E. apply mapM_ok in EH. unfold widths.
  assert (L : forall (xs : list (mat F)) cs hs, Forall2 (fun sc h => compute_coocurrences F vq (fst sc) (snd sc) [5; 2]%Z = Ok h) (combine xs cs) hs ->
    List.length (List.concat hs) = list_sum (map (fun c => 2 * (List.length (mrows c) * List.length (mrows c))) (firstn (List.length xs) cs))).
  { clear - G. induction xs as [|x xs IH]; intros cs hs H; [inversion H; reflexivity|].
    destruct cs as [|c cs]; [inversion H; reflexivity|]. cbn [combine] in H. inversion H as [|? h ? hs' H1 H2]; subst. cbn [fst snd] in H1.
    cbn [List.concat List.length firstn map list_sum fold_right]. rewrite app_length, (IH _ _ H2), (block_width _ _ _ G H1). reflexivity. }
  exact (L _ _ _ EH).
Qed.

Notation row_of_record := (row_of_record (Arr := Arr) zero wavs mfcc delta vq).

Lemma records_hacs cs d rs : gives_codes vq -> rs <> [] -> Forall (fun r => exists row, row_of_record cs d r row) rs ->
  exists X, (hacs <- mapM (fun r => p <- acorns_audio d r ;; wav2hac zero wavs mfcc delta vq p (Cells cs)) rs ;; sp_vstack hacs) = Ok X /\
    Forall2 (row_of_record cs d) rs X.
Proof.
  intros G N H. assert (exists X, mapM (fun r => p <- acorns_audio d r ;; wav2hac zero wavs mfcc delta vq p (Cells cs)) rs = Ok X /\ Forall2 (row_of_record cs d) rs X) as (X & E & R).
  { clear N. induction H as [|r rs (row & p & s & A & W & C) H IH]; [exists []; split; [reflexivity|constructor]|].
    destruct IH as (X & E & R). exists (row :: X). cbn [mapM]. change (acorns_audio d r) with (sound_model.get_audio_path "WAV" d r). rewrite A. cbn [bind]. unfold wav2hac at 1. rewrite W. cbn [bind]. rewrite C. cbn [bind].
    rewrite E. split; [reflexivity|]. constructor; [|exact R]. exists p, s. repeat split; assumption. }
  exists X. rewrite E. cbn [bind]. split; [|exact R].
  assert (L : Forall (fun row => List.length row = widths cs) X).
  { clear - R G. induction R as [|r row rs X (p & s & _ & _ & C) R IH]; constructor; [exact (hac_width _ _ _ G C)|exact IH]. }
  unfold sp_vstack. destruct X as [|row X]; [inversion R; congruence|]. replace (forallb _ _) with true; [reflexivity|].
  symmetry. apply forallb_forall. intros x I. rewrite Forall_forall in L. rewrite (L x I), (L row (or_introl eq_refl)). apply Nat.eqb_refl.
Qed.

Lemma speakers_ok dir year cs d c : gives_codes vq -> c = Cells cs -> forall (records : list (list record)) k0 (st : store),
  Forall (fun rs => rs <> [] /\ Forall (fun r => exists row, row_of_record cs d r row) rs) records ->
  exists st', speakers dir year c d (Z.of_nat k0) records st = (st', Ok tt) /\
    (forall k rs, nth_error records k = Some rs -> exists X, hac_of st' (feature_path dir year (k0 + k)) = Ok X /\ Forall2 (row_of_record cs d) rs X) /\
    (forall f, (forall k, k < List.length records -> f <> feature_path dir year (k0 + k)) -> dict_get String.eqb st' f = dict_get String.eqb st f).
Proof.
  intros G EC. subst c. induction records as [|rs records IH]; intros k0 st H; cbn [save_speakers].
  - exists st. split; [reflexivity|]. split; [intros [|k] rs E; discriminate E|reflexivity].
  - inversion H as [|? ? (N & HR) H']; subst. destruct (records_hacs cs d rs G N HR) as (X & E & R). rewrite E.
    replace (Z.of_nat k0 + 1)%Z with (Z.of_nat (S k0)) by lia.
    destruct (IH (S k0) (dict_set String.eqb st (path_join dir (feature_file_name year (Z.of_nat k0))) (MatFile (stored (Cells cs)) (Some X))) H') as (st' & ES & V & FR).
    exists st'. split; [exact ES|]. split.
    + intros [|k] rs' E'.
      * injection E' as <-. exists X. split; [|exact R]. unfold hac_of. rewrite FR.
        -- rewrite Nat.add_0_r. unfold feature_path. rewrite sget_set, String.eqb_refl. reflexivity.
        -- intros k K Q. apply feature_paths in Q. lia.
      * destruct (V k rs' E') as (Y & EY & RY). exists Y. replace (k0 + S k) with (S k0 + k) by lia. split; assumption.
    + intros f NF. rewrite FR.
      * rewrite sget_set. destruct (String.eqb_spec (path_join dir (feature_file_name year (Z.of_nat k0))) f) as [Q|_]; [|reflexivity].
        exfalso. apply (NF 0); [cbn; lia|]. rewrite Nat.add_0_r. symmetry. exact Q.
      * intros k K. replace (S k0 + k) with (k0 + S k) by lia. apply NF. cbn. lia.
Qed.

(** Whatever the outcome. *)
Lemma speakers_frame dir year c d : forall (records : list (list record)) k0 (st : store) st' r f,
  speakers dir year c d (Z.of_nat k0) records st = (st', r) -> (forall k, f <> feature_path dir year k) ->
  dict_get String.eqb st' f = dict_get String.eqb st f.
Proof.
  induction records as [|rs records IH]; intros k0 st st' r f E NF; cbn [save_speakers] in E; [congruence|].
  destruct (bind _ _) as [X|e]; [|congruence].
  replace (Z.of_nat k0 + 1)%Z with (Z.of_nat (S k0)) in E by lia. rewrite (IH _ _ _ _ _ E NF), sget_set.
  destruct (String.eqb_spec (path_join dir (feature_file_name year (Z.of_nat k0))) f) as [Q|_]; [|reflexivity].
  exfalso. apply (NF k0). symmetry. exact Q.
Qed.

Lemma years_frame py3 (fs : files Arr) db_dir dir id c : forall ys (st : store) st' r f,
  years py3 fs db_dir dir id c ys st = (st', r) -> (forall y k, In y ys -> f <> feature_path dir y k) ->
  dict_get String.eqb st' f = dict_get String.eqb st f.
Proof.
  induction ys as [|y ys IH]; intros st st' r f E NF; cbn [save_years] in E; [congruence|].
  destruct (acorns_model.load _ _ _ _ _ _ _) as [d|e]; [|congruence].
  destruct (save_speakers _ _ _ _ _ _ _ _ _ _ _ _) as (st1, [u|e]) eqn:E1.
  - rewrite (IH _ _ _ _ E) by (intros y' k I; apply NF; right; exact I).
    apply (speakers_frame dir y c d _ 0 _ _ _ _ E1). intros k. apply NF. left. reflexivity.
  - injection E as <- <-. apply (speakers_frame dir y c d _ 0 _ _ _ _ E1). intros k. apply NF. left. reflexivity.
Qed.

Lemma features_ok py3 (fs : files Arr) db_dir dir id (st : store) cs hacs d1 d2 : gives_codes vq ->
  dict_get String.eqb st (CODEBOOK_PATH dir) = Some (MatFile (Cells cs) hacs) ->
  acorns_model.load py3 fs db_dir (id 1%Z) 1 None false = Ok d1 -> acorns_model.load py3 fs db_dir (id 2%Z) 2 None false = Ok d2 ->
  (forall d, d = d1 \/ d = d2 -> Forall (fun rs => rs <> [] /\ Forall (fun r => exists row, row_of_record cs d r row) rs) (d_records d)) ->
  exists st', run_build_acorns_features zero wavs mfcc delta vq py3 fs db_dir dir id st = (st', Ok tt) /\
    (forall year d k rs, (year = 1%Z /\ d = d1) \/ (year = 2%Z /\ d = d2) -> nth_error (d_records d) k = Some rs ->
       exists X, hac_of st' (feature_path dir year k) = Ok X /\ Forall2 (row_of_record cs d) rs X) /\
    (forall f, (forall year k, year = 1%Z \/ year = 2%Z -> f <> feature_path dir year k) -> dict_get String.eqb st' f = dict_get String.eqb st f).
Proof.
  intros G C L1 L2 H. unfold run_build_acorns_features. rewrite C. cbn [m_codebooks save_years]. rewrite L1.
  destruct (speakers_ok dir 1 cs d1 _ G eq_refl (d_records d1) 0 st (H d1 (or_introl eq_refl))) as (s1 & E1 & V1 & F1).
  change (Z.of_nat 0) with 0%Z in E1. rewrite E1, L2.
  destruct (speakers_ok dir 2 cs d2 _ G eq_refl (d_records d2) 0 s1 (H d2 (or_intror eq_refl))) as (s2 & E2 & V2 & F2).
  change (Z.of_nat 0) with 0%Z in E2. rewrite E2. exists s2. split; [reflexivity|]. split.
  - intros year d k rs [(-> & ->)|(-> & ->)] N.
    + destruct (V1 k rs N) as (X & EX & R). exists X. split; [|exact R]. unfold hac_of in *. rewrite F2; [exact EX|].
      intros k' _ Q. apply feature_paths in Q. destruct Q as (Q & _). discriminate Q.
    + apply V2. exact N.
  - intros f NF. rewrite F2, F1; [reflexivity| |]; intros k _; apply NF; tauto.
Qed.

(** Codebooks of the same shape. *)
Lemma numbers_fail (fs : files Arr) py3 db_dir dir id (st : store) l hacs d1 :
  dict_get String.eqb st (CODEBOOK_PATH dir) = Some (MatFile (Numbers l) hacs) ->
  acorns_model.load py3 fs db_dir (id 1%Z) 1 None false = Ok d1 -> d_records d1 <> [] ->
  exists e, run_build_acorns_features zero wavs mfcc delta vq py3 fs db_dir dir id st = (st, Err e).
Proof.
  intros C L1 N. unfold run_build_acorns_features. rewrite C. cbn [m_codebooks save_years]. rewrite L1.
  destruct (d_records d1) as [|rs records]; [congruence|]. cbn [save_speakers].
  destruct (mapM _ rs) as [X|e] eqn:E; [|exists e; reflexivity]. destruct rs as [|r rs]; cbn [mapM] in E.
  - injection E as <-. exists ValueError. reflexivity.
  - exfalso. apply bind_ok in E. destruct E as (row & E & _). apply bind_ok in E. destruct E as (p & _ & E). unfold wav2hac in E.
    apply bind_ok in E. destruct E as (s & _ & E). apply bind_ok in E. destruct E as (m & _ & E). apply bind_ok in E. destruct E as (? & _ & E).
    apply bind_ok in E. destruct E as (? & _ & E). discriminate E.
Qed.

(** A speaker without records. *)
Lemma empty_speaker (fs : files Arr) py3 db_dir dir id (st : store) d1 st' r :
  acorns_model.load py3 fs db_dir (id 1%Z) 1 None false = Ok d1 -> In [] (d_records d1) ->
  run_build_acorns_features zero wavs mfcc delta vq py3 fs db_dir dir id st = (st', r) -> r <> Ok tt.
Proof.
  intros L1 I E. unfold run_build_acorns_features in E. destruct (dict_get _ st _) as [f|]; [|injection E as _ <-; discriminate].
  cbn [save_years] in E. rewrite L1 in E.
  assert (Q : forall (records : list (list record)) k s s' u, In [] records ->
    speakers dir 1 (m_codebooks f) d1 k records s <> (s', Ok u)).
  { clear - zero. induction records as [|rs records IH]; intros k s s' u J H; [exact J|]. cbn [save_speakers] in H.
    destruct J as [-> | J]; [discriminate H|]. destruct (bind _ _); [|discriminate H]. exact (IH _ _ _ _ J H). }
  destruct (save_speakers _ _ _ _ _ _ _ _ _ _ _ _) as (s1, [u|e]) eqn:E1.
  - exfalso. exact (Q _ _ _ _ _ I E1).
  - injection E as _ <-. discriminate.
Qed.
End Features.

Lemma codebook_file {F Sound Arr : Type} (zero : F) wavs mfcc delta kmeans2 iterative_kmeans (fs : files Arr) db_dir dir id st d names n :
  gives_k kmeans2 -> vctk_model.load fs db_dir id None = Ok d -> codebook_files d = Ok names -> names <> [] ->
  Forall (readable (Sound := Sound) wavs mfcc delta n) names ->
  exists st' cs, run_build_codebook zero wavs mfcc delta kmeans2 iterative_kmeans fs db_dir dir id st = (st', Ok tt) /\
    build_codebooks_from_list_of_wav zero wavs mfcc delta kmeans2 iterative_kmeans names [150; 150; 100]%Z "raw" = Ok cs /\
    map shape cs = [(150, n); (150, n); (100, n)] /\
    dict_get String.eqb st' (CODEBOOK_PATH dir) = Some (MatFile (Cells cs) None) /\
    (forall f, f <> CODEBOOK_PATH dir -> dict_get String.eqb st' f = dict_get String.eqb st f).
Proof.
  intros K L C N R. destruct (buildable zero wavs mfcc delta kmeans2 iterative_kmeans n names 150 150 100 [] N R K ltac:(lia) ltac:(lia) ltac:(lia))
    as (c0 & c1 & c2 & E & S0 & S1 & S2).
  unfold run_build_codebook, build_vctk_codebook. rewrite L. cbn [bind]. rewrite C. cbn [bind]. fold KS in E. rewrite E.
  eexists. exists [c0; c1; c2]. split; [reflexivity|]. split; [exact E|]. split; [cbn [map]; rewrite S0, S1, S2; reflexivity|]. split.
  - rewrite sget_set, String.eqb_refl. do 2 f_equal. apply (cells_kept _ c0 c2); [left; reflexivity|right; right; left; reflexivity|].
    rewrite S0, S2. intros Q. injection Q as Q. revert Q. apply Nat.eqb_neq. reflexivity.
  - intros f NF. rewrite sget_set. destruct (String.eqb_spec (CODEBOOK_PATH dir) f); [congruence|reflexivity].
Qed.

(** The features and the labels are those of the same records. *)
Lemma features_labels {F Sound Arr : Type} (zero : F) (wavs : string -> result Sound) mfcc delta vq py3 (fs : files Arr) db_dir dir id st cs hacs d1 d2 : gives_codes vq ->
  dict_get String.eqb st (CODEBOOK_PATH dir) = Some (MatFile (Cells cs) hacs) ->
  acorns_model.load py3 fs db_dir (id 1%Z) 1 None false = Ok d1 -> acorns_model.load py3 fs db_dir (id 2%Z) 2 None false = Ok d2 ->
  (forall d, d = d1 \/ d = d2 -> Forall (fun rs => rs <> [] /\ Forall (fun r => exists row, row_of_record zero wavs mfcc delta vq cs d r row) rs) (d_records d)) ->
  (forall rs1, nth_error (d_records d1) 1 = Some rs1 -> 176 < List.length rs1) ->
  exists st', run_build_acorns_features zero wavs mfcc delta vq py3 fs db_dir dir id st = (st', Ok tt) /\
    forall year d k rs, (year = 1%Z /\ d = d1) \/ (year = 2%Z /\ d = d2) -> (Z.of_nat k < n_speakers year)%Z -> nth_error (d_records d) k = Some rs ->
      exists X, load_features_and_labels py3 fs db_dir (hac_of st') dir (id year) year (Z.of_nat k) false None = Ok (X, map r_tags rs, d_tags d) /\
        Forall2 (row_of_record zero wavs mfcc delta vq cs d) rs X.
Proof.
  intros G C L1 L2 H S. destruct (features_ok zero wavs mfcc delta vq py3 fs db_dir dir id st cs hacs d1 d2 G C L1 L2 H) as (st' & E & V & _).
  exists st'. split; [exact E|]. intros year d k rs Y K N. destruct (V year d k rs Y N) as (X & EX & R). exists X. split; [|exact R].
  assert (LN : List.length X = List.length rs) by (clear - R; induction R; cbn; congruence).
  apply (features_and_labels py3 fs db_dir (hac_of st') dir (id year) year None d k rs X).
  - destruct Y as [(-> & _)|(-> & _)]; [left|right]; reflexivity.
  - destruct Y as [(-> & ->)|(-> & ->)]; assumption.
  - intros ->. destruct Y as [(_ & ->)|(Q & _)]; [exact S|discriminate Q].
  - exact K.
  - exact N.
  - exact EX.
  - exact LN.
Qed.
