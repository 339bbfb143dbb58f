(** * Theorems on the ACORNS databases (C62, C86). *)

From Coq Require Import List ZArith Arith Bool String Ascii Sorted Lia.
Import ListNotations.
From Verif Require Import Py logger_model serial_model sound_model sound_spec acorns_model acorns_spec
  acorns_proof acorns_load acorns_root.
Local Open Scope nat_scope.

(** The removals from a list of records and from the rows of a matrix keep the same
    positions, or both fail. *)
Theorem C62_same_positions : forall {A B} bl (l : list A) (m : list B), List.length l = List.length m ->
  (exists idx l' m', pop_all bl l = Ok l' /\ pop_all bl m = Ok m' /\ increasing idx /\ picks idx l l' /\ picks idx m m') \/
  (pop_all bl l = Err IndexError /\ pop_all bl m = Err IndexError).
Proof. exact @same_positions. Qed.
(** Positions given in decreasing order are those that are removed... *)
Theorem C62_positions : forall {A} (bl : list nat) (l : list A),
  StronglySorted (fun a b => b < a) bl -> Forall (fun b => b < List.length l) bl ->
  exists idx l', pop_all (map Z.of_nat bl) l = Ok l' /\ increasing idx /\ picks idx l l' /\
    forall i, In i idx <-> i < List.length l /\ ~ In i bl.
Proof. exact @positions_removed. Qed.
(** ... but not in another order. *)
Theorem C62_any_order_refuted : exists (bl : list nat) (l l' : list nat), NoDup l /\ NoDup bl /\ Forall (fun b => b < List.length l) bl /\
  pop_all (map Z.of_nat bl) l = Ok l' /\ exists i x, In i bl /\ nth_error l i = Some x /\ In x l'.
Proof.
  exists [0; 1], [10; 11; 12], [11]. split; [repeat constructor; cbn; lia|]. split; [repeat constructor; cbn; lia|].
  split; [repeat constructor|]. split; [reflexivity|]. exists 1, 11. cbn. auto.
Qed.
Theorem C62_file_names : forall y s y' s', feature_file_name y s = feature_file_name y' s' -> y = y' /\ s = s'.
Proof. exact file_names. Qed.
Theorem C62_year : forall py3 year, (year = 1%Z \/ year = 2%Z -> check_year py3 year = Ok tt) /\
  (year <> 1%Z -> year <> 2%Z -> check_year py3 year = Err (if py3 then TypeError else ValueError)).
Proof. exact year_checked. Qed.
(** Speakers are 0, ..., n - 1 but n is accepted too. *)
Theorem C62_speaker : forall py3 year speaker,
  ((0 <= speaker <= n_speakers year)%Z -> check_speaker py3 year speaker = Ok tt) /\
  (~ (0 <= speaker <= n_speakers year)%Z -> check_speaker py3 year speaker = Err (if py3 then TypeError else ValueError)).
Proof. exact speaker_checked. Qed.

Section Props.
Context {Arr Row : Type}.
Notation database := (database Arr).
Notation files := (files Arr).

Theorem C62_last_speaker : forall py3 (mats : string -> result (list Row)) dir year, year = 1%Z \/ year = 2%Z ->
  check_speaker py3 year (n_speakers year) = Ok tt /\
  (forall X, mats (path_join dir (feature_file_name year (n_speakers year))) = Ok X ->
    load_features py3 mats dir year (n_speakers year) false = Ok X /\
    load_features py3 mats dir year (n_speakers year) true = Err IndexError) /\
  (forall Y, load_features py3 mats dir year (n_speakers year) true <> Ok Y).
Proof. exact last_speaker. Qed.
(** A saved database whose records have audio files is read again whole, its records sorted by the names of audio files. *)
Theorem C62_loaded : forall py3 (d : database) (fs : files) dbdir id year f, year = 1%Z \/ year = 2%Z -> savable d -> sortable d ->
  let name := match f with Some f => f | None => path_join (path_join dbdir "ACORNS"%string) ("Acorns_Y" ++ format_d year ++ ".json")%string end in
  exists fs' d', write_json d fs name = (fs', Ok tt) /\ load py3 fs' dbdir id year f false = Ok d' /\ d_id d' = id /\ consistent d' /\ same_database true d d'.
Proof. exact loaded_back. Qed.
(** Data and labels of the loader, in either order of calls: row number i of the data
    and label number i come from the same position. *)
Theorem C62_aligned : forall (p : place Arr Row) id d k rs X,
  load (p_py3 p) (p_files p) (p_db_dir p) id 1 None false = Ok d ->
  (forall rs1, nth_error (d_records d) 1 = Some rs1 -> 176 < List.length rs1) ->
  k < 4 -> nth_error (d_records d) k = Some rs ->
  p_mats p (path_join (p_feat_dir p) (feature_file_name 1 (Z.of_nat k))) = Ok X -> List.length X = List.length rs ->
  (forall i r, nth_error rs i = Some r -> ~ bad 1 (Z.of_nat k) i -> exists lab, label_of d r lab) ->
  exists idx Y labs l1 l2 l3 l4,
    get_data p (Year1 (Z.of_nat k)) = (l1, Ok Y) /\ get_labels p id l1 = (l2, Ok labs) /\
    get_labels p id (Year1 (Z.of_nat k)) = (l3, Ok labs) /\ get_data p l3 = (l4, Ok Y) /\
    good_positions 1 (Z.of_nat k) (List.length rs) idx /\ picks idx X Y /\
    Forall2 (fun i lab => exists r, nth_error rs i = Some r /\ label_of d r lab) idx labs.
Proof. exact aligned. Qed.
(** Different numbers of rows and records: the second call raises. *)
Theorem C62_mismatch : forall (p : place Arr Row) id d k rs X,
  load (p_py3 p) (p_files p) (p_db_dir p) id 1 None false = Ok d ->
  (forall rs1, nth_error (d_records d) 1 = Some rs1 -> 176 < List.length rs1) ->
  k < 4 -> nth_error (d_records d) k = Some rs ->
  p_mats p (path_join (p_feat_dir p) (feature_file_name 1 (Z.of_nat k))) = Ok X -> enough 1 (Z.of_nat k) (List.length X) ->
  List.length X <> List.length rs ->
  snd (get_labels p id (fst (get_data p (Year1 (Z.of_nat k))))) = Err AssertionError /\
  snd (get_data p (fst (get_labels p id (Year1 (Z.of_nat k))))) = Err AssertionError.
Proof. exact mismatch. Qed.
(** The function kept for both years. *)
Theorem C62_features_and_labels : forall py3 (fs : files) dbdir (mats : string -> result (list Row)) dir id year f d k rs X,
  year = 1%Z \/ year = 2%Z -> load py3 fs dbdir id year f false = Ok d ->
  (year = 1%Z -> forall rs1, nth_error (d_records d) 1 = Some rs1 -> 176 < List.length rs1) ->
  (Z.of_nat k < n_speakers year)%Z -> nth_error (d_records d) k = Some rs ->
  mats (path_join dir (feature_file_name year (Z.of_nat k))) = Ok X -> List.length X = List.length rs ->
  load_features_and_labels py3 fs dbdir mats dir id year (Z.of_nat k) false f = Ok (X, map r_tags rs, d_tags d) /\
  exists idx Y labels, load_features_and_labels py3 fs dbdir mats dir id year (Z.of_nat k) true f = Ok (Y, labels, d_tags d) /\
    good_positions year (Z.of_nat k) (List.length rs) idx /\ picks idx X Y /\ picks idx (map r_tags rs) labels.
Proof. exact features_and_labels. Qed.
(** Without the bad record nothing can be loaded, whatever the speaker. *)
Theorem C62_short : forall py3 (fs : files) dir id f d rs, load py3 fs dir id 1 f false = Ok d ->
  nth_error (d_records d) 1 = Some rs -> List.length rs <= 176 -> load py3 fs dir id 1 f true = Err IndexError.
Proof. exact load_short. Qed.

(** The database built from the original files: one record per file, sorted by the
    names of audio files, with the words of the file as tags; it can be saved. *)
Theorem C86_from_root : forall py3 xml (files : string -> list utterance) root year id, year = 1%Z \/ year = 2%Z ->
  (forall s, In s (get_speakers year) -> xml s = map Ok (files s)) ->
  exists d : database, from_ACORNS_root py3 xml root year (DataBase id) = (d, Ok tt) /\ savable d /\ sortable d /\
    d_id d = id /\ d_root d = VStr root /\ d_spkrs d = get_speakers year /\ List.length (d_records d) = List.length (get_speakers year) /\
    (forall k s, nth_error (get_speakers year) k = Some s -> exists read rs, nth_error (d_records d) k = Some rs /\
       Forall2 (made_of d k) (files s) read /\ stably_sorted read rs) /\
    (forall t, In t (d_tags d) <-> exists s u, In s (get_speakers year) /\ In u (files s) /\ In t (u_tags u)).
Proof. exact from_root. Qed.
Theorem C86_wrong_year : forall py3 xml root year (d : database), year <> 1%Z -> year <> 2%Z ->
  from_ACORNS_root py3 xml root year d = (d, Err (if py3 then TypeError else ValueError)).
Proof. exact wrong_year. Qed.
(** A second call changes only the root, and raises. *)
Theorem C86_twice : forall py3 xml root year (d : database), year = 1%Z \/ year = 2%Z -> In "Speaker-01"%string (d_spkrs d) ->
  from_ACORNS_root py3 xml root year d = (with_root d (VStr root), Err ValueError).
Proof. exact twice. Qed.
End Props.
Print Assumptions C62_same_positions.
Print Assumptions C62_loaded.
Print Assumptions C62_positions.
Print Assumptions C62_any_order_refuted.
Print Assumptions C62_file_names.
Print Assumptions C62_year.
Print Assumptions C62_speaker.
Print Assumptions C62_last_speaker.
Print Assumptions C62_aligned.
Print Assumptions C62_mismatch.
Print Assumptions C62_features_and_labels.
Print Assumptions C62_short.
Print Assumptions C86_from_root.
Print Assumptions C86_wrong_year.
Print Assumptions C86_twice.

(** ** Cases that meet the hypotheses *)
Local Open Scope string_scope.
Example C62_ex_positions : pop_all [4; 1]%Z ["a"; "b"; "c"; "d"; "e"; "f"] = Ok ["a"; "c"; "d"; "f"].
Proof. reflexivity. Qed.
Example C62_ex_name : feature_file_name 1 3 = "acorns_HAC_Y1_S04_python.mat" /\ feature_file_name 2 9 = "acorns_HAC_Y2_S10_python.mat".
Proof. split; reflexivity. Qed.
(** Two speakers; the second one has 178 records, and number 176 has no tag. *)
Definition ex_record (i : nat) : val unit :=
  VDict [(KStr "audio_file", VStr "x.wav");
         (KStr "tags", VList (if Nat.eqb i 176 then [] else [VStr (if Nat.even i then "car" else "dog")]))].
Definition ex_speaker (name : string) (n : nat) : val unit :=
  VDict [(KStr "name", VStr name); (KStr "records", VList (map ex_record (seq 0 n)))].
Definition ex_files : files unit :=
  [("/db/ACORNS/Acorns_Y1.json",
    Some (VDict [(KStr "root", VStr "/r"); (KStr "tags", VList [VStr "dog"]);
                 (KStr "speakers", VList [ex_speaker "Speaker-01" 2; ex_speaker "Speaker-02" 178])]))].
Definition ex_mats (path : string) : result (list nat) :=
  if String.eqb path "/f/acorns_HAC_Y1_S02_python.mat" then Ok (seq 1000 178) else Err IOError.
Definition ex_place : place unit nat := mkPlace true ex_files "/db" ex_mats "/f".
Example C62_ex_aligned :
  match load true ex_files "/db" 0 1 None false with
  | Ok d =>
      map (@List.length (record unit)) (d_records d) = [2; 178] /\ d_tags d = ["dog"; "car"] /\
      forallb (fun ir => Nat.eqb (fst ir) 176 || match r_tags (snd ir) with [0%Z] | [1%Z] => true | _ => false end)
        (combine (seq 0 178) (nth 1 (d_records d) [])) = true
  | Err _ => False
  end /\
  match get_data ex_place (Year1 1) with
  | (l, Ok Y) => List.length Y = 177 /\ skipn 175 Y = [1175; 1177] /\
      match get_labels ex_place 0 l with
      | (_, Ok labs) => List.length labs = 177 /\ skipn 174 labs = ["car"; "dog"; "dog"]
      | _ => False end
  | _ => False end.
Proof. vm_compute. repeat split. Qed.
Example C86_ex :
  match from_ACORNS_root (Arr := unit) true
          (fun s => if String.eqb s "Speaker-02" then [Ok (mkUtt "ADS" "b" ["car"; "dog"] "a car"); Ok (mkUtt "IDS" "a" ["dog"] "")] else [])
          "/acorns" 1 (DataBase 0) with
  | (d, Ok _) => d_spkrs d = ["Speaker-01"; "Speaker-02"; "Speaker-03"; "Speaker-04"] /\ d_tags d = ["car"; "dog"] /\
      map (map r_audio) (d_records d) = [[]; [VStr "a.wav"; VStr "b.wav"]; []; []] /\
      map (map r_tags) (d_records d) = [[]; [[1]; [0; 1]]; []; []]%Z
  | _ => False end.
Proof. vm_compute. repeat split. Qed.
Example C86_ex_twice : In "Speaker-01" (d_spkrs (fst (from_ACORNS_root (Arr := unit) true (fun _ => []) "/acorns" 2 (DataBase 0)))).
Proof. vm_compute. auto. Qed.
