(** * C105: codebooks and features of sounds. *)

From Coq Require Import List ZArith Arith Bool String Lia.
Import ListNotations.
From Verif Require Import Py utils_model logger_model serial_model sound_model hac_model hac_spec angle_model acorns_model vctk_model
  hacfeat_model hacfeat_spec hacfeat_proof.
Local Open Scope nat_scope.

Section Props.
Context {F Sound Arr : Type}.
Variable zero : F.
Variable wavs : string -> result Sound.
Variable mfcc : Sound -> result (mat F).
Variable delta : mat F -> nat -> result (mat F).
Variable kmeans2 iterative_kmeans : mat F -> Z -> result (mat F).
Variable vq : mat F -> mat F -> result (list Z).
Notation files := (files Arr).

(** Codebook number i is made of the vectors of stream i of all the sounds, in order. *)
Theorem C105_codebooks : forall names ks mode cs,
  build_codebooks_from_list_of_wav zero wavs mfcc delta kmeans2 iterative_kmeans names ks mode = Ok cs ->
  List.length cs = 3 /\ forall i, i < 3 -> exists data k c, nth_error ks i = Some k /\ nth_error cs i = Some c /\
    pooled zero wavs mfcc delta i names data /\
    ((mode = "raw"%string /\ kmeans2 data k = Ok c) \/ (mode = "iterative"%string /\ iterative_kmeans data k = Ok c)).
Proof. exact (built zero wavs mfcc delta kmeans2 iterative_kmeans). Qed.
Theorem C105_buildable : forall n names k0 k1 k2 rest, names <> [] -> Forall (readable wavs mfcc delta n) names -> gives_k kmeans2 ->
  (0 < k0)%Z -> (0 < k1)%Z -> (0 < k2)%Z ->
  exists c0 c1 c2, build_codebooks_from_list_of_wav zero wavs mfcc delta kmeans2 iterative_kmeans names (k0 :: k1 :: k2 :: rest) "raw" = Ok [c0; c1; c2] /\
    shape c0 = (Z.to_nat k0, n) /\ shape c1 = (Z.to_nat k1, n) /\ shape c2 = (Z.to_nat k2, n).
Proof. exact (buildable zero wavs mfcc delta kmeans2 iterative_kmeans). Qed.

(** The script build_codebook: the file holds the codebooks of the sounds of VCTK, in
    the form that the other script reads; no other file changes. *)
Theorem C105_codebook_file : forall (fs : files) db_dir dir id st d names n,
  gives_k kmeans2 -> vctk_model.load fs db_dir id None = Ok d -> codebook_files d = Ok names -> names <> [] ->
  Forall (readable wavs mfcc delta n) names ->
  exists st' cs, run_build_codebook zero wavs mfcc delta kmeans2 iterative_kmeans fs db_dir dir id st = (st', Ok tt) /\
    build_codebooks_from_list_of_wav zero wavs mfcc delta kmeans2 iterative_kmeans names [150; 150; 100]%Z "raw" = Ok cs /\
    map shape cs = [(150, n); (150, n); (100, n)] /\
    dict_get String.eqb st' (path_join dir "vctk_codebook.mat") = Some (MatFile (Cells cs) None) /\
    (forall f, f <> path_join dir "vctk_codebook.mat" -> dict_get String.eqb st' f = dict_get String.eqb st f).
Proof. exact (codebook_file zero wavs mfcc delta kmeans2 iterative_kmeans). Qed.

(** build_acorns_codebook: one sound for each record of the first year, then of the second. *)
Theorem C105_acorns_codebook : forall py3 (fs : files) db_dir id ks cs,
  build_acorns_codebook zero wavs mfcc delta kmeans2 iterative_kmeans py3 fs db_dir id ks = Ok cs ->
  exists d1 d2 names1 names2, acorns_model.load py3 fs db_dir (id 1%Z) 1 None false = Ok d1 /\ acorns_model.load py3 fs db_dir (id 2%Z) 2 None false = Ok d2 /\
    Forall2 (fun r p => sound_model.get_audio_path "WAV"%string d1 r = Ok p) (List.concat (d_records d1)) names1 /\
    Forall2 (fun r p => sound_model.get_audio_path "WAV"%string d2 r = Ok p) (List.concat (d_records d2)) names2 /\
    List.length cs = 3 /\ forall i, i < 3 -> exists data k c, nth_error ks i = Some k /\ nth_error cs i = Some c /\
      pooled zero wavs mfcc delta i (names1 ++ names2) data /\ kmeans2 data k = Ok c.
Proof. exact (acorns_codebook zero wavs mfcc delta kmeans2 iterative_kmeans). Qed.

(** The script build_acorns_features: for each year and speaker a file with one row for
    each record, in the order of the database; no other file changes. *)
Theorem C105_features : forall py3 (fs : files) db_dir dir id st cs hacs d1 d2, gives_codes vq ->
  dict_get String.eqb st (path_join dir "vctk_codebook.mat") = Some (MatFile (Cells cs) hacs) ->
  acorns_model.load py3 fs db_dir (id 1%Z) 1 None false = Ok d1 -> acorns_model.load py3 fs db_dir (id 2%Z) 2 None false = Ok d2 ->
  (forall d, d = d1 \/ d = d2 -> all_rows zero wavs mfcc delta vq cs d) ->
  exists st', run_build_acorns_features zero wavs mfcc delta vq py3 fs db_dir dir id st = (st', Ok tt) /\
    (forall year d k rs, (year = 1%Z /\ d = d1) \/ (year = 2%Z /\ d = d2) -> nth_error (d_records d) k = Some rs ->
       exists X, hac_of st' (path_join dir (feature_file_name year (Z.of_nat k))) = Ok X /\ Forall2 (row_of_record zero wavs mfcc delta vq cs d) rs X) /\
    (forall f, (forall year k, year = 1%Z \/ year = 2%Z -> f <> path_join dir (feature_file_name year (Z.of_nat k))) ->
       dict_get String.eqb st' f = dict_get String.eqb st f).
Proof. exact (features_ok zero wavs mfcc delta vq). Qed.

(** What is loaded afterwards: row number i and labels number i are those of record
    number i. *)
Theorem C105_features_labels : forall py3 (fs : files) db_dir dir id st cs hacs d1 d2, gives_codes vq ->
  dict_get String.eqb st (path_join dir "vctk_codebook.mat") = Some (MatFile (Cells cs) hacs) ->
  acorns_model.load py3 fs db_dir (id 1%Z) 1 None false = Ok d1 -> acorns_model.load py3 fs db_dir (id 2%Z) 2 None false = Ok d2 ->
  (forall d, d = d1 \/ d = d2 -> all_rows zero wavs mfcc delta vq cs d) ->
  (forall rs1, nth_error (d_records d1) 1 = Some rs1 -> 176 < List.length rs1) ->
  exists st', run_build_acorns_features zero wavs mfcc delta vq py3 fs db_dir dir id st = (st', Ok tt) /\
    forall year d k rs, (year = 1%Z /\ d = d1) \/ (year = 2%Z /\ d = d2) -> (Z.of_nat k < n_speakers year)%Z -> nth_error (d_records d) k = Some rs ->
      exists X, load_features_and_labels py3 fs db_dir (hac_of st') dir (id year) year (Z.of_nat k) false None = Ok (X, map r_tags rs, d_tags d) /\
        Forall2 (row_of_record zero wavs mfcc delta vq cs d) rs X.
Proof. exact (features_labels zero wavs mfcc delta vq). Qed.

(** Whatever the outcome, only feature files change. *)
Theorem C105_others_kept : forall py3 (fs : files) db_dir dir id st st' r f,
  run_build_acorns_features zero wavs mfcc delta vq py3 fs db_dir dir id st = (st', r) ->
  (forall year k, year = 1%Z \/ year = 2%Z -> f <> path_join dir (feature_file_name year (Z.of_nat k))) ->
  dict_get String.eqb st' f = dict_get String.eqb st f.
Proof.
  intros py3 fs db_dir dir id st st' r f E NF. unfold run_build_acorns_features in E. destruct (dict_get _ st _); [|congruence].
  apply (years_frame zero wavs mfcc delta vq _ _ _ _ _ _ _ _ _ _ _ E). intros y k I. apply NF. destruct I as [<- | [<- | []]]; tauto.
Qed.

(** Without the file of codebooks: IOError, and nothing is written. *)
Theorem C105_no_codebook : forall (fs : files) py3 db_dir dir id st,
  dict_get String.eqb st (path_join dir "vctk_codebook.mat") = None ->
  run_build_acorns_features zero wavs mfcc delta vq py3 fs db_dir dir id st = (st, Err IOError).
Proof. intros fs py3 db_dir dir id st E. unfold run_build_acorns_features, CODEBOOK_PATH. rewrite E. reflexivity. Qed.

(** Codebooks that all have the same shape are not read as they were saved: the script
    then fails and writes nothing.  So it does with a speaker without records (but the
    files of the speakers before are written). *)
Theorem C105_equal_shapes : forall (fs : files) py3 db_dir dir id st cs s hacs d1, Forall (fun c => shape c = s) cs ->
  dict_get String.eqb st (path_join dir "vctk_codebook.mat") = Some (MatFile (stored (Cells cs)) hacs) ->
  acorns_model.load py3 fs db_dir (id 1%Z) 1 None false = Ok d1 -> d_records d1 <> [] ->
  exists e, run_build_acorns_features zero wavs mfcc delta vq py3 fs db_dir dir id st = (st, Err e).
Proof.
  intros fs py3 db_dir dir id st cs s hacs d1 H C. destruct (cells_lost cs s H) as (x & E). rewrite E in C.
  exact (numbers_fail zero wavs mfcc delta vq fs py3 db_dir dir id st x hacs d1 C).
Qed.
Theorem C105_empty_speaker : forall (fs : files) py3 db_dir dir id st d1 st' r,
  acorns_model.load py3 fs db_dir (id 1%Z) 1 None false = Ok d1 -> In [] (d_records d1) ->
  run_build_acorns_features zero wavs mfcc delta vq py3 fs db_dir dir id st = (st', r) -> r <> Ok tt.
Proof. exact (empty_speaker zero wavs mfcc delta vq). Qed.
End Props.
Print Assumptions C105_codebooks.
Print Assumptions C105_no_codebook.
Print Assumptions C105_buildable.
Print Assumptions C105_codebook_file.
Print Assumptions C105_acorns_codebook.
Print Assumptions C105_features.
Print Assumptions C105_features_labels.
Print Assumptions C105_others_kept.
Print Assumptions C105_equal_shapes.
Print Assumptions C105_empty_speaker.

(** ** Cases that meet the hypotheses *)
Local Open Scope string_scope.
(** Sounds that are their own coefficients, one for each name. *)
Definition ex_wavs (p : string) : result (mat nat) :=
  Ok (if String.eqb p "/r/WAV/Speaker-01/b.wav" then Mat 3 [[1; 2; 3]; [4; 5; 6]] else Mat 8 [[0; 1; 0; 1; 0; 0; 1; 1]; [7; 7; 7; 7; 7; 7; 7; 7]]).
Definition ex_delta (m : mat nat) (i : nat) : result (mat nat) := Ok (Mat (mcols m) (map (map (fun x => i + x)) (mrows m))).
Definition ex_kmeans (data : mat nat) (k : Z) : result (mat nat) := Ok (Mat (mcols data) (repeat (repeat 0 (mcols data)) (Z.to_nat k))).
Definition ex_vq (data c : mat nat) : result (list Z) :=
  match mrows c with [] => Err ValueError | _ => Ok (map (fun v => Z.of_nat (Nat.modulo (hd 0 v) (List.length (mrows c)))) (mrows data)) end.
Example C105_ex_kmeans : gives_k ex_kmeans.
Proof. intros data k P. eexists. split; [reflexivity|]. split; [reflexivity|]. cbn [mrows]. apply repeat_length. Qed.
Example C105_ex_vq : gives_codes ex_vq.
Proof.
  intros data c q E. unfold ex_vq in E. destruct (mrows c) as [|x l] eqn:EC; [discriminate E|]. injection E as <-.
  apply Forall_forall. intros z I. apply in_map_iff in I. destruct I as (v & <- & _).
  split; [apply Nat2Z.is_nonneg|]. apply Nat2Z.inj_lt. exact (Nat.mod_upper_bound (hd 0 v) (List.length (x :: l)) ltac:(discriminate)).
Qed.
Definition ex_year (name : string) : val unit :=
  VDict [(KStr "root", VStr "/r"); (KStr "tags", VList [VStr "dog"]);
         (KStr "speakers", VList [VDict [(KStr "name", VStr name); (KStr "records", VList
            [VDict [(KStr "audio_file", VStr "b.wav"); (KStr "tags", VList [VStr "car"])];
             VDict [(KStr "audio_file", VStr "a.wav"); (KStr "tags", VList [VStr "dog"])]])]])].
Definition ex_files : files unit :=
  [("/db/ACORNS/Acorns_Y1.json", Some (ex_year "Speaker-01")); ("/db/ACORNS/Acorns_Y2.json", Some (ex_year "Speaker-02"));
   ("/db/VCTK-Corpus/VCTK.json", Some (ex_year "p225"))].
Definition ex_books : list (mat nat) := [Mat 2 [[0; 0]; [1; 1]]; Mat 2 [[0; 0]; [1; 1]]; Mat 2 [[3; 3]]].
Definition ex_store : list (string * mat_file nat) := [("/f/vctk_codebook.mat", MatFile (stored (Cells ex_books)) None)].
Definition ex_run := run_build_acorns_features 0 ex_wavs (fun s => Ok s) ex_delta ex_vq true ex_files "/db" "/f" Z.to_nat.
Example C105_ex_hypotheses :
  dict_get String.eqb ex_store "/f/vctk_codebook.mat" = Some (MatFile (Cells ex_books) None) /\
  exists d1 d2, acorns_model.load true ex_files "/db" 1 1 None false = Ok d1 /\ acorns_model.load true ex_files "/db" 2 2 None false = Ok d2 /\
    all_rows 0 ex_wavs (fun s => Ok s) ex_delta ex_vq ex_books d1 /\ all_rows 0 ex_wavs (fun s => Ok s) ex_delta ex_vq ex_books d2 /\
    nth_error (d_records d1) 1 = None.
Proof.
  split; [reflexivity|]. eexists. eexists. split; [vm_compute; reflexivity|]. split; [vm_compute; reflexivity|].
  split; [|split; [|reflexivity]]; (constructor; [|constructor]); (split; [discriminate|]); repeat constructor;
    (eexists; eexists; eexists; split; [vm_compute; reflexivity|]; split; [reflexivity|vm_compute; reflexivity]).
Qed.
(** The record of a.wav is the first. *)
Example C105_ex_run : exists st', ex_run ex_store = (st', Ok tt) /\
  hac_of st' "/f/acorns_HAC_Y1_S01_python.mat" = Ok [[1; 0; 1; 1; 2; 1; 2; 1; 1; 1; 0; 1; 1; 2; 1; 2; 3; 6]; [0; 0; 0; 0; 0; 0; 0; 1; 0; 0; 0; 0; 1; 0; 0; 0; 0; 1]].
Proof. eexists. split; vm_compute; reflexivity. Qed.
Example C105_ex_equal : exists e, ex_run [("/f/vctk_codebook.mat", MatFile (stored (Cells (firstn 2 ex_books))) None)] =
  ([("/f/vctk_codebook.mat", MatFile (Numbers [0; 0; 1; 1; 0; 0; 1; 1]) None)], Err e).
Proof. exists ValueError. vm_compute. reflexivity. Qed.
Example C105_ex_build : match run_build_codebook (Arr := unit) 0 ex_wavs (fun s => Ok s) ex_delta ex_kmeans ex_kmeans ex_files "/db" "/f" 0 [] with
  | ([(name, f)], Ok _) => name = "/f/vctk_codebook.mat" /\ match m_codebooks f with Cells l => map shape l = [(150, 2); (150, 2); (100, 2)] | _ => False end
  | _ => False end.
Proof. vm_compute. split; reflexivity. Qed.
(** The codebooks of the two years. *)
Example C105_ex_acorns : match build_acorns_codebook (Arr := unit) 0 ex_wavs (fun s => Ok s) ex_delta ex_kmeans ex_kmeans true ex_files "/db" Z.to_nat [2; 2; 1]%Z with
  | Ok cs => map shape cs = [(2, 2); (2, 2); (1, 2)] | Err _ => False end.
Proof. vm_compute. reflexivity. Qed.
