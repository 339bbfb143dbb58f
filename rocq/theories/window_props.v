(** * Properties of time windows (window.py). *)

From Coq Require Import List ZArith QArith Qround Bool Lia Lqa.
Import ListNotations.
From Verif Require Import Py window_model window_spec window_proof window_concat window_slider
  window_sampled window_wavs.
Local Open Scope Q_scope.

(** ** C11: BasicTimeWindow.get_subwindow. *)
Theorem C11_basic_subwindow : forall (O : Type) (w : basic O) (a b : Q),
  within (b_start w) (b_end w) a -> within (b_start w) (b_end w) b ->
  exists w', basic_get_subwindow w a b = Ok w' /\ b_start w' = a /\
    (b < a -> b_end w' = a) /\ (a <= b -> b_end w' == b) /\ b_obj w' = b_obj w.
Proof. exact @basic_sub_ok. Qed.
Print Assumptions C11_basic_subwindow.

Theorem C11_out_of_bounds : forall (O : Type) (w : basic O) (a b : Q),
  ~ (within (b_start w) (b_end w) a /\ within (b_start w) (b_end w) b) ->
  basic_get_subwindow w a b = Err TimeOutOfBound.
Proof. exact @basic_sub_err. Qed.
Print Assumptions C11_out_of_bounds.

(** ** C12: ArrayTimeWindow.get_subwindow.  [array_ok w] says that the rate is
    positive and that the window ends where its samples end; it holds of every
    window built from samples, and of every sub-window. *)
Theorem C12_largest_subwindow : forall (A : Type) (w : arrw A) (a b : Q),
  array_ok w -> within (a_start w) (a_end w) a -> within (a_start w) (a_end w) b ->
  exists w' i j,
    array_get_subwindow w a b = Ok w' /\
    (i <= length (a_data w))%nat /\ (j <= length (a_data w))%nat /\
    a_data w' = segment (a_data w) i j /\
    a_start w' == sample_time (a_start w) (a_rate w) i /\
    a_rate w' = a_rate w /\ array_ok w' /\
    (forall k, (i <= k < j)%nat ->
       sample_inside (a_start w) (a_rate w) (a - tolerance) (b + tolerance) k) /\
    (forall k, sample_inside (a_start w) (a_rate w) a b k -> (i <= k < j)%nat) /\
    (b < a -> (j <= i)%nat).
Proof. exact @array_sub_spec. Qed.
Print Assumptions C12_largest_subwindow.

Theorem C12_constructor : forall (A : Type) (data : list A) (start rate : Q), 0 < rate ->
  exists w, new_array_window data start rate = Ok w /\ array_ok w /\
    a_start w = start /\ a_rate w = rate /\ a_data w = data.
Proof. exact @new_array_ok. Qed.
Print Assumptions C12_constructor.

Theorem C12_out_of_bounds : forall (A : Type) (w : arrw A) (a b : Q),
  ~ (within (a_start w) (a_end w) a /\ within (a_start w) (a_end w) b) ->
  array_get_subwindow w a b = Err TimeOutOfBound.
Proof. exact @array_sub_err. Qed.
Print Assumptions C12_out_of_bounds.

(** ** C13: any history of moves, copies and crops of a wav window. *)
Theorem C13_histories : forall (P A : Type) (files : wavfiles P A) (path : P) (rate : Q)
    (samples : list A) (start : Q) (h : list wav_op),
  files path = Ok (rate, samples) -> 0 < rate ->
  exists w0, new_wav_window files path start None = Ok w0 /\
  let w := wav_run files w0 h in
  v_path w = path /\ v_rate w = rate /\
  (0 <= v_after w <= v_stop w)%Z /\ (v_stop w <= Z.of_nat (length samples))%Z /\
  v_end w == v_start w + inject_Z (wav_n_samples w) / rate /\
  (* sample number v_after of the file is at the start of the window: the file
     as a whole has been moved by the sum of the displacements *)
  v_start w == start + sum_Q (map (fun o => match o with WMove d => d | _ => 0 end) h)
               + inject_Z (v_after w) / rate /\
  exists x, wav_to_array files w = Ok x /\ a_start x = v_start w /\ a_end x == v_end w /\
    a_rate x = rate /\ a_data x = segment samples (Z.to_nat (v_after w)) (Z.to_nat (v_stop w)).
Proof.
  intros P A files path rate samples start h F R.
  destruct (new_wav_ok files path rate samples start F R) as (w0 & H & V & E1 & E2 & E3 & E4 & E5).
  exists w0. split; auto. cbv zeta.
  destruct (wav_run_ok files samples h w0 V) as (V' & P' & R' & S').
  destruct (wav_to_array_ok files samples _ V') as (x & Hx & _ & Sx & Ex & Rx & Dx & _).
  destruct V' as (_ & _ & B & C & E).
  rewrite E1 in P'. rewrite E3 in *. rewrite R' in *.
  repeat (split; [solve [auto]|]).
  split; [|exists x; auto 10].
  rewrite E4, E2 in S'. change (inject_Z 0) with 0 in S'.
  change (fun o : wav_op => match o with WMove d => d | _ => 0 end) with op_delta.
  assert (K : start - 0 / rate == start) by (field; lra). rewrite K in S'. rewrite <- S'. ring.
Qed.
Print Assumptions C13_histories.

(** copy is a clone. *)
Theorem C13_copy : forall (P A : Type) (files : wavfiles P A) (samples : list A) (w : wavw P),
  wav_ok files samples w ->
  exists w', wav_copy files w = Ok w' /\ wav_ok files samples w' /\
    v_path w' = v_path w /\ v_start w' = v_start w /\ v_end w' == v_end w /\
    v_rate w' = v_rate w /\ v_after w' = v_after w /\ v_stop w' = v_stop w.
Proof. exact @wav_copy_ok. Qed.
Print Assumptions C13_copy.

(** ** C14: wav windows and array windows.  [wav_ok files samples w]: the file
    contains [samples] at the rate of the window, the bounds are within the file
    and the end is where the last sample ends (C13: true in any history). *)
Theorem C14_wav_array_agree : forall (P A : Type) (files : wavfiles P A) (samples : list A)
    (w : wavw P) (aw : arrw A) (a b : Q),
  wav_ok files samples w -> wav_to_array files w = Ok aw ->
  (exists w' aw' bw', wav_get_subwindow files w a b = Ok w' /\ wav_ok files samples w' /\
     v_path w' = v_path w /\ v_rate w' = v_rate w /\
     v_start w' == v_start w + inject_Z (v_after w' - v_after w) / v_rate w /\
     array_get_subwindow aw a b = Ok aw' /\ wav_to_array files w' = Ok bw' /\
     a_start bw' == a_start aw' /\ a_rate bw' = a_rate aw' /\ a_data bw' = a_data aw' /\
     a_end bw' == a_end aw' /\ a_start aw' <= b) \/
  (wav_get_subwindow files w a b = Err TimeOutOfBound /\
     array_get_subwindow aw a b = Err TimeOutOfBound) \/
  (exists aw', wav_get_subwindow files w a b = Err TimeOutOfBound /\
     array_get_subwindow aw a b = Ok aw' /\ a_data aw' = [] /\ b < a_start aw').
Proof. exact @wav_sub_spec. Qed.
Print Assumptions C14_wav_array_agree.

(** ** C15: construction, alignment, lookup. *)
Theorem C15_construct : forall (O A P : Type) (ws : list (leaf O A P)),
  (new_concat ws = Ok ws /\ ws <> [] /\ chained tolerance (map span ws)) \/
  (new_concat ws = Err ValueError /\ ~ (ws <> [] /\ chained tolerance (map span ws))).
Proof. exact @new_concat_cases. Qed.
Print Assumptions C15_construct.

(** align: same windows, moved; contiguous from the requested start.  With
    durations that are not negative the result cuts one interval, whose length
    is the sum of the durations. *)
Theorem C15_align : forall (O A P : Type) (ws : list (leaf O A P)) (s : Q),
  exists ws', align ws (Some s) = Ok ws' /\
    Forall2 (fun w w' => exists d, w' = move w d) ws ws' /\
    Forall2 (fun w w' => duration w' == duration w) ws ws' /\
    chained 0 (map span ws') /\
    (ws <> [] -> new_concat ws' = Ok ws') /\
    (forall w, nth_error ws' 0 = Some w -> w_start w == s) /\
    (Forall (fun w => 0 <= duration w) ws ->
     tiles s (map span ws') (s + sum_Q (map duration ws))).
Proof.
  intros O A P ws s. exists (align_loop s ws).
  destruct (align_loop_spec ws s) as (G1 & G2 & G3 & G4).
  split; auto. split; auto.
  split; [clear -G1; induction G1 as [|x y l l' [d ->] G IH]; constructor; auto; apply move_span|].
  split; auto. split; auto. intro N. apply new_concat_ok. split.
  - destruct ws; [contradiction|discriminate].
  - eapply chained_weaken; [|exact G2]. apply Qlt_le_weak, TOL_pos.
Qed.
Print Assumptions C15_align.

(** Without a start, the first window stays where it is; the empty list has none. *)
Theorem C15_align_default : forall (O A P : Type) (w : leaf O A P) (ws : list (leaf O A P)),
  align (w :: ws) None = align (w :: ws) (Some (w_start w)) /\
  align (@nil (leaf O A P)) None = Err IndexError.
Proof. intros. split; reflexivity. Qed.
Print Assumptions C15_align_default.

Theorem C15_lookup : forall (O A P : Type) (ws : list (leaf O A P)) (t s e : Q),
  chained tolerance (map span ws) -> concat_start ws = Ok s -> concat_end ws = Ok e -> within s e t ->
  exists i w, get_file_index ws t = Ok i /\ get_subwindow_at ws t = Ok w /\
    nth_error ws i = Some w /\
    t <= w_end w /\ w_start w - tolerance <= t /\ (i = 0%nat -> w_start w <= t) /\
    (forall k v, i = S k -> nth_error ws k = Some v -> w_end v < t).
Proof. exact @lookup_spec. Qed.
Print Assumptions C15_lookup.

(** It is the first window that ends at [t] or later, when no window ends before
    its predecessor, which holds when every window lasts at least tolerance. *)
Theorem C15_lookup_first : forall (O A P : Type) (ws : list (leaf O A P)) (t s e : Q),
  chained tolerance (map span ws) -> concat_start ws = Ok s -> concat_end ws = Ok e -> within s e t ->
  (forall j u v, nth_error ws j = Some u -> nth_error ws (S j) = Some v -> w_end u <= w_end v) ->
  exists i w, get_subwindow_at ws t = Ok w /\ nth_error ws i = Some w /\
    t <= w_end w /\ w_start w - tolerance <= t /\
    (forall j v, (j < i)%nat -> nth_error ws j = Some v -> w_end v < t).
Proof. exact @lookup_first. Qed.
Print Assumptions C15_lookup_first.

Theorem C15_long_windows : forall (O A P : Type) (ws : list (leaf O A P)),
  chained tolerance (map span ws) -> Forall (fun w => tolerance <= duration w) ws ->
  forall j u v, nth_error ws j = Some u -> nth_error ws (S j) = Some v -> w_end u <= w_end v.
Proof. exact @long_ends. Qed.
Print Assumptions C15_long_windows.

Theorem C15_out_of_bounds : forall (O A P : Type) (files : wavfiles P A) (ws : list (leaf O A P)) (t s e : Q),
  concat_start ws = Ok s -> concat_end ws = Ok e -> ~ within s e t ->
  get_subwindow_at ws t = Err TimeOutOfBound /\
  forall b, concat_get_subwindow files ws t b = Err TimeOutOfBound.
Proof. exact @lookup_out. Qed.
Print Assumptions C15_out_of_bounds.

(** A window shorter than tolerance that overlaps its predecessor makes bisect return
    a window that is not the first one ending at [t] or later. *)
Definition nofile : wavfiles unit unit := fun _ => Err IOError.
Definition bw (a b : Q) (o : nat) : leaf nat unit unit := LB (Basic a b (Some o)).
Definition short_overlap : list (leaf nat unit unit) :=
  [bw 0 1 0; bw (1 - TOL) (1 - TOL / 2) 1; bw (1 - TOL / 2) 2 2].
Theorem C15_first_refuted :
  new_concat short_overlap = Ok short_overlap /\
  get_subwindow_at short_overlap (1 - TOL / 4) = nth 2 (map (@Ok _) short_overlap) (Err IndexError) /\
  within 0 1 (1 - TOL / 4).
Proof. vm_compute. repeat split; discriminate. Qed.
Print Assumptions C15_first_refuted.

(** ** C16: sub-windows of a concatenation of basic windows. *)
Theorem C16_covers_range : forall (O A P : Type) (files : wavfiles P A) (lo : Q) (bs : list (basic O)) (hi a b : Q),
  bs <> [] -> tiles lo (map bspan bs) hi -> lo <= a -> a <= b -> b <= hi ->
  exists i j new, concat_get_subwindow files (map LB bs) a b = Ok (map LB new) /\
    (i <= j)%nat /\ (j < length bs)%nat /\
    tiles a (map bspan new) b /\ new <> [] /\
    Forall2 piece_of (segment bs i (S j)) new /\
    (forall k v, (k < i)%nat -> nth_error bs k = Some v -> b_end v < a) /\
    (forall k p q, nth_error new k = Some p -> nth_error bs (i + k) = Some q ->
       (S k < length new)%nat -> b_end p == b_end q) /\
    length new = (S j - i)%nat.
Proof. exact @concat_basic_sub. Qed.
Print Assumptions C16_covers_range.

Theorem C16_lookup_agrees : forall (O A P : Type) (files : wavfiles P A) (lo : Q) (bs : list (basic O))
    (hi a b : Q) (new : list (basic O)),
  bs <> [] -> tiles lo (map bspan bs) hi -> lo <= a -> a <= b -> b <= hi ->
  concat_get_subwindow files (map LB bs) a b = Ok (map LB new) ->
  forall t, within a b t -> exists p q,
    @get_subwindow_at O A P (map LB new) t = Ok (LB p) /\
    @get_subwindow_at O A P (map LB bs) t = Ok (LB q) /\
    b_obj p = b_obj q.
Proof. exact @concat_basic_lookup. Qed.
Print Assumptions C16_lookup_agrees.

(** Exact alignment is needed: a gap below TOL is accepted by the constructor,
    yet a range beginning inside the gap raises. *)
Definition small_gap : list (leaf nat unit unit) := [bw 0 1 0; bw (1 + TOL / 2) 2 1].
Theorem C16_gap_refuted :
  new_concat small_gap = Ok small_gap /\
  concat_start small_gap = Ok 0 /\ concat_end small_gap = Ok 2 /\
  within 0 2 (1 + TOL / 4) /\
  concat_get_subwindow nofile small_gap (1 + TOL / 4) 2 = Err TimeOutOfBound.
Proof. vm_compute. repeat split; discriminate. Qed.
Print Assumptions C16_gap_refuted.

(** ** C17: slider. *)
Theorem C17_full_windows : forall (t0 t1 width shift tol : Q), 0 < shift -> 0 <= tol -> tol <= shift ->
  exists l, slider t0 t1 width shift false tol = Ok l /\
    (forall i p, nth_error l i = Some p ->
       near tol (fst p) (t0 + inject_Z (Z.of_nat i) * shift) /\
       ((S i < length l)%nat -> fst p == t0 + inject_Z (Z.of_nat i) * shift) /\
       fst p + width <= t1 /\ snd p <= t1 /\ near tol (snd p) (fst p + width) /\
       (snd p == fst p + width \/ snd p == t1)) /\
    (forall i, t0 + inject_Z (Z.of_nat i) * shift + width <= t1 -> (i < length l)%nat) /\
    (forall i, (length l <= i)%nat ->
       t1 < t0 + inject_Z (Z.of_nat i) * shift + width /\
       t1 + tol <= t0 + inject_Z (Z.of_nat i) * shift + width).
Proof. exact slider_full. Qed.
Print Assumptions C17_full_windows.

Theorem C17_partial_windows : forall (t0 t1 width shift tol : Q),
  0 < shift -> 0 <= tol -> tol + tol <= shift ->
  exists l, slider t0 t1 width shift true tol = Ok l /\
    (forall i p, nth_error l i = Some p ->
       fst p == t0 + inject_Z (Z.of_nat i) * shift /\ fst p < t1 /\ fst p <= t1 - tol /\
       ((snd p = t1 /\ t1 - tol < fst p + width) \/
        (snd p = fst p + width /\ fst p + width <= t1 - tol))) /\
    (forall i, t0 + inject_Z (Z.of_nat i) * shift < t1 ->
       t0 + inject_Z (Z.of_nat i) * shift <= t1 - tol -> (i < length l)%nat).
Proof. exact slider_partial. Qed.
Print Assumptions C17_partial_windows.

(** ** C18: frames. *)
Theorem C18_frames_tile : forall (O A P : Type) (t0 t1 rate : Q),
  0 < rate -> tolerance * rate <= 1 # 2 -> t0 + tolerance <= t1 ->
  exists fs : list (basic O), @concat_of_frames O A P t0 t1 rate = Ok (map LB fs) /\
    fs <> [] /\ tiles t0 (map bspan fs) t1 /\
    (forall k f, nth_error fs k = Some f -> b_obj f = None /\
       b_start f == t0 + inject_Z (Z.of_nat k) / rate /\
       ((S k < length fs)%nat -> b_end f - b_start f == 1 / rate) /\
       (S k = length fs -> b_end f == t1 /\ tolerance <= b_end f - b_start f /\
          b_end f - b_start f < 1 / rate + tolerance)).
Proof. exact @frames_ok. Qed.
Print Assumptions C18_frames_tile.

Theorem C18_short_interval : forall (O A P : Type) (t0 t1 rate : Q),
  0 < rate -> tolerance * rate <= 1 # 2 -> t1 < t0 + tolerance ->
  @concat_of_frames O A P t0 t1 rate = Err ValueError.
Proof. exact @frames_short. Qed.
Print Assumptions C18_short_interval.

Theorem C18_zero_rate : forall (O A P : Type) (t0 t1 rate : Q), rate == 0 ->
  @concat_of_frames O A P t0 t1 rate = Err ZeroDivisionError.
Proof. exact @frames_zero. Qed.
Print Assumptions C18_zero_rate.

(** ** C71: cutting a concatenation of sampled windows and loading the samples
    can be exchanged.  [sampled_ok files w]: [w] is an array window with
    [array_ok] or a wav window with [wav_ok]. *)
Theorem C71_cut_then_load : forall (O A P : Type) (files : wavfiles P A) (r lo : Q)
    (ws : list (leaf O A P)) (hi : Q) (xs : list (arrw A)) (a b : Q),
  0 < r -> ws <> [] ->
  Forall2 (fun w x => sampled_ok files w /\ to_array_window files w = Ok x /\ a_rate x = r) ws xs ->
  tiles lo (map span ws) hi -> lo <= a -> a <= b -> b <= hi ->
  exists X Y, concat_to_array files ws = Ok X /\ array_get_subwindow X a b = Ok Y /\
    ((exists new Z, concat_get_subwindow files ws a b = Ok new /\
        concat_to_array files new = Ok Z /\
        a_start Z == a_start Y /\ a_end Z == a_end Y /\ a_rate Z = a_rate Y /\ a_data Z = a_data Y) \/
     (concat_get_subwindow files ws a b = Err TimeOutOfBound /\ a_data Y = [] /\ b < a_start Y)).
Proof. exact @concat_sub_sampled. Qed.
Print Assumptions C71_cut_then_load.

(** ** C72: a list of sound files. *)
Theorem C72_files_in_order : forall (O A P : Type) (files : wavfiles P A) (r : Q) (paths : list P)
    (contents : list (Q * list A)) (start : option Q),
  paths <> [] ->
  Forall2 (fun f c => files f = Ok c /\ 0 < fst c) paths contents ->
  Forall (fun c => fst c = r) contents ->
  exists ws X, @concat_from_list_of_wavs O A P files paths start = Ok ws /\
    concat_to_array files ws = Ok X /\
    a_start X == (match start with Some s => s | None => 0 end) /\ a_rate X = r /\
    a_data X = concat (map snd contents) /\
    save_wav files ws = Ok (r, concat (map snd contents)).
Proof. exact @wavs_samples. Qed.
Print Assumptions C72_files_in_order.

Theorem C72_rates_differ : forall (O A P : Type) (files : wavfiles P A) (paths : list P)
    (contents : list (Q * list A)) (start : option Q) (i j : nat) (ci cj : Q * list A),
  paths <> [] ->
  Forall2 (fun f c => files f = Ok c /\ 0 < fst c) paths contents ->
  nth_error contents i = Some ci -> nth_error contents j = Some cj -> ~ fst ci == fst cj ->
  exists ws, @concat_from_list_of_wavs O A P files paths start = Ok ws /\
    concat_to_array files ws = Err ValueError.
Proof. exact @wavs_rates_differ. Qed.
Print Assumptions C72_rates_differ.

(** ** C73: the times of the samples of a sub-window are those of the original. *)
Theorem C73_sample_times : forall (A : Type) (x : arrw A) (a b : Q), array_ok x ->
  within (a_start x) (a_end x) a -> within (a_start x) (a_end x) b ->
  exists y i j ts us, array_get_subwindow x a b = Ok y /\
    get_times (a_start x) (a_rate x) (length (a_data x)) = Ok ts /\
    get_times (a_start y) (a_rate y) (length (a_data y)) = Ok us /\
    a_data y = segment (a_data x) i j /\ length us = length (segment ts i j) /\
    (forall k t u, nth_error us k = Some u -> nth_error (segment ts i j) k = Some t -> u == t).
Proof. exact @sub_times. Qed.
Print Assumptions C73_sample_times.

Theorem C73_mid_sample : forall (s r : Q) (n : nat), ~ r == 0 ->
  exists l, get_times s r n = Ok l /\ length l = n /\
    forall k t, nth_error l k = Some t -> t == s + (inject_Z (Z.of_nat k) + (1 # 2)) / r.
Proof. exact get_times_ok. Qed.
Print Assumptions C73_mid_sample.

(** ** Concrete cases. *)
Definition qs (r : result (list (leaf nat nat nat))) : result (list (Q * Q)) :=
  match r with Ok l => Ok (map (fun p => (Qred (fst p), Qred (snd p))) (map span l)) | Err e => Err e end.

(** Ten samples at rate 4 from time 1: [1.3, 2.6] keeps samples 2, 3, 4, 5. *)
Definition ex_arr : arrw nat :=
  match new_array_window [0; 1; 2; 3; 4; 5; 6; 7; 8; 9]%nat 1 4 with Ok w => w | Err _ => Arrw 0 0 0 [] end.
Example ex_arr_sub : match array_get_subwindow ex_arr (13 # 10) (26 # 10) with
    | Ok w => a_data w = [2; 3; 4; 5]%nat /\ a_start w == 3 # 2 /\ a_end w == 5 # 2
    | Err _ => False end.
Proof. vm_compute. auto. Qed.
Example ex_arr_ok : array_ok ex_arr /\ within (a_start ex_arr) (a_end ex_arr) (13 # 10) /\
  within (a_start ex_arr) (a_end ex_arr) (26 # 10).
Proof. vm_compute. repeat split; discriminate. Qed.

(** A file of ten samples at rate 4, cropped twice and moved. *)
Definition ex_files : wavfiles nat nat := fun p =>
  match p with
  | 0%nat => Ok (4, [0; 1; 2; 3; 4; 5; 6; 7; 8; 9]%nat)
  | 1%nat => Ok (4, [10; 11; 12]%nat)
  | 2%nat => Ok (5, [20; 21]%nat)
  | _ => Err IOError
  end.
Definition ex_wav : wavw nat :=
  match new_wav_window ex_files 0%nat 1 None with Ok w => w | Err _ => Wavw 0%nat 0 0 0 0 0 end.
Example ex_history :
  let w := wav_run ex_files ex_wav [WSub (13 # 10) 3; WMove 10; WCopy; WSub 12 13] in
  v_after w = 4%Z /\ v_stop w = 8%Z /\ v_start w == 12 /\ v_end w == 13 /\
  match wav_to_array ex_files w with Ok x => a_data x = [4; 5; 6; 7]%nat | Err _ => False end.
Proof. vm_compute. auto. Qed.
Example ex_files_hyp : ex_files 0%nat = Ok (4, [0; 1; 2; 3; 4; 5; 6; 7; 8; 9]%nat) /\ 0 < 4.
Proof. split; reflexivity. Qed.
(** Between two sample boundaries the array version gives no sample, the wav
    version raises: third case of C14. *)
Example ex_between :
  wav_get_subwindow ex_files ex_wav (11 # 10) (12 # 10) = Err TimeOutOfBound /\
  match array_get_subwindow ex_arr (11 # 10) (12 # 10) with Ok x => a_data x = [] | Err _ => False end.
Proof. vm_compute. auto. Qed.
Example ex_wav_ok : wav_ok ex_files [0; 1; 2; 3; 4; 5; 6; 7; 8; 9]%nat ex_wav.
Proof. vm_compute. repeat split; discriminate. Qed.

Definition ex_bs : list (basic nat) := [Basic 0 1 (Some 3%nat); Basic 1 3 (Some 5%nat); Basic 3 4 None].
Example ex_tiles : tiles 0 (map bspan ex_bs) 4 /\ ex_bs <> [].
Proof. vm_compute. repeat split; discriminate. Qed.
Example ex_concat_sub : qs (concat_get_subwindow ex_files (map LB ex_bs) (1 # 2) (7 # 2)) =
  Ok [(1 # 2, 1); (1, 3); (3, 7 # 2)].
Proof. vm_compute. reflexivity. Qed.
Example ex_lookup : match @get_subwindow_at nat nat nat (map LB ex_bs) 1 with
  | Ok (LB b) => b_obj b = Some 3%nat | _ => False end.
Proof. vm_compute. reflexivity. Qed.
Example ex_align : qs (align (map LB [Basic 5 6 (Some 1%nat); Basic 0 3 None]) (Some 2)) =
  Ok [(2, 3); (3, 6)].
Proof. vm_compute. reflexivity. Qed.
Example ex_slider_full : slider 0 1 (1 # 2) (1 # 5) false TOL <> slider 0 1 (1 # 2) (1 # 5) true TOL.
Proof. vm_compute. discriminate. Qed.
Example ex_slider : match slider 0 1 (1 # 2) (1 # 4) false TOL with
  | Ok l => map (fun p => (Qred (fst p), Qred (snd p))) l = [(0, 1 # 2); (1 # 4, 3 # 4); (1 # 2, 1)]
  | Err _ => False end.
Proof. vm_compute. reflexivity. Qed.
Example ex_slider_hyp : 0 < 1 # 4 /\ 0 <= TOL /\ TOL + TOL <= 1 # 4.
Proof. vm_compute. repeat split; discriminate. Qed.
Example ex_frames : qs (concat_of_frames 0 1 (5 # 2)) = Ok [(0, 2 # 5); (2 # 5, 4 # 5); (4 # 5, 1)].
Proof. vm_compute. reflexivity. Qed.
Example ex_frames_hyp : 0 < 5 # 2 /\ TOL * (5 # 2) <= 1 # 2 /\ 0 + TOL <= 1.
Proof. vm_compute. repeat split; discriminate. Qed.

(** Two files joined, then cut across the boundary. *)
Definition ex_ws : list (leaf nat nat nat) :=
  match concat_from_list_of_wavs ex_files [0; 1]%nat (Some 1) with Ok l => l | Err _ => [] end.
Example ex_join : qs (Ok ex_ws) = Ok [(1, 7 # 2); (7 # 2, 17 # 4)].
Proof. vm_compute. reflexivity. Qed.
Example ex_cut_load : match concat_get_subwindow ex_files ex_ws 3 4 with
  | Ok l => match concat_to_array ex_files l with Ok x => a_data x = [8; 9; 10; 11]%nat | Err _ => False end
  | Err _ => False end.
Proof. vm_compute. reflexivity. Qed.
Example ex_ws_hyp : exists xs,
  Forall2 (fun w x => sampled_ok ex_files w /\ to_array_window ex_files w = Ok x /\ a_rate x = 4) ex_ws xs /\
  tiles 1 (map span ex_ws) (17 # 4).
Proof.
  eexists. split.
  - repeat (constructor; [split; [eexists; vm_compute; repeat split; discriminate|split; reflexivity]|]). constructor.
  - vm_compute. repeat split; discriminate.
Qed.
Example ex_rates : match @concat_from_list_of_wavs nat nat nat ex_files [0; 2]%nat None with
  | Ok l => concat_to_array ex_files l = Err ValueError | Err _ => False end.
Proof. vm_compute. reflexivity. Qed.
Example ex_times : match get_times 1 4 3 with
  | Ok l => map Qred l = [9 # 8; 11 # 8; 13 # 8] | Err _ => False end.
Proof. vm_compute. reflexivity. Qed.
