(** * Model of multimodal/lib/window.py (time windows).

    Times, rates and tolerances are exact rationals: the rounding of floating
    point operations is not modelled (the tolerances of the code exist because
    of it).  NaN and infinite times are not modelled.  Windows are immutable
    values in this file; the mutable objects are in winheap_model.v, which uses
    the functions below on the contents of each object.

    Samples have any type [A], objects attached to basic windows any type [O]
    ([None] is Python's None), paths any type [P].  Concatenations contain basic,
    array or wav windows; a concatenation inside a concatenation and write_as_wav are in
    winnest_model.v. __repr__ is not modelled. *)

From Coq Require Import List ZArith QArith Qround Bool.
Import ListNotations.
From Verif Require Import Py.
Open Scope py_scope.
Local Open Scope Q_scope.

(** window.py:8 *)
Definition TOL : Q := 1 # 100000000.

(** Comparison [a < b] as a boolean. *)
Definition Qlt_bool (a b : Q) : bool := negb (Qle_bool b a).

(** Division of Python numbers. *)
Definition py_div (a b : Q) : result Q :=
  if Qeq_bool b 0 then Err ZeroDivisionError else Ok (a / b).

(** _to_approx_int (window.py:20-30). *)
Definition to_approx_int (x tol : Q) (above : bool) : Z :=
  let f := Qfloor x in
  let c := Qceiling x in
  if Qlt_bool (inject_Z c - x) tol then c
  else if Qlt_bool (x - inject_Z f) tol then f
  else if above then c
  else f.

(** _snap_above (window.py:33-34). *)
Definition snap_above (x ref tol : Q) : Q :=
  if Qlt_bool (ref - tol) x then ref else x.

(** _arange (window.py:37-50). *)
Definition arange (left right step : Q) (include : bool) (tol : Q) : result (list Q) :=
  x <- py_div ((right - left) * 1) step ;;
  t <- py_div tol step ;;
  let n_steps := to_approx_int x t false in
  if (n_steps <? 0)%Z then Ok []
  else
    let l := map (fun i => left + inject_Z (Z.of_nat i) * step)
                 (seq 0 (Z.to_nat n_steps)) in
    let last := snap_above (left + inject_Z n_steps * step) right tol in
    if include || negb (Qeq_bool last right) then Ok (l ++ [last]) else Ok l.

(** TimeWindow.check_time (window.py:86-92), given the bounds of the window. *)
Definition check_time (start stop t : Q) : result unit :=
  if Qlt_bool t start then Err TimeOutOfBound
  else if Qlt_bool stop t then Err TimeOutOfBound
  else Ok tt.

(** ** Basic windows (window.py:99-122). *)
Record basic (O : Type) := Basic { b_start : Q; b_end : Q; b_obj : option O }.
Arguments Basic {O} _ _ _.
Arguments b_start {O} _.
Arguments b_end {O} _.
Arguments b_obj {O} _.

(** window.py:112-118; the attributes of the fresh copy are overwritten. *)
Definition basic_get_subwindow {O} (w : basic O) (t_start t_end : Q) : result (basic O) :=
  check_time (b_start w) (b_end w) t_start ;;;
  check_time (b_start w) (b_end w) t_end ;;;
  Ok (Basic t_start (if Qlt_bool t_start t_end then t_end else t_start) (b_obj w)).

(** window.py:82-84 *)
Definition basic_move {O} (w : basic O) (delta : Q) : basic O :=
  Basic (b_start w + delta) (b_end w + delta) (b_obj w).

(** ** Sampled windows (window.py:125-162). *)

(** _samples_to_duration (window.py:146-147). *)
Definition samples_to_duration (rate : Q) (n : Z) : result Q :=
  py_div (inject_Z n * 1) rate.

(** _get_index_after (window.py:149-152), with the attributes it reads. *)
Definition get_index_after (start stop rate t : Q) : result Z :=
  check_time start stop t ;;;
  Ok (to_approx_int ((t - start) * rate) (TOL * rate) true).

(** _get_index_before (window.py:154-157). *)
Definition get_index_before (start stop rate t : Q) : result Z :=
  check_time start stop t ;;;
  Ok (to_approx_int ((t - start) * rate) (TOL * rate) false).

(** get_times (window.py:159-162). *)
Definition get_times (start rate : Q) (n_samples : nat) : result (list Q) :=
  d <- samples_to_duration rate 1 ;;
  Ok (map (fun i => start + ((1 # 2) + inject_Z (Z.of_nat i)) * d) (seq 0 n_samples)).

(** ** Array windows (window.py:165-201). *)
Record arrw (A : Type) := Arrw { a_start : Q; a_end : Q; a_rate : Q; a_data : list A }.
Arguments Arrw {A} _ _ _ _.
Arguments a_start {A} _.
Arguments a_end {A} _.
Arguments a_rate {A} _.
Arguments a_data {A} _.

(** __init__ (window.py:170-172 and 132-136). *)
Definition new_array_window {A} (data : list A) (start rate : Q) : result (arrw A) :=
  d <- samples_to_duration rate (Z.of_nat (length data)) ;;
  Ok (Arrw start (start + d) rate data).

(** window.py:178-183 *)
Definition array_get_subwindow {A} (w : arrw A) (t_start t_end : Q) : result (arrw A) :=
  i_start <- get_index_after (a_start w) (a_end w) (a_rate w) t_start ;;
  i_end <- get_index_before (a_start w) (a_end w) (a_rate w) t_end ;;
  d <- samples_to_duration (a_rate w) i_start ;;
  new_array_window (slice (a_data w) i_start i_end) (a_start w + d) (a_rate w).

(** window.py:188-189; __init__ recomputes the end. *)
Definition array_copy {A} (w : arrw A) : result (arrw A) :=
  new_array_window (a_data w) (a_start w) (a_rate w).

Definition array_move {A} (w : arrw A) (delta : Q) : arrw A :=
  Arrw (a_start w + delta) (a_end w + delta) (a_rate w) (a_data w).

(** ArrayTimeWindow.concatenate (window.py:194-201): the rates are compared
    first; np.hstack of no array raises ValueError. *)
Definition array_concatenate {A} (wins : list (arrw A)) : result (arrw A) :=
  match wins with
  | [] => Err ValueError
  | w0 :: _ =>
      if forallb (fun w => Qeq_bool (a_rate w) (a_rate w0)) wins then
        new_array_window (concat (map (fun w => a_data w) wins)) (a_start w0) (a_rate w0)
      else Err ValueError
  end.

(** ** Wav windows (window.py:204-261). *)
Record wavw (P : Type) := Wavw {
  v_path : P; v_start : Q; v_end : Q; v_rate : Q; v_after : Z; v_stop : Z }.
Arguments Wavw {P} _ _ _ _ _ _.
Arguments v_path {P} _.
Arguments v_start {P} _.
Arguments v_end {P} _.
Arguments v_rate {P} _.
Arguments v_after {P} _.
Arguments v_stop {P} _.

(** The file system read by scipy.io.wavfile.read: rate and samples of a file,
    or the exception it raises. *)
Definition wavfiles (P A : Type) := P -> result (Q * list A).

(** __init__ (window.py:211-221). *)
Definition new_wav_window {P A} (files : wavfiles P A) (path : P) (start : Q)
    (n_samples_and_rate : option (Z * Q)) : result (wavw P) :=
  '(n, rate) <- match n_samples_and_rate with
                | None => '(rate, samples) <- files path ;;
                          Ok (Z.of_nat (length samples), rate)
                | Some nr => Ok nr
                end ;;
  d <- samples_to_duration rate n ;;
  Ok (Wavw path start (start + d) rate 0 n).

(** n_samples (window.py:223-225). *)
Definition wav_n_samples {P} (w : wavw P) : Z := (v_stop w - v_after w)%Z.

(** copy (window.py:249-256). *)
Definition wav_copy {P A} (files : wavfiles P A) (w : wavw P) : result (wavw P) :=
  new <- new_wav_window files (v_path w) (v_start w)
           (Some ((v_stop w - v_after w)%Z, v_rate w)) ;;
  Ok (Wavw (v_path new) (v_start new) (v_end new) (v_rate new) (v_after w) (v_stop w)).

(** _delay_start (window.py:227-232). *)
Definition wav_delay_start {P} (w : wavw P) (t : Q) : result (wavw P) :=
  shift <- get_index_after (v_start w) (v_end w) (v_rate w) t ;;
  d <- samples_to_duration (v_rate w) shift ;;
  Ok (Wavw (v_path w) (v_start w + d) (v_end w) (v_rate w) (v_after w + shift) (v_stop w)).

(** _stop_at (window.py:234-238). *)
Definition wav_stop_at {P} (w : wavw P) (t : Q) : result (wavw P) :=
  stop_after <- get_index_before (v_start w) (v_end w) (v_rate w) t ;;
  d <- samples_to_duration (v_rate w) stop_after ;;
  Ok (Wavw (v_path w) (v_start w) (v_start w + d) (v_rate w) (v_after w)
        (v_after w + stop_after)).

(** get_subwindow (window.py:240-247): the crop is applied to a fresh copy. *)
Definition wav_get_subwindow {P A} (files : wavfiles P A) (w : wavw P) (t_start t_end : Q)
  : result (wavw P) :=
  sub <- wav_copy files w ;;
  sub <- wav_delay_start sub t_start ;;
  wav_stop_at sub t_end.

Definition wav_move {P} (w : wavw P) (delta : Q) : wavw P :=
  Wavw (v_path w) (v_start w + delta) (v_end w + delta) (v_rate w) (v_after w) (v_stop w).

(** to_array_window (window.py:258-261). *)
Definition wav_to_array {P A} (files : wavfiles P A) (w : wavw P) : result (arrw A) :=
  '(sr, samples) <- files (v_path w) ;;
  new_array_window (slice samples (v_after w) (v_stop w)) (v_start w) sr.

(** ** Any of the three. *)
Inductive leaf (O A P : Type) :=
| LB (w : basic O) | LA (w : arrw A) | LW (w : wavw P).
Arguments LB {O A P} _.
Arguments LA {O A P} _.
Arguments LW {O A P} _.

Section Windows.
Context {O A P : Type} (files : wavfiles P A).
Notation leaf := (leaf O A P).

Definition w_start (w : leaf) : Q :=
  match w with LB b => b_start b | LA a => a_start a | LW v => v_start v end.
Definition w_end (w : leaf) : Q :=
  match w with LB b => b_end b | LA a => a_end a | LW v => v_end v end.

(** window.py:65-66 *)
Definition duration (w : leaf) : Q := w_end w - w_start w.

(** window.py:79-80 *)
Definition mean_time (w : leaf) : Q := (1 # 2) * (w_end w + w_start w).

(** window.py:82-84 *)
Definition move (w : leaf) (delta : Q) : leaf :=
  match w with
  | LB b => LB (basic_move b delta)
  | LA a => LA (array_move a delta)
  | LW v => LW (wav_move v delta)
  end.

Definition copy (w : leaf) : result leaf :=
  match w with
  | LB b => Ok (LB b)
  | LA a => a' <- array_copy a ;; Ok (LA a')
  | LW v => v' <- wav_copy files v ;; Ok (LW v')
  end.

Definition get_subwindow (w : leaf) (t_start t_end : Q) : result leaf :=
  match w with
  | LB b => b' <- basic_get_subwindow b t_start t_end ;; Ok (LB b')
  | LA a => a' <- array_get_subwindow a t_start t_end ;; Ok (LA a')
  | LW v => v' <- wav_get_subwindow files v t_start t_end ;; Ok (LW v')
  end.

(** Basic windows have no to_array_window (window.py:185, 258). *)
Definition to_array_window (w : leaf) : result (arrw A) :=
  match w with
  | LB _ => Err AttributeError
  | LA a => array_copy a
  | LW v => wav_to_array files v
  end.

(** ** Concatenations (window.py:264-329). *)

(** abs and max of a list of numbers that ends with 0 (window.py:274). *)
Definition Qabs_diff (a b : Q) : Q := if Qle_bool b a then a - b else b - a.
Definition Qmax_list (l : list Q) : Q :=
  fold_right (fun a b => if Qle_bool a b then b else a) 0 l.

(** __init__ (window.py:267-276). *)
Definition new_concat (windows : list leaf) : result (list leaf) :=
  if (length windows <? 1)%nat then Err ValueError
  else
    let starts := map w_start (slice_from windows 1) in
    let ends := slice_to (map w_end windows) (-1) in
    if Qlt_bool TOL (Qmax_list (map (fun p => Qabs_diff (fst p) (snd p)) (combine ends starts)))
    then Err ValueError
    else Ok windows.

(** The properties absolute_start and absolute_end (window.py:278-284). *)
Definition concat_start (ws : list leaf) : result Q := w <- py_nth ws 0 ;; Ok (w_start w).
Definition concat_end (ws : list leaf) : result Q := w <- py_nth ws (-1) ;; Ok (w_end w).

(** window.py:286-288 *)
Definition concat_move (ws : list leaf) (delta : Q) : list leaf := map (fun w => move w delta) ws.

(** bisect.bisect_left of the standard library:
    while lo < hi: mid = (lo + hi) // 2;
    if a[mid] < x: lo = mid + 1 else: hi = mid. *)
Fixpoint bisect_loop (fuel : nat) (a : list Q) (x : Q) (lo hi : nat) : nat :=
  match fuel with
  | 0%nat => lo
  | S fuel' =>
      if (lo <? hi)%nat then
        let mid := ((lo + hi) / 2)%nat in
        if Qlt_bool (nth mid a 0) x then bisect_loop fuel' a x (S mid) hi
        else bisect_loop fuel' a x lo mid
      else lo
  end.
Definition bisect_left (a : list Q) (x : Q) : nat := bisect_loop (length a) a x 0 (length a).

(** _get_file_index_from_time (window.py:314-316). *)
Definition get_file_index (ws : list leaf) (t : Q) : result nat :=
  s <- concat_start ws ;;
  e <- concat_end ws ;;
  check_time s e t ;;;
  Ok (bisect_left (map w_end ws) t).

(** get_subwindow_at (window.py:308-309); the index is never negative. *)
Definition get_subwindow_at (ws : list leaf) (t : Q) : result leaf :=
  i <- get_file_index ws t ;; py_nth ws (Z.of_nat i).

(** copy (window.py:305-306). *)
Definition concat_copy (ws : list leaf) : result (list leaf) :=
  ws' <- mapM copy ws ;; new_concat ws'.

(** get_subwindow (window.py:290-298). *)
Definition concat_get_subwindow (ws : list leaf) (t_start t_end : Q) : result (list leaf) :=
  i_start <- get_file_index ws t_start ;;
  i_end <- get_file_index ws t_end ;;
  new <- mapM copy (slice ws (Z.of_nat i_start) (1 + Z.of_nat i_end)) ;;
  w0 <- py_nth new 0 ;;
  w0' <- get_subwindow w0 t_start (w_end w0) ;;
  new <- py_set new 0 w0' ;;
  w1 <- py_nth new (-1) ;;
  w1' <- get_subwindow w1 (w_start w1) t_end ;;
  new <- py_set new (-1) w1' ;;
  new_concat new.

(** to_array_window (window.py:300-303). *)
Definition concat_to_array (ws : list leaf) : result (arrw A) :=
  l <- mapM to_array_window ws ;; array_concatenate l.

(** align (window.py:318-329). *)
Fixpoint align_loop (t : Q) (ws : list leaf) : list leaf :=
  match ws with
  | [] => []
  | w :: ws' =>
      let w' := move w (t - w_start w) in
      w' :: align_loop (t + duration w') ws'
  end.
Definition align (ws : list leaf) (start : option Q) : result (list leaf) :=
  s <- match start with
       | Some s => Ok s
       | None => w <- py_nth ws 0 ;; Ok (w_start w)
       end ;;
  Ok (align_loop s ws).

(** concat_from_list_of_wavs (window.py:332-335). *)
Definition concat_from_list_of_wavs (paths : list P) (start : option Q) : result (list leaf) :=
  ws <- mapM (fun f => w <- new_wav_window files f 0 None ;; Ok (LW w)) paths ;;
  al <- align ws start ;;
  new_concat al.

(** save_wav (window.py:338-342): what is given to wavfile.write.  The rate of
    the first window is read first: AttributeError for a basic window. *)
Definition save_wav (ws : list leaf) : result (Q * list A) :=
  w0 <- py_nth ws 0 ;;
  rate <- match w0 with LB _ => Err AttributeError | LA a => Ok (a_rate a) | LW v => Ok (v_rate v) end ;;
  a <- concat_to_array ws ;;
  Ok (rate, a_data a).

(** slider (window.py:345-357). *)
Definition slider (t_start t_end width shift : Q) (partial : bool) (tol : Q)
  : result (list (Q * Q)) :=
  let end_start := if partial then t_end else t_end - width in
  starts <- arange t_start end_start shift (negb partial) tol ;;
  Ok (map (fun t => (t, snap_above (t + width) t_end tol)) starts).

(** concat_of_frames (window.py:360-367). *)
Definition concat_of_frames (t_start t_end rate : Q) : result (list leaf) :=
  duration <- py_div 1 rate ;;
  times <- slider t_start t_end duration duration true TOL ;;
  new_concat (map (fun p => LB (Basic (fst p) (snd p) None)) times).

End Windows.

(** ** Call histories on one wav window: the caller keeps using the window
    returned last; a get_subwindow that raises leaves it with the old one. *)
Inductive wav_op := WMove (delta : Q) | WCopy | WSub (t_start t_end : Q).
Definition wav_step {P A} (files : wavfiles P A) (w : wavw P) (o : wav_op) : wavw P :=
  match o with
  | WMove d => wav_move w d
  | WCopy => match wav_copy files w with Ok w' => w' | Err _ => w end
  | WSub a b => match wav_get_subwindow files w a b with Ok w' => w' | Err _ => w end
  end.
Definition wav_run {P A} (files : wavfiles P A) (w : wavw P) (h : list wav_op) : wavw P :=
  fold_left (wav_step files) h w.
