(** * Concatenations that contain concatenations, and saved wav files: theorems. *)
From Coq Require Import List ZArith QArith Bool Lia Lqa.
Import ListNotations.
From Verif Require Import Py window_model window_spec window_proof window_concat winnest_model winnest_spec winnest_proof winnest_trees winnest_sub winnest_wav.
Local Open Scope Q_scope.

(** The constructor accepts concatenations if and only if it accepts the list of all the
    windows in them. *)
Theorem C128_construct : forall (O A P : Type) (ws : list (tree O A P)), Forall built ws ->
  (new_cat ws = Ok (TCat ws) /\ ws <> [] /\ new_concat (flat_map t_leaves ws) = Ok (flat_map t_leaves ws)) \/
  (new_cat ws = Err ValueError /\ (ws = [] \/ new_concat (flat_map t_leaves ws) = Err ValueError)).
Proof. exact @construct_flat. Qed.
Print Assumptions C128_construct.
(** Times and duration are those of the first and of the last window. *)
Theorem C128_bounds : forall (O A P : Type) (w : tree O A P), built w ->
  exists l l' pre post, t_leaves w = l :: post /\ t_leaves w = pre ++ [l'] /\
    t_start w = Ok (w_start l) /\ t_end w = Ok (w_end l') /\ t_duration w = Ok (w_end l' - w_start l).
Proof.
  intros O A P w B. apply built_chained in B as [F _]. pose proof (filled_leaves w F) as N. destruct (snoc_case _ N) as (pre & l' & E).
  destruct (t_leaves w) as [|l post] eqn:El; [contradiction|]. exists l, l', pre, post. split; auto. split; auto.
  assert (X : t_end w = Ok (w_end l')). { rewrite t_end_ok by auto. unfold te, last_of. rewrite El, E, rev_app_distr. reflexivity. }
  assert (Y : t_start w = Ok (w_start l)). { rewrite t_start_ok by auto. unfold ts. rewrite El. reflexivity. }
  unfold t_duration. now rewrite X, Y.
Qed.
Print Assumptions C128_bounds.
(** Moving moves every window. *)
Theorem C128_move : forall (O A P : Type) (w : tree O A P) (d : Q), t_leaves (t_move w d) = map (fun l => move l d) (t_leaves w).
Proof. exact @move_leaves. Qed.
Print Assumptions C128_move.
(** The mean time of a window is as far from its start as from its end, and moves with it. *)
Theorem C128_mean_time : forall (O A P : Type) (w : leaf O A P) (d : Q),
  (mean_time w - w_start w == w_end w - mean_time w /\ mean_time (move w d) == mean_time w + d)%Q.
Proof. intros O A P w d. unfold mean_time. split; [|destruct w; cbn]; ring. Qed.
Print Assumptions C128_mean_time.
(** The samples are those of the list of all the windows. *)
Theorem C128_samples : forall (O A P : Type) (files : wavfiles P A) (w : tree O A P) (arr : arrw A), filled w ->
  (t_to_array files w = Ok arr <-> concat_to_array files (t_leaves w) = Ok arr).
Proof. exact @to_array_leaves. Qed.
Print Assumptions C128_samples.
(** A part of nested basic windows: what is left of the list of all the windows. *)
Theorem C128_subwindow : forall (O A P : Type) (files : wavfiles P A) (w : tree O A P) (lo hi : Q) (bs : list (basic O)) (a b : Q),
  filled w -> t_leaves w = map LB bs -> lasting lo bs hi -> lo <= a -> a <= b -> b <= hi ->
  exists w' bs', t_get_subwindow files w a b = Ok w' /\ built w' /\ t_leaves w' = map LB bs' /\
    Forall2 same_basic bs' (to_time b (from_time a bs)) /\ lasting a bs' b.
Proof. exact @subwindow. Qed.
Print Assumptions C128_subwindow.
Theorem C128_copy : forall (O A P : Type) (files : wavfiles P A) (w : tree O A P) (lo hi : Q) (bs : list (basic O)),
  filled w -> t_leaves w = map LB bs -> tiles lo (map (fun p => (b_start p, b_end p)) bs) hi -> t_copy files w = Ok w.
Proof. exact @tiles_copy. Qed.
Print Assumptions C128_copy.

(** A window written to a wav file is read back from it. *)
Theorem C129_write_as_wav : forall (A P : Type) (files : wavfiles P A) (same : P -> P -> bool) (w : arrw A) (path : P) (start : Q),
  same path path = true -> 0 < a_rate w ->
  (forall p, same p path = false -> write_as_wav files same w path p = files p) /\
  exists v x, new_wav_window (write_as_wav files same w path) path start None = Ok v /\ wav_to_array (write_as_wav files same w path) v = Ok x /\
    a_data x = a_data w /\ a_rate x = a_rate w /\ a_start x = start /\ a_end x == start + inject_Z (Z.of_nat (length (a_data w))) / a_rate w /\ v_start v = start /\ v_end v == a_end x.
Proof. exact @written_back. Qed.
Print Assumptions C129_write_as_wav.
(** What save_wav writes, and what a concatenation of this one file gives back. *)
Theorem C129_save_wav : forall (O A P : Type) (files : wavfiles P A) (same : P -> P -> bool) (path : P) (w : tree O A P) (files' : wavfiles P A),
  same path path = true -> t_save_wav files same path w = Ok files' ->
  exists l ws r arr, w = TCat (TLeaf l :: ws) /\ has_rate l r /\ t_to_array files w = Ok arr /\
    (forall p, same p path = false -> files' p = files p) /\
    (0 < r -> forall start, exists ws' x, @concat_from_list_of_wavs O A P files' [path] start = Ok ws' /\ concat_to_array files' ws' = Ok x /\
       a_start x == match start with Some s => s | None => 0 end /\ a_rate x = r /\ a_data x = a_data arr).
Proof. exact @saved. Qed.
Print Assumptions C129_save_wav.
(** It succeeds when the first window has a rate and the samples can be joined. *)
Theorem C129_saves : forall (O A P : Type) (files : wavfiles P A) (same : P -> P -> bool) (path : P) (l : leaf O A P) (r : Q) (ws : list (tree O A P)) (arr : arrw A),
  has_rate l r -> t_to_array files (TCat (TLeaf l :: ws)) = Ok arr -> exists files', t_save_wav files same path (TCat (TLeaf l :: ws)) = Ok files'.
Proof. intros O A P files same path l r ws arr H E. eexists. exact (save_ok files same path l r ws arr H E). Qed.
Print Assumptions C129_saves.
(** Otherwise it raises: AttributeError for what is not a concatenation or has a first window
    without rate, IndexError for a concatenation of nothing, and the error of the joining. *)
Theorem C129_save_errors : forall (O A P : Type) (files : wavfiles P A) (same : P -> P -> bool) (path : P) (l : leaf O A P) (w : tree O A P) (ws : list (tree O A P)),
  t_save_wav files same path (TLeaf l) = Err AttributeError /\
  t_save_wav files same path (TCat (O := O) []) = Err IndexError /\
  ((forall l r, w = TLeaf l -> ~ has_rate l r) -> t_save_wav files same path (TCat (w :: ws)) = Err AttributeError) /\
  (forall r e, has_rate l r -> t_to_array files (TCat (TLeaf l :: ws)) = Err e -> t_save_wav files same path (TCat (TLeaf l :: ws)) = Err e).
Proof. exact @save_errors. Qed.
Print Assumptions C129_save_errors.

(** A concatenation of one concatenation has the same samples, but cannot be saved. *)
Theorem C129_nested_refuted : forall (O A P : Type) (files : wavfiles P A) (same : P -> P -> bool) (path : P) (ws : list (tree O A P)) (arr : arrw A),
  t_to_array files (TCat ws) = Ok arr ->
  t_to_array files (TCat [TCat ws]) = Ok arr /\ t_save_wav files same path (TCat [TCat ws]) = Err AttributeError.
Proof. exact @save_nested. Qed.
Print Assumptions C129_nested_refuted.

(** ** Examples *)
Definition none : wavfiles nat nat := fun _ => Err IOError.
Definition bw (a b : Q) (o : nat) : tree nat nat nat := TLeaf (LB (Basic a b (Some o))).
Definition nest : tree nat nat nat := TCat [bw 0 1 0; TCat [bw 1 2 1; TCat [bw 2 (5 # 2) 2; bw (5 # 2) 3 3]]; TCat [bw 3 4 4; bw 4 6 5]].
Definition flat : list (basic nat) := [Basic 0 1 (Some 0%nat); Basic 1 2 (Some 1%nat); Basic 2 (5 # 2) (Some 2%nat); Basic (5 # 2) 3 (Some 3%nat); Basic 3 4 (Some 4%nat); Basic 4 6 (Some 5%nat)].
Example ex_built : built nest.
Proof. repeat (constructor; try reflexivity). Qed.
Example ex_filled : filled nest.
Proof. apply built_chained, ex_built. Qed.
Example ex_leaves : t_leaves nest = map LB flat.
Proof. reflexivity. Qed.
Example ex_lasting : lasting 0 flat 6.
Proof. split; [cbn; repeat split; lra|]. cbn. intros p H. repeat (destruct H as [<-|H]; [cbn; lra|]). destruct H. Qed.
Example ex_sub : t_get_subwindow none nest (3 # 2) (9 # 2) = Ok (TCat [TCat [bw (3 # 2) 2 1; TCat [bw 2 (5 # 2) 2; bw (5 # 2) 3 3]]; TCat [bw 3 4 4; bw 4 (9 # 2) 5]]).
Proof. vm_compute. reflexivity. Qed.
Example ex_sub_inside : t_get_subwindow none nest (9 # 4) (11 # 4) = Ok (TCat [TCat [TCat [bw (9 # 4) (5 # 2) 2; bw (5 # 2) (11 # 4) 3]]]).
Proof. vm_compute. reflexivity. Qed.
Example ex_gap : new_cat [bw 0 1 0; TCat [bw 2 3 1]] = Err ValueError.
Proof. reflexivity. Qed.
(** Arrays: two levels, three windows of samples. *)
Definition aw (s : Q) (d : list nat) : tree nat nat nat := TLeaf (LA (Arrw s (s + inject_Z (Z.of_nat (length d)) / 2) 2 d)).
Definition sounds : tree nat nat nat := TCat [aw 0 [1; 2]%nat; TCat [aw 1 [3]%nat; aw (3 # 2) [4; 5]%nat]].
Example ex_samples : exists x, t_to_array none sounds = Ok x /\ a_data x = [1; 2; 3; 4; 5]%nat.
Proof. vm_compute. eexists. split; reflexivity. Qed.
Example ex_save : exists f, t_save_wav none Nat.eqb 7%nat sounds = Ok f /\ f 7%nat = Ok (2, [1; 2; 3; 4; 5]%nat).
Proof. eexists. split; reflexivity. Qed.
Example ex_save_nested : t_save_wav none Nat.eqb 7%nat (TCat [sounds]) = Err AttributeError /\ exists x, t_to_array none (TCat [sounds]) = Ok x.
Proof. split; [reflexivity|]. vm_compute. eexists. reflexivity. Qed.
