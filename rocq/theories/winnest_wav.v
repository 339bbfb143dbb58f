(** * Proofs about windows written to wav files. *)

From Coq Require Import List ZArith QArith Bool Lia Lqa.
Import ListNotations.
From Verif Require Import Py Py_proof ListUtil window_model window_spec window_proof window_concat window_wavs winnest_model winnest_spec winnest_proof winnest_trees.
Open Scope py_scope.
Local Open Scope Q_scope.

Section Wav.
Context {O A P : Type} (files : wavfiles P A).
Notation tree := (tree O A P).

Lemma written_back (same : P -> P -> bool) (w : arrw A) path start : same path path = true -> 0 < a_rate w ->
  (forall p, same p path = false -> write_as_wav files same w path p = files p) /\
  exists v x, new_wav_window (write_as_wav files same w path) path start None = Ok v /\ wav_to_array (write_as_wav files same w path) v = Ok x /\
    a_data x = a_data w /\ a_rate x = a_rate w /\ a_start x = start /\ a_end x == start + inject_Z (Z.of_nat (length (a_data w))) / a_rate w /\ v_start v = start /\ v_end v == a_end x.
Proof.
  intros S R. split; [intros p Hp; unfold write_as_wav, wav_write; now rewrite Hp|].
  assert (F : write_as_wav files same w path path = Ok (a_rate w, a_data w)) by (unfold write_as_wav, wav_write; now rewrite S).
  destruct (new_wav_ok _ path (a_rate w) (a_data w) start F R) as (v & Hv & V & E1 & E2 & E3 & E4 & E5).
  destruct (wav_to_array_ok _ _ v V) as (x & Hx & X & S1 & S2 & S3 & S4 & S5). exists v, x.
  assert (D : a_data x = a_data w).
  { rewrite S4, E4, E5, Nat2Z.id. unfold segment. cbn. rewrite Nat.sub_0_r. apply firstn_all. }
  split; auto. split; auto. split; auto. split; [congruence|]. split; [congruence|]. split; [|split; [auto|symmetry; exact S2]].
  destruct X as [_ ->]. unfold sample_time. rewrite S1, E2, S3, E3, D. reflexivity.
Qed.

Lemma saved (same : P -> P -> bool) path (w : tree) files' : same path path = true -> t_save_wav files same path w = Ok files' ->
  exists l ws r arr, w = TCat (TLeaf l :: ws) /\ has_rate l r /\ t_to_array files w = Ok arr /\
    (forall p, same p path = false -> files' p = files p) /\
    (0 < r -> forall start, exists ws' x, @concat_from_list_of_wavs O A P files' [path] start = Ok ws' /\ concat_to_array files' ws' = Ok x /\
       a_start x == match start with Some s => s | None => 0 end /\ a_rate x = r /\ a_data x = a_data arr).
Proof.
  intros S H. destruct w as [l|ws]; [discriminate H|]. unfold t_save_wav in H. destruct ws as [|w0 ws]; [discriminate H|]. rewrite py_nth_0 in H. cbn [bind] in H.
  destruct w0 as [l|ws0]; [|discriminate H].
  assert (X : exists r, has_rate l r /\ (arr <- t_to_array files (TCat (TLeaf l :: ws)) ;; Ok (wav_write files same path r (a_data arr))) = Ok files').
  { destruct l as [b|a|v]; [discriminate H| |]; eexists; (split; [constructor|exact H]). }
  destruct X as (r & Hr & X). clear H. destruct (t_to_array files (TCat (TLeaf l :: ws))) as [arr|] eqn:E; [|discriminate X]. cbn [bind] in X. injection X as <-.
  exists l, ws, r, arr. split; auto. split; auto. split; auto. split; [intros p Hp; unfold wav_write; now rewrite Hp|].
  intros R start. destruct (@wavs_samples O A P (wav_write files same path r (a_data arr)) r [path] [(r, a_data arr)] start) as (ws' & x & H1 & H2 & H3 & H4 & H5 & _).
  - discriminate.
  - constructor; [|constructor]. split; [|exact R]. unfold wav_write. now rewrite S.
  - constructor; [reflexivity|constructor].
  - exists ws', x. cbn in H5. rewrite app_nil_r in H5. auto.
Qed.
Lemma save_nested (same : P -> P -> bool) path (ws : list tree) arr : t_to_array files (TCat ws) = Ok arr ->
  t_to_array files (TCat [TCat ws]) = Ok arr /\ t_save_wav files same path (TCat [TCat ws]) = Err AttributeError.
Proof.
  intro H. split; [|reflexivity]. change (t_to_array files (TCat [TCat ws])) with (arrs <- sequence [t_to_array files (TCat ws)] ;; array_concatenate arrs).
  rewrite H. cbn [sequence mapM bind]. cbn [t_to_array] in H. destruct (sequence (map (t_to_array files) ws)) as [l|]; [|discriminate H]. cbn [bind] in H.
  pose proof (proj1 (array_concatenate_inv l arr) H) as (a0 & r & E & Fa & Z & ->). apply array_concatenate_inv. eexists _, []. split; [reflexivity|]. cbn [a_rate a_start flat_map a_data].
  split; [constructor; [reflexivity|constructor]|]. split; [exact Z|]. rewrite app_nil_r. reflexivity.
Qed.
Lemma save_ok (same : P -> P -> bool) path l r (ws : list tree) arr : has_rate l r -> t_to_array files (TCat (TLeaf l :: ws)) = Ok arr ->
  t_save_wav files same path (TCat (TLeaf l :: ws)) = Ok (wav_write files same path r (a_data arr)).
Proof. intros H E. unfold t_save_wav. rewrite py_nth_0. cbn [bind]. rewrite E. destruct H; reflexivity. Qed.
Lemma save_errors (same : P -> P -> bool) path (l : leaf O A P) (w : tree) (ws : list tree) :
  t_save_wav files same path (TLeaf l) = Err AttributeError /\
  t_save_wav files same path (TCat (O := O) []) = Err IndexError /\
  ((forall l r, w = TLeaf l -> ~ has_rate l r) -> t_save_wav files same path (TCat (w :: ws)) = Err AttributeError) /\
  (forall r e, has_rate l r -> t_to_array files (TCat (TLeaf l :: ws)) = Err e -> t_save_wav files same path (TCat (TLeaf l :: ws)) = Err e).
Proof.
  split; [reflexivity|]. split; [reflexivity|]. split.
  - intros N. unfold t_save_wav. rewrite py_nth_0. cbn [bind]. destruct w as [[b|a|v]|us]; try reflexivity; exfalso; eapply N; [reflexivity|constructor|reflexivity|constructor].
  - intros r e H E. unfold t_save_wav. rewrite py_nth_0. cbn [bind]. rewrite E. destruct H; reflexivity.
Qed.
End Wav.
