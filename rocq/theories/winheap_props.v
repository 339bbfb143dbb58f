(** * C19: windows as objects. *)

From Coq Require Import List ZArith QArith Bool.
Import ListNotations.
From Verif Require Import Py window_model winheap_model winheap_spec winheap_value.
Local Open Scope Q_scope.

(** ** Programs build well-formed heaps only, so that the theorems below apply
    at every point of every program. *)
Theorem C19_reachable_heaps : forall (O A P : Type) (files : wavfiles P A) (h : list (op O A P)) s vars,
  run files h (St [] [] [] []) [] = (s, vars) -> well_formed s /\ Forall (valid s) vars.
Proof. exact @reachable_well_formed. Qed.
Print Assumptions C19_reachable_heaps.

(** What the operations of programs do: the result of a call is kept in a new variable;
    an exception leaves the variables as they are. *)
Theorem C19_programs : forall (O A P : Type) (files : wavfiles P A) (s : st O A P) vars (x : nat) v, nth_error vars x = Some v ->
  (forall v' s', copy_ref v s = (Ok v', s') -> run files [Copy x] s vars = (s', vars ++ [v'])) /\
  (forall a b v' s', sub_ref v a b s = (Ok v', s') -> run files [Sub x a b] s vars = (s', vars ++ [v'])) /\
  (forall v' s', array_ref files v s = (Ok v', s') -> run files [ToArray x] s vars = (s', vars ++ [v'])) /\
  (forall d s' r, move_ref v d s = (r, s') -> run files [Move x d] s vars = (s', vars)) /\
  (forall e s', copy_ref v s = (Err e, s') -> run files [Copy x] s vars = (s', vars)) /\
  (forall a b e s', sub_ref v a b s = (Err e, s') -> run files [Sub x a b] s vars = (s', vars)).
Proof.
  intros O A P files s vars x v E.
  assert (V : forall s : st O A P, var vars x s = (Ok v, s)) by (intro; unfold var, lift; now rewrite E).
  repeat split; intros; cbn [run exec]; unfold winheap_model.bindM; rewrite V, H; try reflexivity. destruct r; reflexivity.
Qed.
Print Assumptions C19_programs.

(** ** copy() *)

(** The copy has the contents of the original (copy and concat_copy are
    described by C12, C13, C15 and C16; [files] is not read). *)
Theorem C19_copy_value : forall (O A P : Type) (files : wavfiles P (option A)) (s : st O A P) (r : nat) v,
  observe s (RLeaf r) = SeeLeaf (Some v) ->
  match copy files v with
  | Ok v' => exists z s', copy_ref (RLeaf r) s = (Ok z, s') /\ observe s' z = SeeLeaf (Some v')
  | Err e => fst (copy_ref (RLeaf r) s) = Err e
  end.
Proof. exact @leaf_copy_observed. Qed.
Print Assumptions C19_copy_value.

Theorem C19_concat_copy_value : forall (O A P : Type) (files : wavfiles P (option A)) (s : st O A P) (c : nat) vs,
  observe s (RCat c) = SeeCat (Some (map Some vs)) ->
  match concat_copy files vs with
  | Ok vs' => exists z s', copy_ref (RCat c) s = (Ok z, s') /\ observe s' z = SeeCat (Some (map Some vs'))
  | Err e => fst (copy_ref (RCat c) s) = Err e
  end.
Proof. exact @cat_copy_observed. Qed.
Print Assumptions C19_concat_copy_value.

(** Any program [h] that starts from the copy [z] leaves everything that existed
    before unchanged; any program that starts from things that existed before
    leaves the copy unchanged.  Array windows share their samples with the copy,
    so with array windows the program must not assign to samples. *)
Theorem C19_copy_independent : forall (O A P : Type) (files : wavfiles P A) (s : st O A P) v z s1 (h : list (op O A P)),
  well_formed s -> valid s v -> copy_ref v s = (Ok z, s1) -> no_array_write h \/ without_arrays s v ->
  (forall s2 vars2 y, run files h s1 [z] = (s2, vars2) -> valid s y -> observe s2 y = observe s y) /\
  (forall ys s2 vars2, Forall (valid s) ys -> run files h s1 ys = (s2, vars2) -> observe s2 z = observe s1 z).
Proof. exact @copy_independent. Qed.
Print Assumptions C19_copy_independent.

Theorem C19_copy_keeps_original : forall (O A P : Type) (s : st O A P) v z s1 y,
  well_formed s -> valid s v -> copy_ref v s = (Ok z, s1) -> valid s y -> observe s1 y = observe s y.
Proof. exact @copy_keeps. Qed.
Print Assumptions C19_copy_keeps_original.

(** ** get_subwindow() *)
Theorem C19_subwindow_value : forall (O A P : Type) (files : wavfiles P (option A)) (s : st O A P) (r : nat) v (a b : Q),
  observe s (RLeaf r) = SeeLeaf (Some v) ->
  match get_subwindow files v a b with
  | Ok v' => exists z s', sub_ref (RLeaf r) a b s = (Ok z, s') /\ observe s' z = SeeLeaf (Some v')
  | Err e => fst (sub_ref (RLeaf r) a b s) = Err e
  end.
Proof. exact @leaf_sub_observed. Qed.
Print Assumptions C19_subwindow_value.

Theorem C19_concat_subwindow_value : forall (O A P : Type) (files : wavfiles P (option A)) (s : st O A P) (c : nat) vs (a b : Q),
  observe s (RCat c) = SeeCat (Some (map Some vs)) ->
  match concat_get_subwindow files vs a b with
  | Ok vs' => exists z s', sub_ref (RCat c) a b s = (Ok z, s') /\ observe s' z = SeeCat (Some (map Some vs'))
  | Err e => fst (sub_ref (RCat c) a b s) = Err e
  end.
Proof. exact @cat_sub_observed. Qed.
Print Assumptions C19_concat_subwindow_value.

Theorem C19_subwindow_independent : forall (O A P : Type) (files : wavfiles P A) (s : st O A P) v (a b : Q) z s1 (h : list (op O A P)),
  well_formed s -> valid s v -> sub_ref v a b s = (Ok z, s1) -> no_array_write h \/ without_arrays s v ->
  (forall s2 vars2 y, run files h s1 [z] = (s2, vars2) -> valid s y -> observe s2 y = observe s y) /\
  (forall ys s2 vars2, Forall (valid s) ys -> run files h s1 ys = (s2, vars2) -> observe s2 z = observe s1 z).
Proof. exact @sub_independent. Qed.
Print Assumptions C19_subwindow_independent.

Theorem C19_subwindow_keeps_original : forall (O A P : Type) (s : st O A P) v (a b : Q) z s1 y,
  well_formed s -> valid s v -> sub_ref v a b s = (Ok z, s1) -> valid s y -> observe s1 y = observe s y.
Proof. exact @sub_keeps. Qed.
Print Assumptions C19_subwindow_keeps_original.

(** ** The array made from a concatenation shares nothing, samples included. *)
Theorem C19_concat_array_independent : forall (O A P : Type) (files : wavfiles P A) (s : st O A P) c z s1 (h : list (op O A P)),
  well_formed s -> valid s (RCat c) -> array_ref files (RCat c) s = (Ok z, s1) ->
  (forall s2 vars2 y, run files h s1 [z] = (s2, vars2) -> valid s y -> observe s2 y = observe s y) /\
  (forall ys s2 vars2, Forall (valid s) ys -> run files h s1 ys = (s2, vars2) -> observe s2 z = observe s1 z).
Proof. exact @array_independent. Qed.
Print Assumptions C19_concat_array_independent.

(** ** align and move. *)
Theorem C19_align_touches_only_listed : forall (O A P : Type) (s : st O A P) (l : nat) (start : option Q),
  let s' := snd (align_list l start s) in
  (forall r, (forall rs, nth_error (lists s) l = Some rs -> ~ In r rs) -> observe s' (RLeaf r) = observe s (RLeaf r)) /\
  lists s' = lists s /\ cats s' = cats s /\ cells s' = cells s /\ length (leafs s') = length (leafs s).
Proof. exact @align_only_listed. Qed.
Print Assumptions C19_align_touches_only_listed.

(** When no window is listed twice the listed windows are aligned as in C15. *)
Theorem C19_align_value : forall (O A P : Type) (s : st O A P) (l : nat) (rs : list nat) vs (start : option Q),
  nth_error (lists s) l = Some rs -> NoDup rs -> observe s (RList l) = SeeList (Some (map Some vs)) ->
  match align vs start with
  | Ok vs' => exists s', align_list l start s = (Ok tt, s') /\ observe s' (RList l) = SeeList (Some (map Some vs')) /\
      lists s' = lists s /\ cats s' = cats s /\ cells s' = cells s /\
      (forall r, ~ In r rs -> observe s' (RLeaf r) = observe s (RLeaf r))
  | Err e => align_list l start s = (Err e, s)
  end.
Proof. exact @align_observed. Qed.
Print Assumptions C19_align_value.

Theorem C19_move_value : forall (O A P : Type) (s : st O A P) (c l : nat) (rs : list nat) vs (d : Q),
  nth_error (cats s) c = Some l -> nth_error (lists s) l = Some rs -> NoDup rs ->
  observe s (RCat c) = SeeCat (Some (map Some vs)) ->
  exists s', move_ref (RCat c) d s = (Ok tt, s') /\
    observe s' (RCat c) = SeeCat (Some (map Some (concat_move vs d))) /\
    (forall r, ~ In r rs -> observe s' (RLeaf r) = observe s (RLeaf r)).
Proof. exact @cat_move_observed. Qed.
Print Assumptions C19_move_value.

(** ** Where it fails. *)

(** A window listed twice: align leaves a list that is not consecutive. *)
Theorem C19_align_duplicates_refuted :
  exists (h : list (op nat nat nat)) s vars,
    run (fun _ => Err IOError) h (St [] [] [] []) [] = (s, vars) /\
    In (Align 1 (Some 0)) h /\
    observe s (RList 0) = SeeList (Some [Some (LB (Basic 1 2 None)); Some (LB (Basic 1 2 None))]).
Proof.
  exists [NewBasic 0 1 None; NewList [0; 0]%nat; Align 1 (Some 0)].
  eexists _, _. split; [vm_compute; reflexivity|]. split; [cbn; auto|]. vm_compute. reflexivity.
Qed.
Print Assumptions C19_align_duplicates_refuted.

(** The copy of an array window shares its samples: an assignment to a sample of
    the copy changes the original. *)
Theorem C19_array_samples_refuted :
  exists (s : st nat nat nat) z s1 s2 vars2,
    well_formed s /\ copy_ref (RLeaf 0) s = (Ok z, s1) /\
    run (fun _ => Err IOError) [Write 0 0 9%nat] s1 [z] = (s2, vars2) /\
    observe s2 (RLeaf 0) <> observe s (RLeaf 0).
Proof.
  destruct (run (O := nat) (P := nat) (fun _ => Err IOError) [NewArray [7; 8]%nat 0 1] (St [] [] [] []) []) as [s vars] eqn:E.
  assert (W : well_formed s) by (eapply reachable_well_formed; exact E).
  vm_compute in E. injection E as <- <-.
  eexists _, _, _, _, _. split; [exact W|]. split; [vm_compute; reflexivity|].
  split; [vm_compute; reflexivity|]. vm_compute. discriminate.
Qed.
Print Assumptions C19_array_samples_refuted.

(** The window returned by get_subwindow_at is the window itself: moving it moves
    the concatenation's window. *)
Theorem C19_subwindow_at_is_alias_refuted :
  exists (h : list (op nat nat nat)) s vars,
    run (fun _ => Err IOError) (h ++ [SubAt 3 (1#2)]) (St [] [] [] []) [] = (s, vars) /\
    exists s' vars', run (fun _ => Err IOError) [Move 4 10] s vars = (s', vars') /\
    observe s' (RCat 0) <> observe s (RCat 0).
Proof.
  exists [NewBasic 0 1 None; NewBasic 1 2 None; NewList [0; 1]%nat; NewCat 2].
  eexists _, _. split; [vm_compute; reflexivity|]. eexists _, _. split; [vm_compute; reflexivity|].
  vm_compute. discriminate.
Qed.
Print Assumptions C19_subwindow_at_is_alias_refuted.

(** ** Example: a concatenation of a basic and a wav window, its copy, and a
    program that moves the copy, changes an object and appends to its list. *)
Example ex_files : wavfiles nat nat := fun _ => Ok (2, [1; 2; 3; 4]%nat).
Example ex_build : list (op nat nat nat) :=
  [NewBasic 0 1 (Some 5%nat); NewWav 3%nat 1; NewList [0; 1]%nat; NewCat 2].
Example ex_state : st nat nat nat := fst (run ex_files ex_build (St [] [] [] []) []).
Example ex_program : list (op nat nat nat) :=
  [Move 0 10; Windows 0; Item 1 0; SetObj 2 (Some 6%nat); Append 1 2; SetTimes 2 3 4].
Example ex_hypotheses :
  well_formed ex_state /\ valid ex_state (RCat 0) /\ without_arrays ex_state (RCat 0) /\
  no_array_write ex_program.
Proof.
  split.
  - unfold ex_state. destruct (run ex_files ex_build (St [] [] [] []) []) as [s vars] eqn:E.
    eapply reachable_well_formed. exact E.
  - split; [vm_compute; auto|]. split; [vm_compute; repeat constructor|]. repeat constructor.
Qed.
Example ex_run :
  let (r, s1) := copy_ref (RCat 0) ex_state in
  r = Ok (RCat 1) /\
  let s2 := fst (run ex_files ex_program s1 [RCat 1]) in
  observe s2 (RCat 0) = observe ex_state (RCat 0) /\
  observe s2 (RCat 1) <> observe s1 (RCat 1).
Proof. vm_compute. repeat split. discriminate. Qed.
Example C19_ex_programs : exists s v', run (fun _ : nat => Err IOError) [Copy 0] (fst (run (O := nat) (A := nat) (fun _ : nat => Err IOError) [NewBasic 0 1 None] (St [] [] [] []) [])) [RLeaf 0] = (s, [RLeaf 0; v']).
Proof.
  eexists _, _. apply (C19_programs nat nat nat (fun _ => Err IOError) _ [RLeaf 0] 0 (RLeaf 0) eq_refl). reflexivity.
Qed.
