(** C23: diff walks exactly the commits between two versions. *)
From Verif.Spec Require Import Api Fixture Changes.
From Verif.Proofs Require Import Diff Witness.

(** [path_to m i j l]: [i] is a proper ancestor of [j], and [l] lists the
    snapshots after [i] up to [j], oldest first.  Then [diff] between versions
    naming [i] and [j] returns the changes of the snapshots in [l] in this
    order; the changes of each snapshot are what [diff] from its parent to it
    returns, all labelled with its ID.  If reading the changes of a snapshot
    raises, the first such exception is raised. *)
Theorem C23_diff_is_the_path : ∀ σ hid h m E a b batch i j l,
  reachable σ → y_handles σ !! hid = Some h → stored_meta (w_fs (y_world σ)) = Some m →
  named m a = Some i → named m b = Some j → path_to m i j l →
  ∃ steps,
    Forall2 (fun k r => ∃ q, parent_of m k = Some q ∧ result σ hid (run_diff E (VId q) (VId k) batch) = Some r
                             ∧ r ≠ Err (EUser UInput) ∧ ∀ cs, r = Ok cs → Forall (fun c => ch_snap c = k) cs) l steps
    ∧ result σ hid (run_diff E a b batch) = Some (rmap (@concat change) (all_ok steps)).
Proof. exact diff_steps. Qed.
Print Assumptions C23_diff_is_the_path.

(** An input error is raised iff the first version is not a proper ancestor of
    the second. *)
Theorem C23_input_error_iff_no_path : ∀ σ hid h m E a b batch i j,
  reachable σ → y_handles σ !! hid = Some h → stored_meta (w_fs (y_world σ)) = Some m →
  named m a = Some i → named m b = Some j → is_Some (md_snaps m !! j) →
  result σ hid (run_diff E a b batch) = Some (Err (EUser UInput)) ↔ ¬ ∃ l, path_to m i j l.
Proof. exact diff_input_error. Qed.
Print Assumptions C23_input_error_iff_no_path.

(** Unknown versions are reported as such. *)
Theorem C23_unknown_versions : ∀ σ hid h m E a b batch,
  reachable σ → y_handles σ !! hid = Some h → stored_meta (w_fs (y_world σ)) = Some m →
  named m a = None ∨ named m b = None ∨ (∃ i j, named m a = Some i ∧ named m b = Some j ∧ (i < j)%Z ∧ md_snaps m !! j = None) →
  result σ hid (run_diff E a b batch) = Some (Err (EUser UVersionNotFound)).
Proof. exact diff_unknown. Qed.
Print Assumptions C23_unknown_versions.

(** Snapshots 0 - 1 - 2 - 4 on a branch and 0 - 1 - 3 on main. *)
Definition C23_calls : list call :=
  [ex_create; ex_add [ex_row 1 "a" "A"; ex_row 2 "b" "B"]; CEdit 0 (EdAddBranch "b"); CEdit 0 (EdSetBranch "b");
   ex_add [ex_row 3 "c" "C"]; CEdit 0 (EdSetBranch "main"); ex_add [ex_row 4 "d" "D"]; CEdit 0 (EdSetBranch "b");
   CRun 0 ex_env ex_large (ODelete (ex_cmp OpEq "k" (SNum 2))); CEdit 0 (EdAddTag "t" None)].
Example C23_case : ∃ h m cs,
  reachable (ex_calls C23_calls) ∧ y_handles (ex_calls C23_calls) !! 0 = Some h
  ∧ stored_meta (w_fs (y_world (ex_calls C23_calls))) = Some m
  ∧ named m (VId 1) = Some 1%Z ∧ named m (VName "b") = Some 4%Z ∧ path_to m 1 4 [2; 4]%Z
  ∧ result (ex_calls C23_calls) 0 (run_diff ex_env (VId 1) (VName "b") None) = Some (Ok cs)
  ∧ (ch_snap <$> cs) = [2; 4]%Z ∧ (ch_type <$> cs) = [ChAdd; ChDelete]
  ∧ (¬ ∃ l, path_to m 3 4 l)
  ∧ result (ex_calls C23_calls) 0 (run_diff ex_env (VId 3) (VName "b") None) = Some (Err (EUser UInput))
  ∧ result (ex_calls C23_calls) 0 (run_diff ex_env (VId 3) (VName "x") None) = Some (Err (EUser UVersionNotFound)).
Proof.
  assert (Hr : reachable (ex_calls C23_calls)) by (apply reach; calls).
  do 3 eexists. split; [done|]. split; [computed|]. split; [computed|]. split; [done|]. split; [computed|].
  split; [apply (path_tested _ _ _ [4; 2]%Z [0]%Z); [computed|done]|].
  split; [computed|]. split; [computed|]. split; [computed|].
  assert (He : result (ex_calls C23_calls) 0 (run_diff ex_env (VId 3) (VName "b") None) = Some (Err (EUser UInput))) by computed.
  split; [|split; [exact He|computed]].
  refine (proj1 (diff_input_error (ex_calls C23_calls) 0 _ _ ex_env (VId 3) (VName "b") None 3 4 Hr _ _ _ _ _) He);
    [computed|computed|computed|computed|eexists; computed].
Qed.
