(** C18: concurrent commits on different branches both survive. *)
From Verif.Spec Require Import Api Fixture Serial.
From Verif.Proofs Require Import Serial Witness.

(** While a transaction runs, any calls happen that do not commit to its branch
    (and do not remove it); [Some p] says that its operation had something to
    do.  Then its commit succeeds, and the heads and the rows of all other
    branches are as before it.  Edits go through up-to-date handles; C19 shows
    what other edits do. *)
Theorem C18_other_branches_do_not_matter : ∀ hid tid x E fo o p σ0 σ,
  reachable σ0 → running (elsewhere (x_branch x)) hid tid x E fo o (Some p) σ0 σ →
  commit_outcome σ hid x (Some p) = Some (Ok (JSucceeded (pa_stats p)))
  ∧ ∀ b, b ≠ x_branch x → head (after_commit σ hid x (Some p)) b = head σ b
  ∧ ∀ hid' h' rows, y_handles σ !! hid' = Some h' → h_branch h' = b → reads σ hid' None rows →
      reads (after_commit σ hid x (Some p)) hid' None rows.
Proof. exact txn_spared. Qed.
Print Assumptions C18_other_branches_do_not_matter.

(** The case is the one of C16: a delete on main runs while a row is appended to
    branch b. *)
Definition C18_before : sys := ex_calls [ex_create; ex_append; CLoad 1].
Definition C18_op : op := ODelete (ex_cmp OpEq "k" (SNum 2)).
Definition C18_branch : list call :=
  [CEdit 1 (EdAddBranch "b"); CEdit 1 (EdSetBranch "b"); CRun 1 ex_env ex_opts (OAppend [[ex_row 8 "h" "H"]])].
Definition C18_done : sys := step (step C18_before (CBegin 0 0)) (COp 0 ex_env ex_opts C18_op).
Definition C18_quiet : sys := foldl step C18_done C18_branch.
Definition C18_patch : patch :=
  match y_txns C18_quiet !! 0 with Some (Pending _ _ (Some (Some p))) => p | _ => patch0 end.
Example C18_case : ∃ x h,
  reachable C18_before ∧ running (elsewhere (x_branch x)) 0 0 x ex_env ex_opts C18_op (Some C18_patch) C18_before C18_quiet
  ∧ "b" ≠ x_branch x ∧ y_handles C18_quiet !! 1 = Some h ∧ h_branch h = "b"
  ∧ reads C18_quiet 1 None (concat ex_rows ++ [ex_row 8 "h" "H"]).
Proof.
  assert (reachable C18_before) by (apply reach; calls).
  assert (reachable C18_quiet).
  { unfold C18_quiet. apply reach_from; [apply HistStep; [apply HistStep; [done|exact I]|by intros ? ? _ _]|calls]. }
  exists (Txn MAIN 1). eexists.
  split_and!; [done| |done|computed|computed|by reads_by_computing].
  constructor; [computed|by left|]. exists (step C18_before (CBegin 0 0)).
  split_and!.
  - constructor.
  - computed.
  - eexists. split; [computed|]. computed.
  - intros ? ? _ _. exact I.
  - computed.
  - fold C18_done. unfold C18_quiet. keeping_by_computing.
  - computed.
  - eexists. split; [computed|]. computed.
Qed.
