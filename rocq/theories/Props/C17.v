(** C17: commit is atomic between concurrent writers. *)
From Verif.Spec Require Import Api Fixture Layout Serial Orderly Split.
From Verif.Proofs Require Import Split Witness.

(** The claim fails.  Transaction.commit (core/storage.py:556-577) first reloads
    and compares the head of the branch ([txn_check]), then writes ([commit]).
    If two writers both check before either writes, both report success, and
    the rows of the first are gone: snapshot 2 is overwritten. *)
Definition C17_start : sys := ex_calls [ex_create; ex_append; CLoad 1].
Definition C17_x : txn := Txn MAIN 1.
Definition C17_row (k : Z) : row := ex_row k "x" "X".
Definition C17_ops : sys :=
  foldl step C17_start [CBegin 0 0; CBegin 1 1; COp 0 ex_env ex_opts (OAppend [[C17_row 8]]);
                        COp 1 ex_env ex_opts (OAppend [[C17_row 9]])].
Definition C17_patch (tid : nat) : patch :=
  match y_txns C17_ops !! tid with Some (Pending _ _ (Some (Some p))) => p | _ => patch0 end.
Definition C17_finish (p : patch) : H job := commit p MAIN ;; ret (JSucceeded (pa_stats p)).
Definition C17_checked : sys :=
  after (after C17_ops 0 (txn_check C17_x (Some (C17_patch 0)))) 1 (txn_check C17_x (Some (C17_patch 1))).
Definition C17_first : sys := after C17_checked 0 (C17_finish (C17_patch 0)).
Definition C17_both : sys := after C17_first 1 (C17_finish (C17_patch 1)).
Theorem C17_refuted :
  (** [txn_commit] is the check followed by the write, *)
  (∀ x p hw, txn_commit x (Some p) hw
     = (let! r := txn_check x (Some p) in
        match r with Some j => ret j | None => commit p (x_branch x) ;; ret (JSucceeded (pa_stats p)) end) hw)
  ∧ reachable C17_ops
  ∧ y_txns C17_ops !! 0 = Some (Pending 0 C17_x (Some (Some (C17_patch 0))))
  ∧ y_txns C17_ops !! 1 = Some (Pending 1 C17_x (Some (Some (C17_patch 1))))
  (** both checks pass, both writes report success, *)
  ∧ result C17_ops 0 (txn_check C17_x (Some (C17_patch 0))) = Some (Ok None)
  ∧ result (after C17_ops 0 (txn_check C17_x (Some (C17_patch 0)))) 1 (txn_check C17_x (Some (C17_patch 1))) = Some (Ok None)
  ∧ result C17_checked 0 (C17_finish (C17_patch 0)) = Some (Ok (JSucceeded (pa_stats (C17_patch 0))))
  ∧ result C17_first 1 (C17_finish (C17_patch 1)) = Some (Ok (JSucceeded (pa_stats (C17_patch 1))))
  (** and of the two rows only the second is left. *)
  ∧ result C17_first 0 (run_read_all ex_env None None None false None) = Some (Ok (concat ex_rows ++ [C17_row 8]))
  ∧ result C17_both 0 (run_read_all ex_env None None None false None) = Some (Ok (concat ex_rows ++ [C17_row 9])).
Proof.
  split; [intros x p hw; unfold txn_commit, bind; by destruct (txn_check x (Some p) hw) as [? [[|]|]]|].
  split; [unfold C17_ops; apply reach_from; [apply reach; calls|calls]|].
  split_and!; computed.
Qed.
Print Assumptions C17_refuted.

(** What is lost, exactly: whatever other processes do between the check in [σ]
    and the write in [σ'], after the write the metadata is that of [σ] with one
    snapshot more.  All that was committed in between, on any branch, is gone. *)
Theorem C17_write_restores : ∀ tid hid x p σ σ' m j,
  reachable σ → stored_meta (w_fs (y_world σ)) = Some m → checked tid hid x p σ σ' →
  result σ' hid (txn_write x p) = Some (Ok j) →
  ∃ m' base sn,
    stored_meta (w_fs (y_world (after σ' hid (txn_write x p)))) = Some m'
    ∧ head_snapshot m (x_branch x) = Some base ∧ sn_id base = x_snap x ∧ sn_parent sn = Some (sn_id base)
    ∧ (∀ b i, head_id m b = Some i → (i < sn_id sn)%Z)
    ∧ md_snaps m' = <[sn_id sn := sn]> (md_snaps m)
    ∧ head_id m' (x_branch x) = Some (sn_id sn)
    ∧ (∀ b, b ≠ x_branch x → head_id m' b = head_id m b)
    ∧ md_schema m' = md_schema m.
Proof. exact write_exact. Qed.
Print Assumptions C17_write_restores.

(** So nothing is lost if nobody changes the metadata between check and write
    (and no branch was removed before, see C12). *)
Theorem C17_nothing_lost_partial : ∀ tid hid x p σ σ' m j,
  branch_keeping init σ → stored_meta (w_fs (y_world σ)) = Some m → checked tid hid x p σ σ' →
  stored_meta (w_fs (y_world σ')) = Some m → result σ' hid (txn_write x p) = Some (Ok j) →
  ∃ m', stored_meta (w_fs (y_world (after σ' hid (txn_write x p)))) = Some m'
    ∧ (∀ i sn, md_snaps m !! i = Some sn → md_snaps m' !! i = Some sn)
    ∧ (∀ b, b ≠ x_branch x → head_id m' b = head_id m b).
Proof. exact write_loses_nothing. Qed.
Print Assumptions C17_nothing_lost_partial.

(** Between check and write another handle appends (first case), or its insert
    fails (second case). *)
Definition C17_one : sys := foldl step C17_start [CBegin 0 0; COp 0 ex_env ex_opts (OAppend [[C17_row 8]])].
Definition C17_q : patch := match y_txns C17_one !! 0 with Some (Pending _ _ (Some (Some p))) => p | _ => patch0 end.
Definition C17_between (c : call) : sys := foldl step (after C17_one 0 (txn_check C17_x (Some C17_q))) [c].
Definition C17_appends : call := CRun 1 ex_env ex_opts (OAppend [[C17_row 9]]).
Definition C17_fails : call := CRun 1 ex_env ex_opts (OInsert MInsert [C17_row 1]).
Example C17_case : ∃ m j,
  branch_keeping init C17_one ∧ reachable C17_one ∧ stored_meta (w_fs (y_world C17_one)) = Some m
  ∧ (∀ c, c ∈ [C17_appends; C17_fails] → checked 0 0 C17_x C17_q C17_one (C17_between c)
       ∧ result (C17_between c) 0 (txn_write C17_x C17_q) = Some (Ok j))
  ∧ stored_meta (w_fs (y_world (C17_between C17_appends))) ≠ Some m
  ∧ stored_meta (w_fs (y_world (C17_between C17_fails))) = Some m.
Proof.
  assert (reachable C17_one) by (apply reach_from; [apply reach; calls|calls]).
  assert (Hck : ∀ c, env_ok (after C17_one 0 (txn_check C17_x (Some C17_q))) c →
    y_handles (C17_between c) !! 0 = y_handles (after C17_one 0 (txn_check C17_x (Some C17_q))) !! 0 →
    checked 0 0 C17_x C17_q C17_one (C17_between c)).
  { intros c Hc Hh. split; [computed|]. split; [computed|]. split; [|exact Hh].
    unfold C17_between. cbn [foldl]. apply HistStep; [constructor|exact Hc]. }
  do 2 eexists. split; [|split; [done|]].
  { apply (branch_keeping_tested ([ex_create; ex_append; CLoad 1] ++ [CBegin 0 0; COp 0 ex_env ex_opts (OAppend [[C17_row 8]])])).
    repeat (split; [split_and!; [env_tested|branches_tested]|]); exact I. }
  split; [computed|]. split; [|split; [by vm_compute|computed]].
  intros c Hc. apply elem_of_cons in Hc as [Hc|Hc%elem_of_list_singleton]; subst c;
    (split; [apply Hck; [intros ? _; exact I|computed]|computed]).
Qed.
