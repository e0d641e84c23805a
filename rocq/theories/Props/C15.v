(** C15: snapshot ids grow along history. *)
From Verif.Spec Require Import Api Fixture Layout Durable.
From Verif.Proofs Require Import Adds Durable Witness.

(** From every snapshot, live or not, the chain of parents ends at snapshot 0
    with strictly decreasing ids. *)
Theorem C15_ids_decrease : ∀ σ m i,
  reachable σ → stored_meta (w_fs (y_world σ)) = Some m → is_Some (md_snaps m !! i) →
  ∃ l, chain m i l ∧ decreasing l ∧ last l = Some 0%Z.
Proof. exact chain_exists. Qed.
Print Assumptions C15_ids_decrease.

(** The id of a new snapshot is larger than its parent's and than the head of
    main, of every branch and of every tag. *)
Theorem C15_new_id_is_largest : ∀ σ hid E fo o st,
  reachable σ → env_ok σ (CRun hid E fo o) →
  result σ hid (run_op E fo o) = Some (Ok (JSucceeded st)) →
  ∃ h m m' sn j,
    y_handles σ !! hid = Some h
    ∧ stored_meta (w_fs (y_world σ)) = Some m
    ∧ stored_meta (w_fs (y_world (after σ hid (run_op E fo o)))) = Some m'
    ∧ head_snapshot m' (h_branch h) = Some sn
    ∧ sn_parent sn = Some j ∧ (j < sn_id sn)%Z
    ∧ (∀ b i, head_id m b = Some i → (i < sn_id sn)%Z).
Proof. exact new_id_largest. Qed.
Print Assumptions C15_new_id_is_largest.

Example C15_case : ∃ σ m l,
  reachable σ ∧ stored_meta (w_fs (y_world σ)) = Some m ∧ head_id m MAIN = Some 4%Z
  ∧ head_id m "b" = Some 3%Z ∧ chain m 4 l ∧ l = [4; 2; 1; 0]%Z.
Proof.
  set (cs := [ex_create; ex_append; CEdit 0 (EdAddBranch "b"); CLoad 1; CEdit 1 (EdSetBranch "b"); 
    ex_add [ex_row 8 "h" "H"]; CRun 1 ex_env ex_opts (OAppend [[ex_row 9 "i" "I"]]); ex_add [ex_row 7 "h" "H"]]).
  exists (ex_calls cs). assert (reachable (ex_calls cs)) by (apply reach; calls).
  do 2 eexists. split_and!; [done|computed|done|done| |reflexivity].
  eapply ChainStep; [computed|done|]. eapply ChainStep; [computed|done|].
  eapply ChainStep; [computed|done|]. eapply ChainRoot; [computed|done].
Qed.
