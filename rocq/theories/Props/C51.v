(** C51: calls on tags and branches do what they say, or nothing. *)
From Verif.Spec Require Import Api Fixture References.
From Verif.Proofs Require Import RefCalls History Witness.

(** Through an up-to-date handle, a call that is allowed succeeds and changes
    the references of the newest metadata (the branch of the handle) as it says
    and nothing else; a call that is not raises the error for one of its faults
    and changes nothing. *)
Theorem C51_references : ∀ σ hid h m d,
  reachable σ → y_handles σ !! hid = Some h → stored_meta (w_fs (y_world σ)) = Some m → up_to_date σ hid →
  let σ' := after σ hid (run_edit d) in
  (allowed m (h_branch h) d ∧ result σ hid (run_edit d) = Some (Ok tt)
   ∧ stored_meta (w_fs (y_world σ')) = Some (Metadata (md_schema m) (md_current m) (md_snaps m) (refs_after m d))
   ∧ up_to_date σ' hid
   ∧ ∃ h', y_handles σ' = <[hid := h']> (y_handles σ)
       ∧ h_branch h' = (match d with EdSetBranch n => n | _ => h_branch h end))
  ∨ (¬ allowed m (h_branch h) d ∧ σ' = σ ∧ ∃ e, result σ hid (run_edit d) = Some (Err (EUser e)) ∧ refusal m (h_branch h) d e).
Proof. exact edit_outcome. Qed.
Print Assumptions C51_references.

(** A dataset with tag "t" and branch "b", the handle on "b": which calls are
    allowed. *)
Example C51_case : ∃ σ h m, reachable σ ∧ y_handles σ !! 0 = Some h ∧ stored_meta (w_fs (y_world σ)) = Some m ∧ up_to_date σ 0
  ∧ h_branch h = "b" ∧ allowed m "b" (EdRemoveTag "t") ∧ allowed m "b" (EdSetBranch MAIN) ∧ allowed m "b" (EdAddTag "u" (Some 0%Z))
  ∧ ¬ allowed m "b" (EdSetBranch "t") ∧ ¬ allowed m "b" (EdRemoveBranch "b") ∧ ¬ allowed m "b" (EdAddTag "u" (Some 7%Z))
  ∧ ¬ allowed m "b" (EdRemoveTag "b").
Proof.
  set (cs := [ex_create; ex_append; CEdit 0 (EdAddTag "t" None); CEdit 0 (EdAddBranch "b"); CEdit 0 (EdSetBranch "b")]).
  exists (ex_calls cs). do 2 eexists.
  assert (reachable (ex_calls cs)) by (apply reach; calls).
  split; [done|]. split; [computed|]. split; [computed|]. split; [eapply up_to_date_tested; computed|].
  split; [done|]. split; [by eexists|]. split; [by left|].
  split; [split_and!; [by eexists|done|done|done]|].
  split; [intros [?|[? ?]]; done|]. split; [by intros [_ ?]|]. split; [intros [[? ?] _]; done|]. by intros [? ?].
Qed.
