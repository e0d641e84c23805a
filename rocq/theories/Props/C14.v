(** C14: branch isolation. *)
From Verif.Spec Require Import Api Fixture.
From Verif.Proofs Require Import Isolation Witness.

(** A successful operation on the branch of handle [hid] changes nothing for
    handles on other branches, nor for any other named branch or tag. *)
Theorem C14_branches_isolated : ∀ σ hid h E fo o st,
  reachable σ → env_ok σ (CRun hid E fo o) → y_handles σ !! hid = Some h →
  result σ hid (run_op E fo o) = Some (Ok (JSucceeded st)) →
  ∀ hid' h' E' b, y_handles σ !! hid' = Some h' →
   (h_branch h' ≠ h_branch h →
    result (after σ hid (run_op E fo o)) hid' (run_read_all E' None None None false b)
    = result σ hid' (run_read_all E' None None None false b))
   ∧ (∀ n, n ≠ h_branch h →
    result (after σ hid (run_op E fo o)) hid' (run_read_all E' None None (Some (VName n)) false b)
    = result σ hid' (run_read_all E' None None (Some (VName n)) false b)).
Proof. exact isolated. Qed.
Print Assumptions C14_branches_isolated.

(** Handle 0 on main, handle 1 on branch "b", both with rows of their own; a
    delete on "b" succeeds. *)
Example C14_case : ∃ σ h h' st,
  reachable σ ∧ y_handles σ !! 1 = Some h ∧ y_handles σ !! 0 = Some h' ∧ h_branch h = "b" ∧ h_branch h' = MAIN
  ∧ result σ 1 (run_op ex_env ex_opts (ODelete (ex_cmp OpEq "k" (SNum 2)))) = Some (Ok (JSucceeded st))
  ∧ reads σ 0 None (concat ex_rows ++ [ex_row 8 "h" "H"]) ∧ reads σ 1 None (concat ex_rows ++ [ex_row 9 "i" "I"]).
Proof.
  set (cs := [ex_create; ex_append; CEdit 0 (EdAddBranch "b"); CLoad 1; CEdit 1 (EdSetBranch "b"); 
    ex_add [ex_row 8 "h" "H"]; CRun 1 ex_env ex_opts (OAppend [[ex_row 9 "i" "I"]])]).
  exists (ex_calls cs). assert (reachable (ex_calls cs)) by (apply reach; calls).
  do 3 eexists. split_and!; [done|computed|computed|done|done|computed|by reads_by_computing|by reads_by_computing].
Qed.
