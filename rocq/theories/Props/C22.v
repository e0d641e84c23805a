(** C22: reads see the latest commit; reload reports only foreign writes. *)
From Verif.Spec Require Import Api Fixture Layout.
From Verif.Proofs Require Import Latest Witness.

(** Reads and diffs do not depend on what a handle remembers: any two handles
    on the same branch get the same result at the same time. *)
Theorem C22_handles_agree : ∀ σ hid1 hid2 h1 h2,
  reachable σ → y_handles σ !! hid1 = Some h1 → y_handles σ !! hid2 = Some h2 → h_branch h1 = h_branch h2 →
  (∀ E flt fields v ref b, result σ hid1 (run_read E flt fields v ref b) = result σ hid2 (run_read E flt fields v ref b))
  ∧ (∀ E a b batch, result σ hid1 (run_diff E a b batch) = result σ hid2 (run_diff E a b batch)).
Proof. exact handles_agree. Qed.
Print Assumptions C22_handles_agree.

(** One of these may be a handle that has just been loaded, and loading gives
    the metadata the entry point names. *)
Theorem C22_load_is_latest : ∀ σ hid h,
  reachable σ → y_handles (step σ (CLoad hid)) !! hid = Some h → stored_meta (w_fs (y_world σ)) ≠ None →
  stored_meta (w_fs (y_world σ)) = Some (h_meta h) ∧ h_branch h = MAIN.
Proof. exact load_latest. Qed.
Print Assumptions C22_load_is_latest.

(** After a reload the handle has the newest metadata and a second reload
    returns False; if it returned False the handle was as new already. *)
Theorem C22_reload_synchronises : ∀ σ hid h b,
  reachable σ → y_handles σ !! hid = Some h → result σ hid reload = Some (Ok b) →
  ∃ h', y_handles (after σ hid reload) !! hid = Some h' ∧ stored_meta (w_fs (y_world (after σ hid reload))) = Some (h_meta h')
    ∧ y_world (after σ hid reload) = y_world σ
    ∧ h_branch h' = h_branch h
    ∧ result (after σ hid reload) hid reload = Some (Ok false)
    ∧ (b = false → h' = h).
Proof. exact reload_latest. Qed.
Print Assumptions C22_reload_synchronises.

(** reload() returns True after this handle's own commit, although nobody else
    wrote: the handle keeps the full path of the metadata file, the entry point
    the short one (core/storage.py:211, 285, 367). *)
Theorem C22_refuted : ∃ σ σ', reachable σ ∧ result σ 0 reload = Some (Ok false)
  ∧ σ' = step σ (CRun 0 ex_env ex_opts (OAppend ex_rows)) ∧ result σ' 0 reload = Some (Ok true).
Proof.
  exists (ex_calls [ex_create; CReload 0]). eexists. split; [apply reach; calls|]. split; [computed|]. split; [done|computed].
Qed.
Print Assumptions C22_refuted.

(** When the handle did nothing since its last reload, reload() returns True
    exactly if the entry point changed. *)
Theorem C22_reload_reports_partial : ∀ σ σ' hid h h0,
  reachable σ → history env_ok σ σ' → y_handles σ !! hid = Some h0 →
  y_handles (after σ hid reload) !! hid = Some h → y_handles σ' !! hid = Some h →
  ∃ b, result σ' hid reload = Some (Ok b)
    ∧ (b = true ↔ w_fs (y_world σ') !! PEntry ≠ w_fs (y_world σ) !! PEntry)
    ∧ (b = false → stored_meta (w_fs (y_world σ')) = stored_meta (w_fs (y_world σ))).
Proof. exact reload_foreign. Qed.
Print Assumptions C22_reload_reports_partial.

(** Handle 1 is loaded, then handle 0 commits. *)
Definition C22_before : sys := ex_calls [ex_create; ex_append; CLoad 1].
Definition C22_after : sys := step C22_before (CRun 0 ex_env ex_opts (ODelete (ex_cmp OpEq "k" (SNum 2)))).
Example C22_case : ∃ h0 h1,
  reachable C22_before ∧ history env_ok C22_before C22_after
  ∧ y_handles C22_after !! 0 = Some h0 ∧ y_handles C22_after !! 1 = Some h1
  ∧ y_handles (after C22_before 1 reload) !! 1 = Some h1 ∧ h_branch h0 = h_branch h1
  ∧ stored_meta (w_fs (y_world C22_after)) ≠ Some (h_meta h1)
  ∧ reads C22_after 1 None [ex_row 1 "a" "A"; ex_row 3 "c" "C"; ex_row 4 "d" "D"; ex_row 5 "e" "E"]
  ∧ result C22_before 1 reload = Some (Ok false) ∧ result C22_after 1 reload = Some (Ok true).
Proof.
  assert (Hr : reachable C22_before) by (apply reach; calls).
  assert (Hr' : reachable C22_after) by (apply (reach_from C22_before [CRun 0 ex_env ex_opts (ODelete (ex_cmp OpEq "k" (SNum 2)))]); [done|calls]).
  do 2 eexists. split; [done|].
  split; [apply (history_tested _ C22_before [CRun 0 ex_env ex_opts (ODelete (ex_cmp OpEq "k" (SNum 2)))]); calls|].
  split; [computed|]. split; [computed|]. split; [computed|]. split; [done|].
  split; [vm_compute; discriminate|]. split; [by reads_by_computing|]. split; computed.
Qed.
