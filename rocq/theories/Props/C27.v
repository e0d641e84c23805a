(** C27: version resolution and listing. *)
From Verif.Spec Require Import Api Fixture Layout Changes Versions.
From Verif.Proofs Require Import Latest ReadRun Witness.

(** A name reads (and diffs) the snapshot it refers to ([named]: the reference
    in the stored metadata, or the number itself). *)
Theorem C27_read_resolves : ∀ σ hid h m v i,
  reachable σ → y_handles σ !! hid = Some h → stored_meta (w_fs (y_world σ)) = Some m → named m v = Some i →
  ∀ E flt fields ref b,
  result σ hid (run_read E flt fields (Some v) ref b) = result σ hid (run_read E flt fields (Some (VId i)) ref b).
Proof. exact read_named. Qed.
Print Assumptions C27_read_resolves.
Theorem C27_diff_resolves : ∀ σ hid h m a b i j,
  reachable σ → y_handles σ !! hid = Some h → stored_meta (w_fs (y_world σ)) = Some m →
  named m a = Some i → named m b = Some j →
  ∀ E batch, result σ hid (run_diff E a b batch) = result σ hid (run_diff E (VId i) (VId j) batch).
Proof. exact diff_named. Qed.
Print Assumptions C27_diff_resolves.

(** Reading raises VersionNotFoundError exactly if the name or the snapshot does
    not exist, for any filter and any selection of existing columns. *)
Theorem C27_read_not_found : ∀ σ hid h s m v,
  reachable σ → y_handles σ !! hid = Some h → schema_at σ hid = Some s → stored_meta (w_fs (y_world σ)) = Some m →
  ∀ E flt fields ref b, (∀ n, n ∈ read_names s fields → n ∈ s_names s) →
  result σ hid (run_read E flt fields (Some v) ref b) = Some (Err (EUser UVersionNotFound))
  ↔ (i ← named m v; md_snaps m !! i) = None.
Proof. exact read_not_found. Qed.
Print Assumptions C27_read_not_found.

(** A diff does not: a start version that does not exist gives UserInputError.
    Nor can a user name the main branch. *)
Theorem C27_refuted_diff : ∃ σ m, reachable σ ∧ stored_meta (w_fs (y_world σ)) = Some m ∧ md_snaps m !! (-1)%Z = None
  ∧ result σ 0 (run_diff ex_env (VId (-1)) (VId 1) None) = Some (Err (EUser UInput))
  ∧ result σ 0 (run_read_all ex_env None None (Some (VName MAIN)) false None) = Some (Err (EUser UVersionNotFound)).
Proof.
  exists (ex_calls [ex_create; ex_append]). eexists. split; [apply reach; calls|]. split; [computed|]. split; [done|]. split; computed.
Qed.
Print Assumptions C27_refuted_diff.

(** versions() lists each snapshot the handle knows once for each name that
    refers to it, or once without a name, the latest first. *)
Theorem C27_versions_listed : ∀ σ hid h,
  y_handles σ !! hid = Some h → ∃ rows, result σ hid run_versions = Some (Ok rows) ∧ lists_versions (h_meta h) rows.
Proof. exact versions_of_handle. Qed.
Print Assumptions C27_versions_listed.

(** snapshot_ids has each snapshot once. *)
Theorem C27_snapshot_ids : ∀ m : metadata, NoDup (snapshot_ids m) ∧ ∀ i, i ∈ snapshot_ids m ↔ is_Some (md_snaps m !! i).
Proof. exact snapshot_ids_spec. Qed.
Print Assumptions C27_snapshot_ids.
Example C27_ids_case : ∃ m, stored_meta (w_fs (y_world (ex_calls [ex_create; ex_append; ex_append]))) = Some m ∧ length (snapshot_ids m) = 3.
Proof. eexists. split; computed. Qed.

(** Snapshot 1 has two names, snapshot 2 none. *)
Definition C27_state : sys :=
  ex_calls [ex_create; ex_append; CEdit 0 (EdAddTag "t" None); CEdit 0 (EdAddBranch "b"); CTick 5; ex_append].
Example C27_case : ∃ h s m rows, reachable C27_state ∧ y_handles C27_state !! 0 = Some h ∧ schema_at C27_state 0 = Some s
  ∧ stored_meta (w_fs (y_world C27_state)) = Some m ∧ named m (VName "t") = Some 1%Z
  ∧ reads C27_state 0 (Some (VName "t")) (concat ex_rows)
  ∧ result C27_state 0 (run_read_all ex_env None None (Some (VName "x")) false None) = Some (Err (EUser UVersionNotFound))
  ∧ result C27_state 0 run_versions = Some (Ok rows) ∧ length rows = 4
  ∧ (2, 5, None)%Z ∈ rows ∧ (1, 0, Some "t")%Z ∈ rows ∧ (1, 0, Some "b")%Z ∈ rows.
Proof.
  assert (Hr : reachable C27_state) by (apply reach; calls).
  do 4 eexists. split; [done|]. split; [computed|]. split; [computed|]. split; [computed|]. split; [computed|].
  split; [by reads_by_computing|]. split; [computed|]. split; [computed|]. split; [computed|].
  split; [|split]; apply (bool_decide_unpack _); computed.
Qed.
