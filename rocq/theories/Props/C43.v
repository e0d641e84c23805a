(** C43: views survive materialization.  [tr] is any sequence of calls on the
    storages of the machine, [built] are the views obtained through the API,
    [rand] are the random IDs drawn, [files] the pickled functions on disk. *)
From Verif.Spec Require Import Api Fixture Durable SchemaSpec Catalogs Views.
From Verif.Proofs Require Import PathFacts Catalogs ViewPlans Witness.
From Verif.Spec Require Import Places.

(** Whatever happens to the storages afterwards, and from whatever directory the
    materialized view is loaded, the view rebuilt is the one materialized: the
    same transforms with the same functions, input fields, schemas and record
    fields over the same dataset.  (Missing: datasets opened on a branch other
    than main, and source locations that lead elsewhere from the directory of
    the process that loads; see below.) *)
Theorem C43_rebuilt_partial : ∀ (F : Type) cwd rand hid location (v : view F) tr files D' files' sp,
  abs_path cwd → (∀ j, id_like (rand j)) → allowed cwd tr → built cwd (disk_run cwd tr) v →
  source_branch v = MAIN →
  materialize cwd rand hid location v (disk_run cwd tr) files = (D', files', Ok sp) →
  ∀ cwd' location' after files'',
    allowed cwd (tr ++ after) → files' ⊆ files'' →
    place cwd' location' = place cwd location →
    place cwd' (source_location v) = place cwd (source_location v) →
    load_view cwd' location' (disk_run cwd (tr ++ after)) files'' sp = Ok v.
Proof. intros. rewrite <-(on_main_id v) by done. by eapply rebuilt. Qed.
Print Assumptions C43_rebuilt_partial.

(** The branch of the source is not part of the plan: the view rebuilt always
    reads main. *)
Theorem C43_rebuilt_on_main : ∀ (F : Type) cwd rand hid location (v : view F) tr files D' files' sp,
  abs_path cwd → (∀ j, id_like (rand j)) → allowed cwd tr → built cwd (disk_run cwd tr) v →
  materialize cwd rand hid location v (disk_run cwd tr) files = (D', files', Ok sp) →
  ∀ cwd' location' after files'',
    allowed cwd (tr ++ after) → files' ⊆ files'' →
    place cwd' location' = place cwd location →
    place cwd' (source_location v) = place cwd (source_location v) →
    load_view cwd' location' (disk_run cwd (tr ++ after)) files'' sp = Ok (on_main v).
Proof. intros. by eapply rebuilt. Qed.
Print Assumptions C43_rebuilt_on_main.

(** Every such view has a plan; only creating the storage can fail, and the
    storage is created with the schema, keys and record fields of the view. *)
Theorem C43_materializes : ∀ (F : Type) cwd rand hid location (v : view F) tr files,
  abs_path cwd → (∀ j, id_like (rand j)) → NoDup (rand <$> seq 0 (transforms v)) →
  allowed cwd tr → built cwd (disk_run cwd tr) v →
  ∃ D' files' sp,
    materialize cwd rand hid location v (disk_run cwd tr) files
    = (D', files', rmap (fun _ => sp) (create (v_schema v) (v_pks v) (v_recs v) (y_world (storage_at (disk_run cwd tr) (place cwd location)))).2)
    ∧ D' = act cwd (disk_run cwd tr) location (CCreate hid (v_schema v) (v_pks v) (v_recs v)).
Proof. intros. by apply materializes. Qed.
Print Assumptions C43_materializes.

(** A filter over a map over the fixture's dataset. *)
Definition C43_rand (j : nat) : string := match j with 0 => "0a1b2c3d" | _ => "ffffffff" end.
Definition C43_out : list afield := [AField "w" TString None true; AField "k" TInt64 None true].
Definition C43_source : view string := VData "src" MAIN (Schema (assign_field_ids ex_fields) ["k"] ["r"]).
Definition C43_map : res (view string) := map_batches C43_source "f" C43_out (Some ["v"; "k"]) None (Some 5).
Definition C43_view : res (view string) := let? v := C43_map in filter_view v "g" None.
Definition C43_trace : trace := [("src", ex_create)].

Lemma C43_allowed : allowed "/u" C43_trace.
Proof. apply (AllowedStep "/u" [] "src" ex_create); [constructor|]. apply (bool_decide_unpack _). by vm_compute. Qed.
Lemma C43_ids j : id_like (C43_rand j).
Proof. unfold id_like. destruct j; apply (bool_decide_unpack _); by vm_compute. Qed.

Example C43_case : ∃ v D' files' sp,
  C43_view = Ok v ∧ transforms v = 2 ∧ v_pks v = ["k"] ∧ names_of (v_schema v) = ["w"; "k"]
  ∧ abs_path "/u" ∧ (∀ j, id_like (C43_rand j)) ∧ NoDup (C43_rand <$> seq 0 (transforms v))
  ∧ allowed "/u" C43_trace ∧ built "/u" (disk_run "/u" C43_trace) v ∧ source_branch v = MAIN
  ∧ materialize "/u" C43_rand 7 "mv" v (disk_run "/u" C43_trace) ∅ = (D', files', Ok sp)
  ∧ sp_udfs sp !! "udf_0a1b2c3d" = Some "metadata/udfs/udf_0a1b2c3d.pkl"
  ∧ place "/" "u/mv" = place "/u" "mv".
Proof.
  eexists _, _, _, _. split; [by vm_compute|]. split; [done|]. split; [done|]. split; [done|]. split; [done|].
  split; [exact C43_ids|]. split; [apply (bool_decide_unpack _); by vm_compute|]. split; [exact C43_allowed|].
  split; [|split; [done|split; [reflexivity|split; [by vm_compute|by vm_compute]]]].
  assert (built "/u" (disk_run "/u" C43_trace) C43_source) as H0.
  { pose (h := default (Handle (Metadata (Schema [] [] []) 0 ∅ ∅) (MShort PEntry) "" 0) (y_handles (storage_at (disk_run "/u" C43_trace) (place "/u" "src")) !! 0)).
    refine (eq_rect _ (fun v => built "/u" (disk_run "/u" C43_trace) v) (BuiltData "/u" (disk_run "/u" C43_trace) "src" 0 h _) _ _); by vm_compute. }
  destruct C43_map as [m|e] eqn:Hm; [|by vm_compute in Hm].
  apply (BuiltFilter _ _ m "g" None); [|vm_compute in Hm; injection Hm as <-; by vm_compute].
  by apply (BuiltMap _ _ C43_source "f" C43_out (Some ["v"; "k"]) None (Some 5)).
Qed.

(** A dataset opened on a branch: the view rebuilt is a different one, of main. *)
Definition C43_branched : trace := C43_trace ++ [("src", CEdit 0 (EdAddBranch "b"))] ++ [("src", CEdit 0 (EdSetBranch "b"))].

Lemma C43_branched_allowed : allowed "/u" C43_branched.
Proof.
  apply (AllowedStep "/u" (C43_trace ++ [("src", CEdit 0 (EdAddBranch "b"))]) "src"); [|exact I].
  apply (AllowedStep "/u" C43_trace "src"); [exact C43_allowed|exact I].
Qed.

Theorem C43_branch_refuted : ∃ (v : view string) D' files' sp,
  allowed "/u" C43_branched ∧ built "/u" (disk_run "/u" C43_branched) v
  ∧ materialize "/u" C43_rand 7 "mv" v (disk_run "/u" C43_branched) ∅ = (D', files', Ok sp)
  ∧ load_view "/u" "mv" D' files' sp ≠ Ok v.
Proof.
  exists (VData "src" "b" (Schema (assign_field_ids ex_fields) ["k"] ["r"])). do 3 eexists.
  split; [exact C43_branched_allowed|]. split; [|split; [reflexivity|by vm_compute]].
  pose (h := default (Handle (Metadata (Schema [] [] []) 0 ∅ ∅) (MShort PEntry) "" 0) (y_handles (storage_at (disk_run "/u" C43_branched) (place "/u" "src")) !! 0)).
  refine (eq_rect _ (fun v => built "/u" (disk_run "/u" C43_branched) v) (BuiltData "/u" (disk_run "/u" C43_branched) "src" 0 h _) _ _); by vm_compute.
Qed.
Print Assumptions C43_branch_refuted.

(** A dataset opened by a relative location: a process in another directory
    that opens the materialized view at the same place does not find it. *)
Theorem C43_directory_refuted : ∃ (v : view string) D' files' sp,
  allowed "/u" C43_trace ∧ built "/u" (disk_run "/u" C43_trace) v
  ∧ materialize "/u" C43_rand 7 "mv" v (disk_run "/u" C43_trace) ∅ = (D', files', Ok sp)
  ∧ load_view "/u" "mv" D' files' sp = Ok v
  ∧ place "/" "/u/mv" = place "/u" "mv" ∧ load_view "/" "/u/mv" D' files' sp ≠ Ok v.
Proof.
  exists C43_source. do 3 eexists. split; [exact C43_allowed|].
  split; [|split; [reflexivity|split; [by vm_compute|split; [by vm_compute|by vm_compute]]]].
  pose (h := default (Handle (Metadata (Schema [] [] []) 0 ∅ ∅) (MShort PEntry) "" 0) (y_handles (storage_at (disk_run "/u" C43_trace) (place "/u" "src")) !! 0)).
  refine (eq_rect _ (fun v => built "/u" (disk_run "/u" C43_trace) v) (BuiltData "/u" (disk_run "/u" C43_trace) "src" 0 h _) _ _); by vm_compute.
Qed.
Print Assumptions C43_directory_refuted.
