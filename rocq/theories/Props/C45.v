(** C45: every accepted schema can be written. *)
From Verif.Spec Require Import Api Fixture Keys Typed Pruning Serial.
From Verif.Proofs Require Import Succeeds Witness.

(** Missing from the full claim: schemas with keys after nested or record fields
    ([plain_keys]) or with record fields before others ([records_last]); rows
    with null or NaN keys ([proper_keys]).  The theorems below show that the
    claim fails there. *)
Theorem C45_append_succeeds_partial : ∀ σ hid h s m E fo batches,
  reachable σ → y_handles σ !! hid = Some h → schema_at σ hid = Some s →
  stored_meta (w_fs (y_world σ)) = Some m → is_branch m (h_branch h) →
  plain_keys s → records_last s →
  Forall (typed_row s) (concat batches) → proper_keys (s_pks s) (concat batches) →
  match concat batches with
  | [] => result σ hid (run_append E fo batches) = Some (Ok JSkipped)
  | _ => ∃ st, result σ hid (run_append E fo batches) = Some (Ok (JSucceeded st))
           ∧ st_rows st = Z.of_nat (length (concat batches))
  end.
Proof. exact append_succeeds. Qed.
Print Assumptions C45_append_succeeds_partial.

(** Reads filtered by primary keys return. *)
Theorem C45_key_filters_work_partial : ∀ σ hid s e v before,
  reachable σ → schema_at σ hid = Some s → plain_keys s → reads σ hid v before →
  (∀ n, n ∈ filter_fields e → n ∈ s_pks s) → None ∉ literals e → bare e = false →
  ∃ rows, ∀ E b, result σ hid (run_read_all E (Some e) None v false b) = Some (Ok rows).
Proof. exact key_filter_read. Qed.
Print Assumptions C45_key_filters_work_partial.

(** A schema with a list column and a struct column after the key. *)
Definition C45_fields : list afield :=
  [AField "k" TInt64 None true; AField "l" (TList (AField "item" TInt64 None true)) None true;
   AField "a" (TStruct [AField "x" TInt64 None true; AField "y" TString None true]) None true; AField "r" TBinary None true].
Definition C45_row (k : Z) : row :=
  [("k", CVal (SNum k)); ("l", CNested [[SNum 1; SNum 2]]); ("a", CNested [[SNum 1]; [SStr "y"]]); ("r", CVal (SStr "R"))].
Example C45_case : ∃ σ h s m e before,
  reachable σ ∧ y_handles σ !! 0 = Some h ∧ schema_at σ 0 = Some s
  ∧ stored_meta (w_fs (y_world σ)) = Some m ∧ is_branch m (h_branch h) ∧ plain_keys s ∧ records_last s
  ∧ Forall (typed_row s) (concat [[C45_row 1; C45_row 2]; [C45_row 3]])
  ∧ proper_keys (s_pks s) (concat [[C45_row 1; C45_row 2]; [C45_row 3]])
  ∧ reads σ 0 None before ∧ (∀ n, n ∈ filter_fields e → n ∈ s_pks s) ∧ None ∉ literals e ∧ bare e = false
  ∧ length before = 2.
Proof.
  set (cs := [CCreate 0 C45_fields ["k"] ["r"]; ex_add [C45_row 4; C45_row 5]]).
  exists (ex_calls cs). do 3 eexists. exists (ex_cmp OpGt "k" (SNum 4)). eexists.
  assert (reachable (ex_calls cs)) by (apply reach; calls).
  split_and!; [done|computed|computed|computed|by left|apply plain_keys_tested; computed|computed
    |typed|proper|by reads_by_computing|intros n; cbn; set_solver|cbn; set_solver|done|done].
Qed.

(** A record field before another field: appends raise. *)
Theorem C45_refuted_record_first : ∃ σ s row e,
  reachable σ ∧ schema_at σ 0 = Some s ∧ typed_row s row ∧ proper_keys (s_pks s) [row]
  ∧ result σ 0 (run_append ex_env ex_large [[row]]) = Some (Err e).
Proof.
  set (cs := [CCreate 0 [AField "r" TBinary None true; AField "k" TInt64 None true] ["k"] ["r"]]).
  exists (ex_calls cs). eexists. exists [("r", CVal (SStr "R")); ("k", CVal (SNum 1))]. eexists.
  split_and!; [apply reach; calls|computed| |proper|computed].
  apply Forall_singleton. typed.
Qed.
Print Assumptions C45_refuted_record_first.
(** A struct before the key: an append succeeds, filtered reads raise. *)
Theorem C45_refuted_struct_first : ∃ σ s row st err,
  reachable σ ∧ schema_at σ 0 = Some s ∧ typed_row s row ∧ proper_keys (s_pks s) [row]
  ∧ result σ 0 (run_append ex_env ex_large [[row]]) = Some (Ok (JSucceeded st))
  ∧ result (after σ 0 (run_append ex_env ex_large [[row]])) 0
      (run_read_all ex_env (Some (ex_cmp OpEq "k" (SNum 3))) None None false None) = Some (Err err).
Proof.
  set (cs := [CCreate 0 [AField "a" (TStruct [AField "x" TInt64 None true; AField "y" TInt64 None true]) None true;
                         AField "k" TInt64 None true] ["k"] []]).
  exists (ex_calls cs). eexists. exists (ex_nested_row 1 2 3). do 2 eexists.
  split_and!; [apply reach; calls|computed| |proper|computed|computed].
  apply Forall_singleton. typed.
Qed.
Print Assumptions C45_refuted_struct_first.
(** A row group of null keys after another row group: the statistics cannot be
    merged and the append raises. *)
Theorem C45_refuted_null_keys : ∃ σ s rows e,
  reachable σ ∧ schema_at σ 0 = Some s ∧ Forall (typed_row s) rows
  ∧ result σ 0 (run_append ex_env ex_large [rows]) = Some (Err e).
Proof.
  set (cs := [ex_create]). exists (ex_calls cs). eexists.
  set (nul := [("k", CNull); ("v", CVal (SStr "n")); ("r", CVal (SStr "N"))]).
  exists [ex_row 1 "a" "A"; ex_row 2 "b" "B"; nul; nul]. eexists.
  split_and!; [apply reach; calls|computed|typed|computed].
Qed.
Print Assumptions C45_refuted_null_keys.
