(** Transactions whose parts are separated by other processes' calls. *)
From Verif.Spec Require Export Separable Logical Keys Durable Evolution.

(** What operation [o] makes of the rows [before] of a branch whose files are
    laid out as [lay], in the file system [fs]: the claims C01, C41, C06, C08
    and C09 on single operations, and C30, C32 and C57 on distributed ones. *)
Definition effect (s : schema) (fs : fsys) (lay : list (list (list row))) (o : op) (before rows : list row) : Prop :=
  match o with
  | OAppend batches => rows = before ++ (show s <$> concat batches)
  | OParquet paths => rows = before ++ (show s <$> (paths ≫= file_table fs))
  | OArrayRecord paths index_fn _ =>
      ∃ f, (∃ fid, rec_fields s = [(f, fid)])
      ∧ rows = before ++ (show s <$> ((fun b => columns (filter (fun n => n ≠ f) (names_of (s_fields s))) (index_fn b)
                                         ++ [(f, CVal (SStr b))])
                              <$> (paths ≫= (fun p => default [] (records_in fs p)))))
  | ODelete e =>
      (∀ r, r ∈ rows → r ∈ before)
      ∧ (safe_filter s e → no_nan_keys (s_pks s) before → decided e before →
         ∃ lost, filter (fun r => matches e r = false) before ≡ₚ rows ++ lost
           ∧ (lost = [] ↔ lossless lay (fun r => matches e r = true)))
  | OInsert MInsert data =>
      plain_keys s → proper_keys (s_pks s) before → key_nonnull (s_pks s) data →
      unique_keys (s_pks s) data
      ∧ (∀ y d, y ∈ before → d ∈ data → key_of (s_pks s) y ≠ key_of (s_pks s) d)
      ∧ rows = before ++ (show s <$> data)
  | OInsert MUpsert data =>
      plain_keys s → proper_keys (s_pks s) before → key_nonnull (s_pks s) data →
      unique_keys (s_pks s) data
      ∧ ∃ kept lost, rows = kept ++ (show s <$> data)
        ∧ filter (fun y => key_of (s_pks s) y ∉ key_of (s_pks s) <$> data) before ≡ₚ kept ++ lost
        ∧ (lost = [] ↔ lossless lay (fun r => key_of (s_pks s) r ∈ key_of (s_pks s) <$> data))
  | ORayAppend _ data => ∃ written, written ≡ₚ data ∧ rows = before ++ (show s <$> written)
  | ORayAppendFrom _ sources => ∃ written, written ≡ₚ concat (concat sources) ∧ rows = before ++ (show s <$> written)
  | ORayInsert _ MInsert data =>
      plain_keys s → proper_keys (s_pks s) before → key_nonnull (s_pks s) data →
      unique_keys (s_pks s) data
      ∧ (∀ y d, y ∈ before → d ∈ data → key_of (s_pks s) y ≠ key_of (s_pks s) d)
      ∧ ∃ written, written ≡ₚ data ∧ rows = before ++ (show s <$> written)
  | ORayInsert _ MUpsert data =>
      plain_keys s → proper_keys (s_pks s) before → key_nonnull (s_pks s) data →
      unique_keys (s_pks s) data
      ∧ ∃ kept lost written, written ≡ₚ data ∧ rows = kept ++ (show s <$> written)
        ∧ filter (fun y => key_of (s_pks s) y ∉ key_of (s_pks s) <$> data) before ≡ₚ kept ++ lost
        ∧ (lost = [] ↔ lossless lay (fun r => key_of (s_pks s) r ∈ key_of (s_pks s) <$> data))
  | ORayDelete e =>
      (∀ r, r ∈ rows → r ∈ before)
      ∧ (safe_filter s e → no_nan_keys (s_pks s) before → decided e before →
         separable lay (fun r => matches e r = true) →
         filter (fun r => matches e r = false) before ≡ₚ rows)
  end.

(** [b] names a branch. *)
Definition is_branch (m : metadata) (b : string) : Prop :=
  b = MAIN ∨ ∃ r, md_refs m !! b = Some r ∧ rf_kind r = RBranch.

(** The call commits to branch [b]. *)
Fixpoint commits_to (σ : sys) (b : string) (c : call) : Prop :=
  match c with
  | CRun hid _ _ _ => ∃ h, y_handles σ !! hid = Some h ∧ h_branch h = b
  | CCommit tid => ∃ x, y_txns σ !! tid = Some x ∧ x_branch (pe_txn x) = b
  | CCrash c' _ => commits_to σ b c'
  | _ => False
  end.
(** Histories whose edits go through up-to-date handles, that do not remove
    branch [b], and whose calls satisfy [ok]. *)
Definition keeping (b : string) (ok : sys → call → Prop) (σ σ' : sys) : Prop :=
  history (fun σ c => env_ok σ c ∧ fresh_edits σ c ∧ ¬ removes_branch b c ∧ ok σ c) σ σ'.

(** In state [σ0] handle [hid] starts a transaction [x]; later its operation [o]
    runs and yields the patch [p]; [σ] is reached before it commits.  In between
    any calls may happen that edit tags and branches through up-to-date handles
    only, do not remove the transaction's branch, and satisfy [ok]; this very
    handle may be used as well, as long as it is on the transaction's branch
    when the operation and the commit run. *)
Definition on_branch (σ : sys) (hid : nat) (b : string) : Prop :=
  ∃ h, y_handles σ !! hid = Some h ∧ h_branch h = b.
Record running (ok : sys → call → Prop) (hid tid : nat) (x : txn) (E : env) (fo : fopts) (o : op) (p : option patch)
    (σ0 σ : sys) : Prop := {
  rn_begin : result σ0 hid txn_begin = Some (Ok x);
  rn_branch : ∀ m, stored_meta (w_fs (y_world σ0)) = Some m → is_branch m (x_branch x);
  rn_rest : ∃ σ1,
    keeping (x_branch x) ok (step σ0 (CBegin hid tid)) σ1
    ∧ y_txns σ1 !! tid = Some (Pending hid x None) ∧ on_branch σ1 hid (x_branch x)
    ∧ env_ok σ1 (COp tid E fo o) ∧ result σ1 hid (op_body E fo o) = Some (Ok p)
    ∧ keeping (x_branch x) ok (step σ1 (COp tid E fo o)) σ
    ∧ y_txns σ !! tid = Some (Pending hid x (Some p)) ∧ on_branch σ hid (x_branch x) }.
Definition anything : sys → call → Prop := fun _ _ => True.
Definition elsewhere (b : string) : sys → call → Prop := fun σ c => ¬ commits_to σ b c.
Definition commit_outcome (σ : sys) (hid : nat) (x : txn) (p : option patch) : option (res job) :=
  result σ hid (catch_job (txn_commit x p)).
Definition after_commit (σ : sys) (hid : nat) (x : txn) (p : option patch) : sys :=
  after σ hid (catch_job (txn_commit x p)).
