(** Several processes working on one storage: handles, running transactions,
    external files, the clock and crashes.  This is the environment in which
    the functions of Storage and Runner are called; it is not code of its own.
    StorageMixin.transactional (core/runners.py:105-121) runs an operation
    between Transaction.__enter__ and Transaction.commit; [CBegin], [COp] and
    [CCommit] are these three parts, so that other processes may act in between
    ([CRun] is the uninterrupted whole). *)
From Verif.Model Require Export Runner RayOps.

Inductive op :=
| OAppend (batches : list (list row))
| OInsert (mode : insert_mode) (data : list row)
| ODelete (e : filter_expr)
| OParquet (paths : list path)
| OArrayRecord (paths : list path) (index_fn : string → row) (nbytes : string → Z)
| ORayAppend (n : nat) (data : list row)
| ORayAppendFrom (n : nat) (sources : list (list (list row)))
| ORayInsert (n : nat) (mode : insert_mode) (data : list row)
| ORayDelete (e : filter_expr).

(** The bodies of the mutating methods of LocalRunner (core/runners.py:239-286)
    and of RayReadWriterRunner (ray/runners.py:275-325). *)
Definition op_body (E : env) (O : fopts) (o : op) : H (option patch) :=
  match o with
  | OAppend batches =>
      let! h := get_handle in liftM (append_op E O (md_schema (h_meta h)) batches)
  | OInsert mode data => insert_op E O mode data
  | ODelete e =>
      let! h := get_handle in
      let! fset := data_files (Some e) None in
      liftM (delete_op E O (md_schema (h_meta h)) e fset)
  | OParquet paths =>
      let! h := get_handle in liftM (parquet_load_op E (md_schema (h_meta h)) paths)
  | OArrayRecord paths index_fn nbytes =>
      let! h := get_handle in
      liftM (array_record_load_op E O (md_schema (h_meta h)) paths index_fn nbytes)
  | ORayAppend n data =>
      let! h := get_handle in liftM (ray_write E O (md_schema (h_meta h)) n data)
  | ORayAppendFrom n sources =>
      let! h := get_handle in
      let k := length sources `min` n in
      liftM (ray_append_op E O (md_schema (h_meta h)) k (ray_sources k sources))
  | ORayInsert n mode data => ray_insert_op E O n mode data
  | ORayDelete e =>
      let! h := get_handle in
      let! fset := data_files (Some e) None in
      liftM (ray_delete_op E O (md_schema (h_meta h)) e fset)
  end.
(** The whole method; [run_append] etc. of Runner and [run_ray_append] etc. of
    RayOps are instances. *)
Definition run_op (E : env) (O : fopts) (o : op) : H job := transactional (op_body E O o).

(** Editing references and the current branch (core/storage.py:238-313). *)
Inductive edit :=
| EdSetBranch (b : string)
| EdAddTag (n : string) (sid : option Z)
| EdAddBranch (n : string)
| EdRemoveTag (n : string)
| EdRemoveBranch (n : string).
Definition run_edit (d : edit) : H unit :=
  match d with
  | EdSetBranch b => set_current_branch b
  | EdAddTag n sid => add_tag n sid
  | EdAddBranch n => add_branch n
  | EdRemoveTag n => remove_tag n
  | EdRemoveBranch n => remove_branch n
  end.

(** A transaction between its parts: the handle it uses, what __enter__
    recorded, and the patch once the operation has run. *)
Record pending := Pending { pe_handle : nat; pe_txn : txn; pe_patch : option (option patch) }.
Record sys := Sys {
  y_world : world; y_handles : gmap nat handle; y_txns : gmap nat pending }.

Inductive call :=
| CCreate (hid : nat) (fs : list afield) (pks recs : list string)
| CLoad (hid : nat)
| CReload (hid : nat)
| CEdit (hid : nat) (d : edit)
| CRun (hid : nat) (E : env) (O : fopts) (o : op)
| CBegin (hid tid : nat)
| COp (tid : nat) (E : env) (O : fopts) (o : op)
| CCommit (tid : nat)
| CTick (dt : Z)                                     (** time passes *)
| CExternal (name : string) (f : file)               (** somebody adds a file *)
| CCrash (c : call) (k : nat).                       (** dies after [k] writes *)

(** Reads and diffs start with a reload and change nothing else, so [CReload]
    covers their effect on the state. *)
(** Run a method of handle [hid]. *)
Definition with_handle {A} (σ : sys) (hid : nat) (m : H A) : sys * option (res A) :=
  match y_handles σ !! hid with
  | None => (σ, None)
  | Some h => let '((h', w'), r) := m (h, y_world σ) in
              (Sys w' (<[hid := h']> (y_handles σ)) (y_txns σ), Some r)
  end.
Definition set_txn (σ : sys) (tid : nat) (p : pending) : sys :=
  Sys (y_world σ) (y_handles σ) (<[tid := p]> (y_txns σ)).
Definition new_handle (σ : sys) (hid : nat) (r : world * res handle) : sys :=
  match r with
  | (w', Ok h) => Sys w' (<[hid := h]> (y_handles σ)) (y_txns σ)
  | (w', Err _) => Sys w' (y_handles σ) (y_txns σ)
  end.

Fixpoint step (σ : sys) (c : call) : sys :=
  match c with
  | CCreate hid fs pks recs => new_handle σ hid (create fs pks recs (y_world σ))
  | CLoad hid => new_handle σ hid (load (y_world σ))
  | CReload hid => (with_handle σ hid reload).1
  | CEdit hid d => (with_handle σ hid (run_edit d)).1
  | CRun hid E fo o => (with_handle σ hid (run_op E fo o)).1
  | CBegin hid tid =>
      match with_handle σ hid txn_begin with
      | (σ', Some (Ok x)) => set_txn σ' tid (Pending hid x None)
      | (σ', _) => σ'
      end
  | COp tid E fo o =>
      match y_txns σ !! tid with
      | Some (Pending hid x None) =>
          match with_handle σ hid (op_body E fo o) with
          | (σ', Some (Ok p)) => set_txn σ' tid (Pending hid x (Some p))
          | (σ', _) => Sys (y_world σ') (y_handles σ') (delete tid (y_txns σ'))
          end
      | _ => σ
      end
  | CCommit tid =>
      match y_txns σ !! tid with
      | Some (Pending hid x (Some p)) =>
          let σ' := (with_handle σ hid (catch_job (txn_commit x p))).1 in
          Sys (y_world σ') (y_handles σ') (delete tid (y_txns σ'))
      | _ => σ
      end
  | CTick dt =>
      let w := y_world σ in
      Sys (World (w_fs w) (w_next w) (w_clock w + dt) (w_log w)) (y_handles σ) (y_txns σ)
  | CExternal name f =>
      let w := y_world σ in
      match w_fs w !! PExt name, f with
      | None, (FIndex _ _ | FRecord _) =>
          Sys (World (<[PExt name := f]> (w_fs w)) (w_next w) (w_clock w) (w_log w))
              (y_handles σ) (y_txns σ)
      | _, _ => σ
      end
  | CCrash c' k =>
      (** Only the first [k] writes of the call reach the disk.  The handles of
          the process that died are not used again; they are left as they were. *)
      let σ' := step σ c' in
      let w := y_world σ in let w' := y_world σ' in
      let evs := take k (drop (length (w_log w)) (w_log w')) in
      Sys (World (replay (w_fs w) evs) (w_next w') (w_clock w') (w_log w ++ evs))
          (y_handles σ) (y_txns σ)
  end.

Definition init : sys := Sys (World ∅ 0 0 []) ∅ ∅.

(** What the model assumes about the outside world: column names of a schema
    are distinct; externally supplied Parquet files have the columns of the
    storage (with its field IDs, or without IDs) and values of their types; Ray
    runs with at least one worker. *)
Definition path_is_ext (p : path) : Prop := match p with PExt _ => True | _ => False end.
Definition column_fits (s : schema) (f : afield) (c : string * Z) : Prop :=
  c.1 = f_name f ∧ (c.2 = field_id f ∨ c.2 = NULL_FIELD_ID ∧ f_name f ∉ s_recs s).
Definition external_ok (s : schema) (fs : fsys) (p : path) : Prop :=
  path_is_ext p ∧
  ∀ cols gs, fs !! p = Some (FIndex cols gs) →
    Forall2 (column_fits s) (s_fields s) cols
    ∧ Forall (fun r => row_conforms s r = true) (concat gs).
Definition op_ok (s : schema) (fs : fsys) (o : op) : Prop :=
  match o with
  | OParquet paths => ∀ p, p ∈ paths → external_ok s fs p
  | OArrayRecord paths _ _ => ∀ p, p ∈ paths → path_is_ext p
  | ORayAppend n _ | ORayAppendFrom n _ | ORayInsert n _ _ => 1 ≤ n
  | _ => True
  end.
Fixpoint env_ok (σ : sys) (c : call) : Prop :=
  match c with
  | CCreate _ fs _ _ => NoDup (names_of fs)
  | CRun hid _ _ o =>
      ∀ h, y_handles σ !! hid = Some h → op_ok (md_schema (h_meta h)) (w_fs (y_world σ)) o
  | COp tid _ _ o =>
      ∀ x h, y_txns σ !! tid = Some x → y_handles σ !! pe_handle x = Some h →
        op_ok (md_schema (h_meta h)) (w_fs (y_world σ)) o
  | CTick dt => (0 ≤ dt)%Z
  | CCrash c' _ => env_ok σ c'
  | _ => True
  end.

(** Histories in which every call satisfies [ok]. *)
Inductive history (ok : sys → call → Prop) : sys → sys → Prop :=
| HistNil σ : history ok σ σ
| HistStep σ σ' c : history ok σ σ' → ok σ' c → history ok σ (step σ' c).
Definition reachable (σ : sys) : Prop := history env_ok init σ.
