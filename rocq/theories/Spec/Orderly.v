(** Histories of concurrent writers in which nobody removes a branch, tags and
    branches are edited through up-to-date handles while a transaction is open,
    every transaction stays on an existing branch, and only operations in [P] are
    run. *)
From Verif.Spec Require Export Serial.

(** A transaction starts on a branch, and its handle is on this branch when its
    operation runs and when it commits. *)
Fixpoint stays_on_branch (σ : sys) (c : call) : Prop :=
  match c with
  | CBegin hid _ => ∀ h m, y_handles σ !! hid = Some h → stored_meta (w_fs (y_world σ)) = Some m → is_branch m (h_branch h)
  | COp tid _ _ _ | CCommit tid =>
      ∀ x, y_txns σ !! tid = Some x → on_branch σ (pe_handle x) (x_branch (pe_txn x))
  | CCrash c' _ => stays_on_branch σ c'
  | _ => True
  end.
(** The operation the call runs is in [P], which may depend on the schema, the
    files, and the snapshot the operation starts from. *)
Fixpoint runs_only (P : schema → fsys → snapshot → op → Prop) (σ : sys) (c : call) : Prop :=
  match c with
  | CRun hid _ _ o => ∀ s sn, schema_at σ hid = Some s → current σ hid = Some sn → P s (w_fs (y_world σ)) sn o
  | COp tid _ _ o =>
      ∀ x h sn, y_txns σ !! tid = Some x → y_handles σ !! pe_handle x = Some h →
        head_snapshot (h_meta h) (h_branch h) = Some sn → P (md_schema (h_meta h)) (w_fs (y_world σ)) sn o
  | CCrash c' _ => runs_only P σ c'
  | _ => True
  end.
Definition orderly (P : schema → fsys → snapshot → op → Prop) (σ σ' : sys) : Prop :=
  history (fun σ c => env_ok σ c ∧ (y_txns σ = ∅ ∨ fresh_edits σ c) ∧ keeps_branches c
    ∧ stays_on_branch σ c ∧ runs_only P σ c) σ σ'.

(** Weaker: a branch may be removed unless a transaction is open. *)
Definition undisturbed (P : schema → fsys → snapshot → op → Prop) (σ σ' : sys) : Prop :=
  history (fun σ c => env_ok σ c ∧ (y_txns σ = ∅ ∨ fresh_edits σ c ∧ keeps_branches c)
    ∧ stays_on_branch σ c ∧ runs_only P σ c) σ σ'.
(** Anything but the removal of branches. *)
Definition branch_keeping (σ σ' : sys) : Prop := history (fun σ c => env_ok σ c ∧ keeps_branches c) σ σ'.
