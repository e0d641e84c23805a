(** Histories restricted in the operations they run and in nothing else: branches
    may be removed, and tags and branches edited through outdated handles, also
    while transactions are open; the handle of a transaction may change to
    another branch between its steps. *)
From Verif.Spec Require Export Orderly.

(** The operation of the call, run at once or in a transaction, is in [P]. *)
Fixpoint ops_in (P : op → Prop) (c : call) : Prop :=
  match c with
  | CRun _ _ _ o | COp _ _ _ o => P o
  | CCrash c' _ => ops_in P c'
  | _ => True
  end.
Definition limited (P : op → Prop) (σ σ' : sys) : Prop := history (fun σ c => env_ok σ c ∧ ops_in P c) σ σ'.
(** The same with an account of the snapshot the operation starts from. *)
Definition free (P : schema → fsys → snapshot → op → Prop) (σ σ' : sys) : Prop :=
  history (fun σ c => env_ok σ c ∧ runs_only P σ c) σ σ'.
(** The same, but no branch is removed. *)
Definition keeping (P : schema → fsys → snapshot → op → Prop) (σ σ' : sys) : Prop :=
  history (fun σ c => env_ok σ c ∧ keeps_branches c ∧ runs_only P σ c) σ σ'.

(** All operations but append_parquet. *)
Definition not_parquet (o : op) : Prop := match o with OParquet _ => False | _ => True end.
(** Operations that only add rows. *)
Definition adds_only (o : op) : Prop :=
  match o with ODelete _ | OInsert MUpsert _ | ORayDelete _ | ORayInsert _ MUpsert _ => False | _ => True end.
