(** Views that a user can build, and where they read from. *)
From Verif.Model Require Export Views.

(** Views obtained through the API from datasets open on the machine: a dataset
    is a handle on the storage at its location. *)
Inductive built {F : Type} (cwd : string) (D : disk) : view F → Prop :=
| BuiltData location hid h :
    y_handles (storage_at D (place cwd location)) !! hid = Some h →
    built cwd D (VData location (h_branch h) (md_schema (h_meta h)))
| BuiltMap v fn output fields recs batch v' :
    built cwd D v → map_batches v fn output fields recs batch = Ok v' → built cwd D v'
| BuiltFilter v fn fields v' :
    built cwd D v → filter_view v fn fields = Ok v' → built cwd D v'.

Fixpoint source_location {F : Type} (v : view F) : string :=
  match v with VData l _ _ => l | VMap _ i _ | VFilter _ i _ => source_location i end.
Fixpoint source_branch {F : Type} (v : view F) : string :=
  match v with VData _ b _ => b | VMap _ i _ | VFilter _ i _ => source_branch i end.
(** The number of functions in a view. *)
Fixpoint transforms {F : Type} (v : view F) : nat :=
  match v with VData _ _ _ => 0 | VMap _ i _ | VFilter _ i _ => S (transforms i) end.
(** Random IDs are parts of UUIDs and contain no slash. *)
Definition id_like (s : string) : Prop := slash ∉ String.list_ascii_of_string s.
(** The same view of the same dataset on its main branch. *)
Fixpoint on_main {F : Type} (v : view F) : view F :=
  match v with
  | VData l _ s => VData l MAIN s
  | VMap u i fields => VMap u (on_main i) fields
  | VFilter u i fields => VFilter u (on_main i) fields
  end.
