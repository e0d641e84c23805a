(** Histories in which tags and branches are edited at any time. *)
From Verif.Spec Require Export Orderly.

(** As [orderly], but edits may go through stale handles while a transaction is
    open. *)
Definition stale_edits (P : schema → fsys → snapshot → op → Prop) (σ σ' : sys) : Prop :=
  history (fun σ c => env_ok σ c ∧ keeps_branches c ∧ stays_on_branch σ c ∧ runs_only P σ c) σ σ'.
(** As [orderly], but branches may be removed while a transaction is open. *)
Definition removals (P : schema → fsys → snapshot → op → Prop) (σ σ' : sys) : Prop :=
  history (fun σ c => env_ok σ c ∧ fresh_edits σ c ∧ stays_on_branch σ c ∧ runs_only P σ c) σ σ'.
(** As [orderly], but the handle of a transaction may change to another branch
    while it is open. *)
Definition switches (P : schema → fsys → snapshot → op → Prop) (σ σ' : sys) : Prop :=
  history (fun σ c => env_ok σ c ∧ fresh_edits σ c ∧ keeps_branches c ∧ runs_only P σ c) σ σ'.
