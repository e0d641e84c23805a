(** Diffs of materialized views. *)
From Verif.Model Require Export MvRead.
From Verif.Spec Require Export ViewDiffs.

(** The changes with the added rows as a full read of a storage shows them. *)
Definition shown_change (s : schema) (c : change) : change :=
  match ch_type c with
  | ChDelete => c
  | ChAdd => Change (ch_snap c) ChAdd (show s <$> ch_data c)
  end.
(** The materialized view on [σ] is in step with its source on [σs] at version
    [k]: its snapshot [k] holds the view of the source's snapshot [k]. *)
Definition in_step {F} (map_fn : F → row → list row) (keep_fn : F → row → bool) (v : view F)
    (σs : sys) (hid_s : nat) (σ : sys) (hid : nat) (s : schema) (k : Z) : Prop :=
  ∃ rows mv, reads σs hid_s (Some (VId k)) rows ∧ reads σ hid (Some (VId k)) mv
    ∧ mv ≡ₚ show s <$> view_rows map_fn keep_fn v rows.
