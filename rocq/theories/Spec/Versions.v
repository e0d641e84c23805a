(** What a listing of the versions must contain. *)
From stdpp Require Import sorting.
From Verif.Model Require Export Versions.
From Verif.Spec Require Export Api Layout.

(** Row [(i, t, o)]: snapshot [i] was created at [t]; [o] is a name referring to
    it, or nothing if no name does. *)
Definition version_of (m : metadata) (r : version_row) : Prop :=
  let '(i, t, o) := r in
  (∃ sn, md_snaps m !! i = Some sn ∧ sn_time sn = t)
  ∧ match o with
    | Some n => ∃ ref, md_refs m !! n = Some ref ∧ rf_id ref = i
    | None => ∀ n ref, md_refs m !! n = Some ref → rf_id ref ≠ i
    end.
(** Each row once, the latest first. *)
Definition lists_versions (m : metadata) (rows : list version_row) : Prop :=
  NoDup rows ∧ (∀ r, r ∈ rows ↔ version_of m r)
  ∧ StronglySorted (fun a b : version_row => (b.1.2 ≤ a.1.2)%Z) rows.
