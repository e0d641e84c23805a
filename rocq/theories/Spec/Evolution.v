(** Conditions on histories.  Edits of tags and branches (core/storage.py:
    238-313) write the metadata the handle holds, without reloading. *)
From Verif.Spec Require Export Layout.

(** The handle knows the newest metadata. *)
Definition up_to_date (σ : sys) (hid : nat) : Prop :=
  ∀ h, y_handles σ !! hid = Some h → stored_meta (w_fs (y_world σ)) = Some (h_meta h).
(** Tags and branches are edited through up-to-date handles only. *)
Fixpoint fresh_edits (σ : sys) (c : call) : Prop :=
  match c with
  | CEdit hid (EdSetBranch _) => True
  | CEdit hid _ => up_to_date σ hid
  | CCrash c' _ => fresh_edits σ c'
  | _ => True
  end.
(** The call removes branch (tag) [n]. *)
Fixpoint removes_branch (n : string) (c : call) : Prop :=
  match c with
  | CEdit _ (EdRemoveBranch n') => n' = n
  | CCrash c' _ => removes_branch n c'
  | _ => False
  end.
Fixpoint removes_tag (n : string) (c : call) : Prop :=
  match c with
  | CEdit _ (EdRemoveTag n') => n' = n
  | CCrash c' _ => removes_tag n c'
  | _ => False
  end.
(** Histories with fresh edits whose calls also satisfy [ok]. *)
Definition fresh_history (ok : call → Prop) (σ σ' : sys) : Prop :=
  history (fun σ c => env_ok σ c ∧ fresh_edits σ c ∧ ok c) σ σ'.
Definition keeps_branches (c : call) : Prop := ∀ n, ¬ removes_branch n c.
Definition head (σ : sys) (b : string) : option Z :=
  m ← stored_meta (w_fs (y_world σ)); head_id m b.
