(** Tags and branches as the user edits them. *)
From Verif.Spec Require Export Api Layout Evolution.

(** Name [n] is a reference of this kind in the metadata. *)
Definition is_ref (m : metadata) (n : string) (k : ref_kind) : Prop := ∃ i, md_refs m !! n = Some (SRef i k).
Definition can_add (m : metadata) (n : string) (i : Z) : Prop :=
  is_Some (md_snaps m !! i) ∧ n ≠ "" ∧ n ≠ MAIN ∧ md_refs m !! n = None.
(** What a handle on branch [cur] may do, given the newest metadata. *)
Definition allowed (m : metadata) (cur : string) (d : edit) : Prop :=
  match d with
  | EdSetBranch n => n = MAIN ∨ is_ref m n RBranch
  | EdAddTag n (Some i) => can_add m n i
  | EdAddTag n None | EdAddBranch n => can_add m n (md_current m)
  | EdRemoveTag n => is_ref m n RTag
  | EdRemoveBranch n => is_ref m n RBranch ∧ n ≠ cur
  end.
(** The error when it may not. *)
Definition refusal (m : metadata) (cur : string) (d : edit) (e : uerr) : Prop :=
  match d, e with
  | EdSetBranch n, UVersionNotFound => md_refs m !! n = None
  | EdSetBranch n, UInput => is_ref m n RTag
  | EdAddTag n sid, UVersionNotFound => md_snaps m !! (match sid with Some i => i | None => md_current m end) = None
  | EdAddTag n _, UInput | EdAddBranch n, UInput => n = "" ∨ n = MAIN
  | EdAddTag n _, UVersionExists | EdAddBranch n, UVersionExists => is_Some (md_refs m !! n)
  | EdRemoveTag n, UVersionNotFound => ¬ is_ref m n RTag
  | EdRemoveBranch n, UInput => n = cur
  | EdRemoveBranch n, UVersionNotFound => ¬ is_ref m n RBranch
  | _, _ => False
  end.
(** The references after the call. *)
Definition refs_after (m : metadata) (d : edit) : gmap string sref :=
  match d with
  | EdSetBranch _ => md_refs m
  | EdAddTag n (Some i) => <[n := SRef i RTag]> (md_refs m)
  | EdAddTag n None => <[n := SRef (md_current m) RTag]> (md_refs m)
  | EdAddBranch n => <[n := SRef (md_current m) RBranch]> (md_refs m)
  | EdRemoveTag n | EdRemoveBranch n => delete n (md_refs m)
  end.
