(** What another process sees when it opens the storage, and chains of
    snapshots. *)
From Coq Require Export Sorted.
From Verif.Spec Require Export Layout.

(** Load the storage and read version [v] of it. *)
Definition open_read (w : world) (E : env) (v : option version) (b : option nat) : res (list row) :=
  match load w with
  | (w', Ok h) => (run_read_all E None None v false b (h, w')).2
  | (_, Err e) => Err e
  end.
(** Opening the storage in [σ] and [σ'] gives the same metadata (schema,
    snapshots, references) and the same rows of every version. *)
Definition same_storage (σ σ' : sys) : Prop :=
  stored_meta (w_fs (y_world σ)) = stored_meta (w_fs (y_world σ'))
  ∧ ∀ E v b, open_read (y_world σ) E v b = open_read (y_world σ') E v b.

(** [l] lists the snapshot [i], its parent, the parent's parent and so on up to
    a snapshot without parent. *)
Inductive chain (m : metadata) : Z → list Z → Prop :=
| ChainRoot i sn : md_snaps m !! i = Some sn → sn_parent sn = None → chain m i [i]
| ChainStep i sn j l :
    md_snaps m !! i = Some sn → sn_parent sn = Some j → chain m j l → chain m i (i :: l).
(** Each number is greater than all after it. *)
Definition decreasing (l : list Z) : Prop := StronglySorted Z.gt l.
