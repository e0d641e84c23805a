(** Diffs of views. *)
From Verif.Model Require Export ViewDiff.
From Verif.Spec Require Export Changes Refreshing.

Section view.
Context {F : Type} (map_fn : F → row → list row) (keep_fn : F → row → bool).

(** What the view makes of a changed row: deleted keys stay, added rows are
    replaced by their rows in the view. *)
Definition seen_change (v : view F) (c : Z * change_type * row) : list (Z * change_type * row) :=
  match c with
  | (i, ChDelete, r) => [(i, ChDelete, r)]
  | (i, ChAdd, r) => (fun x => (i, ChAdd, x)) <$> view_rows map_fn keep_fn v [r]
  end.
Definition added_rows (l : list (Z * change_type * row)) : list row :=
  l ≫= fun c => match c with (_, ChAdd, r) => [r] | _ => [] end.
(** Every transform asks for columns that the rows it gets have. *)
Fixpoint served (v : view F) (rows : list row) : Prop :=
  match v with
  | VData _ _ _ => True
  | VMap _ i fields | VFilter _ i fields =>
      served i rows ∧ ∀ r c, r ∈ view_rows map_fn keep_fn i rows → c ∈ fields → c ∈ r.*1
  end.
End view.
