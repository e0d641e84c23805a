(** Views whose record fields are where their addresses are. *)
From Verif.Model Require Export ViewJoinFold.
From Verif.Spec Require Export ViewJoins JoinFolds.

(** The record fields of a view are among its columns and are no keys (checked by
    map_batches), and they are the columns of [rows] with addresses; there are
    addresses only if they are asked for. *)
Record addressed {F} (v : view F) (ref : bool) (rows : list row) : Prop := {
  ad_columns : ∀ f, f ∈ v_recs v → f ∈ names_of (v_schema v) ∧ f ∉ v_pks v;
  ad_cells : ∀ x n c, x ∈ rows → rget n x = Some c → (∃ p i, c = CAddr p i) ↔ ref = true ∧ n ∈ v_recs v }.
(** Filters over a dataset, or the dataset. *)
Fixpoint only_filters {F} (v : view F) : Prop :=
  match v with
  | VData _ _ _ => True
  | VMap _ _ _ => False
  | VFilter _ i _ => only_filters i
  end.
