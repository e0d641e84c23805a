(** Primary keys of rows. *)
From Verif.Spec Require Export Pruning.

(** The key of a row: the values of the primary key columns. *)
Definition key_of (pks : list string) (r : row) : list (option scalar) := row_look r <$> pks.
(** Every key is present: no null (and no missing column), no NaN. *)
Definition proper_keys (pks : list string) (t : list row) : Prop :=
  ∀ r n, r ∈ t → n ∈ pks → row_look r n ≠ None ∧ row_look r n ≠ Some SNaN.
(** No key is null or missing. *)
Definition key_nonnull (pks : list string) (t : list row) : Prop := ∀ r n, r ∈ t → n ∈ pks → row_look r n ≠ None.
(** All primary keys come before any nested or record field. *)
Definition plain_keys (s : schema) : Prop := ∀ n, n ∈ s_pks s → plain_before s n.
(** No two rows share a key. *)
Definition unique_keys (pks : list string) (t : list row) : Prop := NoDup (key_of pks <$> t).
