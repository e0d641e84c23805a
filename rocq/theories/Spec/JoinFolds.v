(** Which joins can put addresses together again. *)
From Verif.Model Require Export JoinFold.
From Verif.Spec Require Export Joins.

(** No column of a side is called like a part of an address that is read. *)
Definition parts_free (sl sr : schema) (l r : join_input) : Prop :=
  ∀ f n, (ji_ref l = true ∧ f ∈ s_recs sl) ∨ (ji_ref r = true ∧ f ∈ s_recs sr) →
    n ∈ side_fields sl l ∨ n ∈ side_fields sr r → n ≠ f +:+ "._FILE" ∧ n ≠ f +:+ "._ROW_ID".
(** No column is asked for or listed as a record field twice, and the sides share
    the key only. *)
Definition distinct_columns (key : string) (sl sr : schema) (l r : join_input) : Prop :=
  NoDup (side_fields sl l) ∧ NoDup (side_fields sr r) ∧ NoDup (s_recs sl) ∧ NoDup (s_recs sr)
  ∧ ∀ n, n ∈ side_fields sl l → n ∈ side_fields sr r → n = key.
