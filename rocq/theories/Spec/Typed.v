(** Rows that fit a schema. *)
From Verif.Spec Require Export Api Keys.

(** A value of a column of type [t]: null, a scalar of the type, or a nested
    value with one list of leaf values per leaf column. *)
Definition value_of (t : aty) (c : cell) : Prop :=
  match c with
  | CNull => True
  | CVal v => kind_ok t v = true
  | CAddr _ _ => False
  | CNested ls => is_list t || is_struct t = true ∧ length ls = ty_leaves t
  end.
(** A row has every column of the schema, with bytes in record fields. *)
Definition typed_row (s : schema) (r : row) : Prop :=
  ∀ f, f ∈ s_fields s → ∃ c, rget (f_name f) r = Some c
    ∧ if decide (f_name f ∈ s_recs s) then ∃ b, c = CVal (SStr b) else value_of (f_ty f) c.
(** The schema has its record fields after all others, the order in which reads
    show them. *)
Definition records_last (s : schema) : Prop := names_of (s_fields s) = read_columns s.
