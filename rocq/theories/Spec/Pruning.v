(** What "statistics bound the data" and "a filter that can be pruned safely"
    mean, independently of how manifest filters are built. *)
From Verif.Model Require Export Schema.

(** [a] is at most [b] in the order of the column type. *)
Definition at_most (a b : scalar) : Prop := scmp a b ≠ Gt.

(** [(mn, mx)] bound the values [vs]: every value that is not NaN lies between
    them (in particular both are present if there is such a value). *)
Definition bounds (mn mx : option scalar) (vs : list scalar) : Prop :=
  ∀ v, v ∈ vs → is_nan v = false →
    ∃ a b, mn = Some a ∧ mx = Some b ∧ is_nan a = false ∧ is_nan b = false
         ∧ at_most a v ∧ at_most v b.

(** Values of a column in a table (nulls skipped). *)
Definition column_values (n : string) (t : list row) : list scalar :=
  omap (fun r => row_look r n) t.

(** A comparison that can never be decided from primary key statistics,
    because it involves a field that is not a primary key. *)
Fixpoint undecidable_part (pks : list string) (e : filter_expr) : bool :=
  match e with
  | EBin (FnCmp _) (EField a) (EField b) => negb (bool_decide (a ∈ pks)) || negb (bool_decide (b ∈ pks))
  | EBin (FnCmp _) (EField a) (ELit _) => negb (bool_decide (a ∈ pks))
  | EBin (FnCmp _) (ELit _) (EField b) => negb (bool_decide (b ∈ pks))
  | EBin (FnAnd | FnOr) a b => undecidable_part pks a && undecidable_part pks b
  | EUn FnNot a => undecidable_part pks a
  | _ => false
  end.

(** Filters for which pruning is sound: no negation above a condition on
    primary keys, and no "key != key" comparison. *)
Fixpoint prunable (pks : list string) (e : filter_expr) : bool :=
  match e with
  | EUn FnNot a => undecidable_part pks a
  | EBin (FnCmp OpNe) (EField a) (EField b) => undecidable_part pks e
  | EBin (FnAnd | FnOr) a b => prunable pks a && prunable pks b
  | _ => true
  end.

(** Fields referenced by the comparable part of a filter. *)
Fixpoint filter_fields (e : filter_expr) : list string :=
  match e with
  | EField n => [n]
  | EUn _ a => filter_fields a
  | EBin _ a b => filter_fields a ++ filter_fields b
  | _ => []
  end.

(** No row of the table has NaN in a primary key. *)
Definition no_nan_keys (pks : list string) (t : list row) : Prop :=
  ∀ r n, r ∈ t → n ∈ pks → row_look r n ≠ Some SNaN.

(** All fields before field [n] of the schema are stored in exactly one column
    each: they are no record fields, no structs, and no lists of structs. *)
Definition plain_before (s : schema) (n : string) : Prop :=
  ∀ pre f post, s_fields s = pre ++ f :: post → f_name f = n →
    Forall (fun g => f_name g ∉ s_recs s ∧ ty_leaves (f_ty g) = 1 ∧ ty_names (f_ty g) = []) pre.

(** The filter does not look at the fields [recs]. *)
Definition ignores (recs : list string) (e : filter_expr) : Prop :=
  ∀ look look' : string → option scalar,
    (∀ n, n ∉ recs → look n = look' n) → eval look e = eval look' e.

(** Filters and schemas for which reading by manifest statistics is exact. *)
Definition safe_filter (s : schema) (e : filter_expr) : Prop :=
  prunable (s_pks s) e = true ∧ ignores (s_recs s) e
  ∧ ∀ n, n ∈ s_pks s ++ filter_fields e → plain_before s n.
(** The filter is true or false on every row (never null). *)
Definition decided (e : filter_expr) (t : list row) : Prop :=
  ∀ r, r ∈ t → ∃ b, eval (row_look r) e = Some (SBool b).

(** Filters for which the manifest filter can be built: fields exist and come
    before any nested or record field, no null literal, and the whole filter is
    not a single node (like a bare cast) without any function. *)
Fixpoint literals (e : filter_expr) : list (option scalar) :=
  match e with
  | ELit v => [v]
  | EUn _ a => literals a
  | EBin _ a b => literals a ++ literals b
  | _ => []
  end.
Definition bare (e : filter_expr) : bool := match e with EOpaque false _ => true | _ => false end.
Definition buildable (s : schema) (e : filter_expr) : Prop :=
  (∀ n, n ∈ filter_fields e → n ∈ names_of (s_fields s) ∧ plain_before s n)
  ∧ None ∉ literals e ∧ bare e = false.
