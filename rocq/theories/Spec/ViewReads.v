(** What reading a view should give. *)
From Verif.Model Require Export ViewRead.
From Verif.Spec Require Export Refreshing.

Section view.
Context {F : Type} (map_fn : F → row → list row) (keep_fn : F → row → bool).

(** The dataset a transform reads gives its columns in the order of a read:
    record fields last, unless addresses are read. *)
Definition pushed_fields (s : schema) (ref : bool) (fields : list string) : list string :=
  if ref then fields else shown_order s fields.
Fixpoint in_read_order (s : schema) (ref : bool) (v : view F) : view F :=
  match v with
  | VData _ _ _ => v
  | VMap u (VData _ _ _ as i) fields => VMap u i (pushed_fields s ref fields)
  | VFilter u (VData _ _ _ as i) fields => VFilter u i (pushed_fields s ref fields)
  | VMap u i fields => VMap u (in_read_order s ref i) fields
  | VFilter u i fields => VFilter u (in_read_order s ref i) fields
  end.
(** The columns the view asks of the dataset. *)
Fixpoint bottom_fields (v : view F) : option (list string) :=
  match v with
  | VData _ _ _ => None
  | VMap _ (VData _ _ _) l | VFilter _ (VData _ _ _) l => Some l
  | VMap _ i _ | VFilter _ i _ => bottom_fields i
  end.
(** Every transform asks for columns of its input. *)
Fixpoint well_fed (s : schema) (ref : bool) (v : view F) (rows : list row) : Prop :=
  match v with
  | VData _ _ _ => True
  | VMap _ i fields | VFilter _ i fields =>
      well_fed s ref i rows
      ∧ ∀ n, n ∈ fields →
          match i with
          | VData _ _ _ => n ∈ names_of (s_fields s)
          | _ => ∀ r, r ∈ view_rows map_fn keep_fn (in_read_order s ref i) rows → n ∈ r.*1
          end
  end.
(** A filter says the same about a row of the source and the rows the view makes
    of it. *)
Definition passes (v : view F) (e : filter_expr) : Prop :=
  ∀ r x, x ∈ view_rows map_fn keep_fn v [r] → matches e x = matches e r.
(** The rows of the view have the columns of its schema: maps give rows of their
    output schema, filters read all columns. *)
Fixpoint shaped (s : schema) (v : view F) : Prop :=
  match v with
  | VData _ _ s' => s' = s
  | VMap u i _ => ∀ r x, x ∈ map_fn (u_fn u) r → x.*1 ≡ₚ names_of (u_schema u)
  | VFilter _ i fields => shaped s i ∧ fields ≡ₚ names_of (v_schema i)
  end.
End view.
