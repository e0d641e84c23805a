(** Joins of views. *)
From Verif.Model Require Export ViewJoin.
From Verif.Spec Require Export Joins ViewReads.

Section view.
Context {F : Type} (map_fn : F → row → list row) (keep_fn : F → row → bool).

(** The dataset below a view has schema [s]. *)
Fixpoint over (s : schema) (v : view F) : Prop :=
  match v with
  | VData _ _ s' => s' = s
  | VMap _ i _ | VFilter _ i _ => over s i
  end.
(** The rows of a view on which only these columns are asked for, given the rows
    of the dataset. *)
Definition asked (s : schema) (v : view F) (i : join_input) (rows : list row) : list row :=
  let all := view_rows map_fn keep_fn (in_read_order s (ji_ref i) v) rows in
  match ji_fields i with
  | None => all
  | Some l => columns l <$> all
  end.
(** A side of a join which the join reads rightly: the functions of the view keep
    the join key, and the key has the field ID in the view's schema that it has
    in the dataset. *)
Record good_side (s : schema) (v : view F) (ref : bool) (key : string) (rows : list row) : Prop := {
  gs_over : over s v;
  gs_fed : well_fed map_fn keep_fn s ref v rows;
  gs_shaped : shaped map_fn s v;
  gs_key : ∀ r x, r ∈ rows → x ∈ view_rows map_fn keep_fn (in_read_order s ref v) [r] → row_look x key = row_look r key;
  gs_id : field_ids_of (v_schema v) !! key = field_ids_of (s_fields s) !! key;
  gs_plain : plain_before s key;
  gs_nan : ∀ r, r ∈ rows → row_look r key ≠ Some SNaN }.
End view.
