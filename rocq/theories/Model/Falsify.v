(** core/manifests/falsifiable_filters.py: building a filter on manifest column
    statistics from a filter on data fields. *)
From Verif.Model Require Export Schema.

(** A column of an index manifest file: stats_field_name(field_id) with
    sub-field _MIN or _MAX (192-197). *)
Inductive minmax := SMin | SMax.
Definition statref : Type := Z * minmax.
Definition sexpr := expr statref.

Inductive fres :=
| FOk (ff : option sexpr)       (** an expression, or None *)
| FUnsupported                  (** _ExpressionException (caught, 71-75) *)
| FCrash.                       (** any other exception (propagates) *)

Definition s_cmp (op : cop) (a b : sexpr) : sexpr := EBin (FnCmp op) a b.
Definition s_or (a b : sexpr) : sexpr := EBin FnOr a b.
Definition s_and (a b : sexpr) : sexpr := EBin FnAnd a b.
Definition s_not (a : sexpr) : sexpr := EUn FnNot a.

(** What the conversion needs to know: the depth-first names of the schema the
    filter was serialised with, the top-level field names (a Substrait field
    reference is the top-level position), the primary keys and field IDs. *)
Record fenv := FEnv {
  fe_flat : list string;
  fe_top : list string;
  fe_pks : list string;
  fe_ids : gmap string Z }.

(** Position of a top-level field. *)
Fixpoint index_of (n : string) (l : list string) : option nat :=
  match l with
  | [] => None
  | m :: l' => if decide (n = m) then Some 0 else S <$> index_of n l'
  end.

(** _min_max (298-308): the position is looked up in the flattened names. *)
Definition min_max (en : fenv) (f : string) : option (sexpr * sexpr * bool) :=
  idx ← index_of f (fe_top en);
  n ← fe_flat en !! idx;
  i ← fe_ids en !! n;
  Some (EField (i, SMin), EField (i, SMax), bool_decide (n ∈ fe_pks en)).

(** _value (292-295): a typed null literal cannot be converted by pc.scalar. *)
Definition lit_value (v : option scalar) : option sexpr :=
  match v with Some x => Some (ELit (Some x)) | None => None end.

(** _falsifiable_condition_fields (212-234) *)
Definition ff_fields (f : fn) (lmin lmax rmin rmax : sexpr) : fres :=
  match f with
  | FnCmp OpGt => FOk (Some (s_cmp OpLe lmax rmin))
  | FnCmp OpGe => FOk (Some (s_cmp OpLt lmax rmin))
  | FnCmp OpLt => FOk (Some (s_cmp OpGe lmin rmax))
  | FnCmp OpLe => FOk (Some (s_cmp OpGt lmin rmax))
  | FnCmp OpEq => FOk (Some (s_or (s_cmp OpLt lmax rmin) (s_cmp OpLt rmax lmin)))
  | FnCmp OpNe => FOk (Some (s_and (s_cmp OpGe lmax rmin) (s_cmp OpGe rmax lmin)))
  | _ => FUnsupported
  end.
(** _falsifiable_condition_literals (237-254) *)
Definition ff_literals (f : fn) (l r : sexpr) : fres :=
  match f with
  | FnCmp OpGt => FOk (Some (s_cmp OpLe l r))
  | FnCmp OpGe => FOk (Some (s_cmp OpLt l r))
  | FnCmp OpLt => FOk (Some (s_cmp OpGe l r))
  | FnCmp OpLe => FOk (Some (s_cmp OpGt l r))
  | FnCmp OpEq => FOk (Some (s_cmp OpNe l r))
  | FnCmp OpNe => FOk (Some (s_cmp OpEq l r))
  | _ => FUnsupported
  end.
(** _falsifiable_condition_field_literal (257-289) *)
Definition rev_fn (f : fn) : fn :=
  match f with
  | FnCmp OpGt => FnCmp OpLt
  | FnCmp OpGe => FnCmp OpLe
  | FnCmp OpLt => FnCmp OpGt
  | FnCmp OpLe => FnCmp OpGe
  | f => f
  end.
Definition ff_field_literal (f : fn) (fmin fmax v : sexpr) : fres :=
  match f with
  | FnCmp OpGt => FOk (Some (s_cmp OpLe fmax v))
  | FnCmp OpGe => FOk (Some (s_cmp OpLt fmax v))
  | FnCmp OpLt => FOk (Some (s_cmp OpGe fmin v))
  | FnCmp OpLe => FOk (Some (s_cmp OpGt fmin v))
  | FnCmp OpEq => FOk (Some (s_or (s_cmp OpGt fmin v) (s_cmp OpLt fmax v)))
  | FnCmp OpNe => FOk (Some (s_and (s_cmp OpEq fmin v) (s_cmp OpEq fmax v)))
  | _ => FUnsupported
  end.
Definition cond_field_literal (en : fenv) (f : fn) (n : string) (v : option scalar)
    (reverse : bool) : fres :=
  match min_max en n with
  | None => FCrash
  | Some (fmin, fmax, is_pk) =>
      if is_pk then
        match lit_value v with
        | None => FCrash
        | Some lv => ff_field_literal (if reverse then rev_fn f else f) fmin fmax lv
        end
      else FOk None
  end.
Definition cond_fields (en : fenv) (f : fn) (a b : string) : fres :=
  match min_max en a with
  | None => FCrash
  | Some (lmin, lmax, lpk) =>
      match min_max en b with
      | None => FCrash
      | Some (rmin, rmax, rpk) =>
          if lpk && rpk then ff_fields f lmin lmax rmin rmax else FOk None
      end
  end.
Definition cond_literals (f : fn) (a b : option scalar) : fres :=
  match lit_value a, lit_value b with
  | Some l, Some r => ff_literals f l r
  | _, _ => FCrash
  end.

Definition is_fn {F} (e : expr F) : bool :=
  match e with EUn _ _ | EBin _ _ _ | ENary _ => true | _ => false end.

(** _falsifiable_filter_internal (113-189).  [top] is true at the root: a node
    that is no function, literal or selection then reads `extensions[0]`
    (131), which fails if the expression uses no function at all. *)
Definition combine (f : fn) (l r : fres) : fres :=
  match l with
  | FOk l_ff =>
      match r with
      | FOk r_ff =>
          match f with
          | FnAnd => FOk (match l_ff, r_ff with
                          | None, x => x
                          | x, None => x
                          | Some a, Some b => Some (s_or a b)
                          end)
          | FnOr => FOk (match l_ff, r_ff with
                         | Some a, Some b => Some (s_and a b)
                         | _, _ => None
                         end)
          | _ => FUnsupported
          end
      | x => x
      end
  | x => x
  end.

Fixpoint falsify (en : fenv) (top : bool) (e : filter_expr) : fres :=
  match e with
  | ELit v => match lit_value v with Some l => FOk (Some (s_not l)) | None => FCrash end
  | EField _ => FUnsupported
  | EOpaque has_fn _ => if top && negb has_fn then FCrash else FUnsupported
  | ENary _ => FUnsupported
  | EUn FnNot a =>
      match falsify en false a with
      | FOk (Some ff) => FOk (Some (s_not ff))
      | x => x
      end
  | EUn _ _ => FUnsupported
  | EBin f a b =>
      if is_fn a || is_fn b then combine f (falsify en false a) (falsify en false b)
      else
        match a, b with
        | EField x, EField y => cond_fields en f x y
        | ELit v, ELit w => cond_literals f v w
        | EField x, ELit v => cond_field_literal en f x v false
        | ELit v, EField x => cond_field_literal en f x v true
        | _, _ => FUnsupported
        end
  end.

(** _substrait_expr (78-90): every referenced field must exist in the schema. *)
Fixpoint fields_exist (top : list string) (e : filter_expr) : bool :=
  match e with
  | EField n => bool_decide (n ∈ top)
  | EUn _ a => fields_exist top a
  | EBin _ a b => fields_exist top a && fields_exist top b
  | _ => true
  end.

(** build_manifest_filter (39-75). *)
Definition build_manifest_filter (en : fenv) (e : filter_expr) : res (option sexpr) :=
  if fields_exist (fe_top en) e then
    match falsify en true e with
    | FOk (Some ff) => Ok (Some (s_not ff))
    | FOk None => Ok None
    | FUnsupported => Ok None
    | FCrash => Err (EOther "exception while building the manifest filter")
    end
  else Err (EOther "ArrowInvalid: no match for field").

(** The arguments with which Storage calls it (storage.py:385-393): the
    storage's physical schema, the primary keys, and the field ID dictionary. *)
Definition fenv_of (s : schema) : fenv :=
  FEnv (flat_names (phys_schema s)) (names_of (phys_schema s)) (s_pks s)
       (field_ids_of (phys_schema s)).
