(** When the recorded ranges of primary keys rule out that a filter holds on some
    row of a file; independent of how manifest filters are built. *)
From Verif.Spec Require Export Candidates.

(** The range a manifest row records for field [n]. *)
Definition key_range (s : schema) (r : mrow) (n : string) : option (scalar * scalar) :=
  kf ← list_find (fun f => f_name f = n) (s_fields s);
  match recorded r (field_id kf.2) with (Some lo, Some hi) => Some (lo, hi) | _ => None end.

(** Combinations by "and" and "or" of comparisons of fields and literals. *)
Definition is_field (e : filter_expr) : bool := match e with EField _ => true | _ => false end.
Definition side (e : filter_expr) : bool :=
  match e with EField _ => true | ELit (Some v) => negb (is_nan v) | _ => false end.
Fixpoint simple (e : filter_expr) : bool :=
  match e with
  | EBin (FnCmp op) a b => side a && side b && negb (bool_decide (op = OpNe) && is_field a && is_field b)
  | EBin (FnAnd | FnOr) a b => simple a && simple b
  | _ => false
  end.

(** [x] is a value a side of a comparison may have, judging by the ranges. *)
Definition possible (range : string → option (scalar * scalar)) (e : filter_expr) (x : scalar) : Prop :=
  match e with
  | EField n => ∃ lo hi, range n = Some (lo, hi) ∧ is_nan x = false ∧ at_most lo x ∧ at_most x hi
  | ELit v => v = Some x
  | _ => False
  end.
Definition keyed (pks : list string) (e : filter_expr) : Prop := match e with EField n => n ∈ pks | _ => True end.
Fixpoint ruled_out (pks : list string) (range : string → option (scalar * scalar)) (e : filter_expr) : Prop :=
  match e with
  | EBin (FnCmp op) a b =>
      keyed pks a ∧ keyed pks b ∧ ∀ x y, possible range a x → possible range b y → cmp_holds op x y = false
  | EBin FnAnd a b => ruled_out pks range a ∨ ruled_out pks range b
  | EBin FnOr a b => ruled_out pks range a ∧ ruled_out pks range b
  | _ => False
  end.
(** Every key has a range. *)
Definition ranged (pks : list string) (range : string → option (scalar * scalar)) : Prop :=
  ∀ n, n ∈ pks → ∃ lo hi, range n = Some (lo, hi) ∧ is_nan lo = false ∧ is_nan hi = false ∧ at_most lo hi.
