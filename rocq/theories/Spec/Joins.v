(** What a join means. *)
From Verif.Model Require Export Join.
From Verif.Spec Require Export Api Pruning Layout.

(** Two rows with the same key, which is not null. *)
Definition same_key (key : string) (x y : row) : Prop :=
  ∃ v, row_look x key = Some v ∧ row_look y key = Some v.
Global Instance same_key_dec key x y : Decision (same_key key x y).
Proof.
  refine (match row_look x key as a return row_look x key = a → _ with
          | Some v => fun Ha => cast_if (decide (row_look y key = Some v))
          | None => fun Ha => right _
          end eq_refl); unfold same_key; abstract naive_solver congruence.
Defined.
(** The inner join: every row of the left side next to every row of the right
    side with the same key, reduced to the columns [out]. *)
Definition inner_join (key : string) (out : list string) (left right : list row) : list row :=
  left ≫= fun x => (fun y => columns out (x ++ y)) <$> filter (same_key key x) right.

(** The columns asked for on a side are columns it has. *)
Definition own_columns (s : schema) (i : join_input) : Prop := ∀ n, n ∈ side_fields s i → n ∈ s_names s.
(** A value lies in a range. *)
Definition within (v : scalar) (g : range) : Prop :=
  cmp_holds OpGe v (rg_min g) = true ∧ cmp_holds (if rg_incl g then OpLe else OpLt) v (rg_max g) = true.
Global Instance within_dec v g : Decision (within v g).
Proof. unfold within. apply _. Defined.
(** The partition function, given any range with all the values [vs], returns
    ranges exactly one of which contains any given value of them. *)
Definition separates (part : option (range → list range)) (vs : list scalar) : Prop :=
  match part with
  | None => True
  | Some f => ∀ g, (∀ v, v ∈ vs → within v g) → ∀ v, v ∈ vs → length (filter (within v) (f g)) = 1
  end.
(** The keys found on both sides. *)
Definition common (key : string) (left right : list row) : list scalar :=
  filter (fun v => v ∈ column_values key right) (column_values key left).
(** Every range to join holds a key found on both sides. *)
Definition meets (part : option (range → list range)) (vs : list scalar) : Prop :=
  match part with
  | None => vs ≠ []
  | Some f => ∀ g, (∀ v, v ∈ vs → within v g) → ∀ g', g' ∈ f g → ∃ v, v ∈ vs ∧ within v g'
  end.
(** Every manifest file lists a file with a key that is neither null nor NaN. *)
Definition all_keyed (key : string) (lay : list (list (list row))) : Prop :=
  ∀ man, man ∈ lay → ∃ t r v, t ∈ man ∧ r ∈ t ∧ row_look r key = Some v ∧ v ≠ SNaN.
