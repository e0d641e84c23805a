(** When Arrow can join two sides. *)
From Verif.Spec Require Export Joins.

(** Files of records are stored as their addresses, features as bytes. *)
Definition stored_as (t : aty) : aty :=
  match t with TFile _ => TString | TTfFeatures _ => TBinary | t => t end.
(** Among the columns read, only records may be nested. *)
Definition flat_side (s : schema) (i : join_input) : Prop :=
  ∀ f, f ∈ s_fields s → f_name f ∈ side_fields s i → f_name f ∉ s_recs s →
    match f_ty f with TList _ | TStruct _ => False | _ => True end.
(** Both keys are stored with the same type, the columns are flat, and no two
    columns of the result have the same name. *)
Definition joinable (key : string) (sl sr : schema) (l r : join_input) : Prop :=
  (∀ fl fr, fl ∈ s_fields sl → fr ∈ s_fields sr → f_name fl = key → f_name fr = key → stored_as (f_ty fl) = stored_as (f_ty fr))
  ∧ flat_side sl l ∧ flat_side sr r ∧ NoDup (output_fields key sl sr l r).
