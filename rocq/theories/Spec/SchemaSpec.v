(** Specification of schema properties. *)
From Verif.Model Require Export Schema.

(** The IDs of a field and of everything nested in it, depth first. *)
Fixpoint nested_ids (t : aty) : list (option Z) :=
  match t with
  | TList (AField _ t i _) => i :: nested_ids t
  | TStruct subs =>
      (fix go (l : list afield) :=
         match l with [] => [] | AField _ t i _ :: l => i :: nested_ids t ++ go l end) subs
  | _ => []
  end.
Definition all_ids (fs : list afield) : list (option Z) :=
  fs ≫= (fun f => f_meta f :: nested_ids (f_ty f)).

(** A type with nested IDs, nested nullability and the names of list items
    forgotten: what Space stores of a type. *)
Fixpoint bare_ty (t : aty) : aty :=
  match t with
  | TList (AField _ t _ _) => TList (AField "item" (bare_ty t) None true)
  | TStruct subs =>
      TStruct ((fix go (l : list afield) :=
         match l with [] => [] | AField n t _ _ :: l => AField n (bare_ty t) None true :: go l end) subs)
  | t => t
  end.

(** Types Space can store, and types without a file reference. *)
Fixpoint storable (t : aty) : bool :=
  match t with
  | TOther _ => false
  | TList (AField _ t _ _) => storable t
  | TStruct subs =>
      (fix go (l : list afield) :=
         match l with [] => true | AField _ t _ _ :: l => storable t && go l end) subs
  | _ => true
  end.
Fixpoint file_free (t : aty) : bool :=
  match t with
  | TFile _ => false
  | TList (AField _ t _ _) => file_free t
  | TStruct subs =>
      (fix go (l : list afield) :=
         match l with [] => true | AField _ t _ _ :: l => file_free t && go l end) subs
  | _ => true
  end.

(** Keys and record fields that create must accept. *)
Definition key_type (t : aty) : Prop :=
  match t with TList _ | TStruct _ | TTfFeatures _ => False | _ => True end.
Definition record_type (t : aty) : Prop :=
  match t with TBinary | TTfFeatures _ => True | _ => False end.
Definition valid_schema (fs : list afield) (pks recs : list string) : Prop :=
  pks ≠ []
  ∧ (∀ n, n ∈ pks → ∃ f, f ∈ fs ∧ f_name f = n ∧ key_type (f_ty f))
  ∧ (∀ n, n ∈ recs → n ∉ pks ∧ ∃ f, f ∈ fs ∧ f_name f = n ∧ record_type (f_ty f)).
(** No key or record field name occurs twice in the schema. *)
Definition unambiguous (fs : list afield) (ns : list string) : Prop :=
  ∀ n, n ∈ ns → length (filter (fun f => f_name f = n) fs) ≤ 1.
