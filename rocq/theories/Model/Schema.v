(** Arrow types and fields, storage schemas, and the schema functions of
    core/schema. *)
From Verif.Model Require Export Values.

(** Arrow data types known to Space (core/schema/substrait.py:54-97) plus
    [TOther] for every type it rejects.  Extension types keep the text of their
    `__arrow_ext_serialize__`. *)
Inductive aty :=
| TInt32 | TInt64 | TFloat32 | TFloat64 | TBool | TString | TBinary
| TList (item : afield)
| TStruct (fields : list afield)
| TTfFeatures (serialized : string)
| TFile (serialized : string)
| TOther (name : string)
with afield :=
| AField (name : string) (ty : aty) (id : option Z) (nullable : bool).

Definition f_name (f : afield) : string := let 'AField n _ _ _ := f in n.
Definition f_ty (f : afield) : aty := let 'AField _ t _ _ := f in t.
Definition f_meta (f : afield) : option Z := let 'AField _ _ i _ := f in i.
Definition f_nullable (f : afield) : bool := let 'AField _ _ _ b := f in b.

(** core/schema/arrow.py:28-46 *)
Definition NULL_FIELD_ID : Z := -1.
Definition field_id (f : afield) : Z := default NULL_FIELD_ID (f_meta f).

Definition is_list (t : aty) : bool := match t with TList _ => true | _ => false end.
Definition is_struct (t : aty) : bool := match t with TStruct _ => true | _ => false end.
Definition is_binary (t : aty) : bool := match t with TBinary => true | _ => false end.
Definition is_tf (t : aty) : bool := match t with TTfFeatures _ => true | _ => false end.

(** core/schema/utils.py:65-94, validate_logical_schema.
    `schema.field(name)` raises KeyError when the name is ambiguous; the model
    does the same. *)
Definition schema_field (fs : list afield) (n : string) : res afield :=
  match filter (fun f => f_name f = n) fs with
  | [f] => Ok f
  | _ => Err (EOther "KeyError: field name is missing or ambiguous")
  end.
Definition names_of (fs : list afield) : list string := f_name <$> fs.

Definition check_pk (fs : list afield) (n : string) : res unit :=
  if decide (n ∈ names_of fs) then
    match schema_field fs n with
    | Ok f => if is_list (f_ty f) || is_struct (f_ty f) || is_tf (f_ty f)
              then Err (EUser UInput) else Ok tt
    | Err e => Err e
    end
  else Err (EUser UInput).
Definition check_rec (fs : list afield) (pks : list string) (n : string) : res unit :=
  if decide (n ∈ names_of fs) then
    if decide (n ∈ pks) then Err (EUser UInput)
    else match schema_field fs n with
         | Ok f => if is_binary (f_ty f) || is_tf (f_ty f) then Ok tt
                   else Err (EUser UInput)
         | Err e => Err e
         end
  else Err (EUser UInput).
Definition validate_logical_schema (fs : list afield) (pks recs : list string) : res unit :=
  match pks with
  | [] => Err (EUser UInput)
  | _ => rbind (rfoldM (fun _ n => check_pk fs n) tt pks)
               (fun _ => rfoldM (fun _ n => check_rec fs pks n) tt recs)
  end.

(** core/schema/field_ids.py:26-71, FieldIdManager.  Returns the fields with
    IDs and the next free ID.  `pa.field(name, type, metadata=...)` makes
    rebuilt list and struct fields nullable (61, 67); other fields keep their
    nullability (`with_metadata`, 71).  `pa.types.is_struct/is_list` are false
    for extension types. *)
Fixpoint assign_id (next : Z) (f : afield) : afield * Z :=
  match f with
  | AField n t _ nl =>
      match t with
      | TList item =>
          let '(item', nx) := assign_id (next + 1) item in
          (AField n (TList item') (Some next) true, nx)
      | TStruct subs =>
          let '(subs', nx) :=
            (fix go (nx : Z) (l : list afield) : list afield * Z :=
               match l with
               | [] => ([], nx)
               | g :: l' => let '(g', nx1) := assign_id nx g in
                            let '(l'', nx2) := go nx1 l' in (g' :: l'', nx2)
               end) (next + 1)%Z subs in
          (AField n (TStruct subs') (Some next) true, nx)
      | t => (AField n t (Some next) nl, next + 1)%Z
      end
  end.
Fixpoint assign_ids (next : Z) (l : list afield) : list afield * Z :=
  match l with
  | [] => ([], next)
  | f :: l' => let '(f', nx1) := assign_id next f in
               let '(l'', nx2) := assign_ids nx1 l' in (f' :: l'', nx2)
  end.
(** FieldIdManager().assign_field_ids(schema), start ID 0 (23, 36-45). *)
Definition assign_field_ids (fs : list afield) : list afield := (assign_ids 0 fs).1.

(** Substrait types (core/schema/substrait.py:45-99): each carries the field ID
    as its type variation reference. *)
Inductive sty :=
| SI64 (id : Z) | SI32 (id : Z) | SString (id : Z) | SBinary (id : Z)
| SBoolT (id : Z) | SFp64 (id : Z) | SFp32 (id : Z)
| SList (id : Z) (item : sty)
| SStruct (id : Z) (types : list sty)
| SUser (id : Z) (ext_name serialized : string).

Definition TF_NAME : string := "space.tf_features".
Definition FILE_NAME : string := "space.file".

(** _substrait_field (45-99): the type and the names appended to
    `mutable_names` in depth-first order.  A list item does not append its own
    name (48-49, 71-75). *)
Fixpoint substrait_ty (t : aty) (id : Z) {struct t} : res (sty * list string) :=
  match t with
  | TInt64 => Ok (SI64 id, [])
  | TInt32 => Ok (SI32 id, [])
  | TString => Ok (SString id, [])
  | TBinary => Ok (SBinary id, [])
  | TBool => Ok (SBoolT id, [])
  | TFloat64 => Ok (SFp64 id, [])
  | TFloat32 => Ok (SFp32 id, [])
  | TList item =>
      match item with
      | AField _ ti mi _ =>
          rmap (fun '(s, ns) => (SList id s, ns)) (substrait_ty ti (default NULL_FIELD_ID mi))
      end
  | TStruct subs =>
      rmap (fun '(ss, ns) => (SStruct id ss, ns))
        ((fix go (l : list afield) : res (list sty * list string) :=
            match l with
            | [] => Ok ([], [])
            | AField n tg mg _ :: l' =>
                rbind (substrait_ty tg (default NULL_FIELD_ID mg)) (fun '(s, ns) =>
                rbind (go l') (fun '(ss, ns') => Ok (s :: ss, n :: ns ++ ns')))
            end) subs)
  | TTfFeatures s => Ok (SUser id TF_NAME s, [])
  | TFile s => Ok (SUser id FILE_NAME s, [])
  | TOther _ => Err (EOther "TypeError: type is not supported")
  end.
Fixpoint substrait_list (l : list afield) : res (list sty * list string) :=
  match l with
  | [] => Ok ([], [])
  | AField n t m _ :: l' =>
      rbind (substrait_ty t (default NULL_FIELD_ID m)) (fun '(s, ns) =>
      rbind (substrait_list l') (fun '(ss, ns') => Ok (s :: ss, n :: ns ++ ns')))
  end.
(** NamedStruct(names, struct) (27-36). *)
Record named_struct := NamedStruct { ns_names : list string; ns_types : list sty }.
Definition substrait_fields (fs : list afield) : res named_struct :=
  rmap (fun '(ss, ns) => NamedStruct ns ss) (substrait_list fs).

(** core/schema/arrow.py:101-103 *)
Definition sty_id (s : sty) : Z :=
  match s with
  | SI64 i | SI32 i | SString i | SBinary i | SBoolT i | SFp64 i | SFp32 i
  | SList i _ | SStruct i _ | SUser i _ _ => i
  end.

(** core/schema/arrow.py:107-159, _arrow_type.  The names visitor is the list
    of names not consumed yet; running out is an IndexError (54-58).
    `pa.list_(type)` names the item "item" and sub-fields created with
    `pa.field(name, type)` have no ID and are nullable. *)
Definition record_address_type : aty :=
  TStruct [AField "_FILE" TString None true; AField "_ROW_ID" TInt32 None true].

Fixpoint arrow_ty (s : sty) (physical : bool) (names : list string) {struct s}
    : res (aty * list string) :=
  match s with
  | SBoolT _ => Ok (TBool, names)
  | SI32 _ => Ok (TInt32, names)
  | SI64 _ => Ok (TInt64, names)
  | SFp32 _ => Ok (TFloat32, names)
  | SFp64 _ => Ok (TFloat64, names)
  | SString _ => Ok (TString, names)
  | SBinary _ => Ok (TBinary, names)
  | SList _ item =>
      rmap (fun '(t, ns) => (TList (AField "item" t None true), ns))
           (arrow_ty item physical names)
  | SStruct _ types =>
      rmap (fun '(subs, ns) => (TStruct subs, ns))
        ((fix go (l : list sty) (names : list string) : res (list afield * list string) :=
            match l with
            | [] => Ok ([], names)
            | t :: l' =>
                match names with
                | [] => Err (EOther "IndexError: names")
                | n :: names1 =>
                    rbind (arrow_ty t physical names1) (fun '(ty, names2) =>
                    rbind (go l' names2) (fun '(fs, names3) =>
                      Ok (AField n ty None true :: fs, names3)))
                end
            end) types names)
  | SUser _ ext ser =>
      if decide (ext = TF_NAME) then Ok (TTfFeatures ser, names)
      else if decide (ext = FILE_NAME) then
        Ok (if physical then TString else TFile ser, names)
      else Err (EOther "TypeError: unsupported user defined type")
  end.

(** _arrow_fields (80-98).  Note that for a record field in a physical schema
    the type is not visited, so names are consumed only for the field itself
    (87-91). *)
Fixpoint arrow_fields (names : list string) (types : list sty) (recs : list string)
    (physical : bool) : res (list afield) :=
  match types with
  | [] => Ok []
  | t :: types' =>
      match names with
      | [] => Err (EOther "IndexError: names")
      | n :: names1 =>
          rbind (if physical && bool_decide (n ∈ recs) then Ok (record_address_type, names1)
                 else arrow_ty t physical names1) (fun '(ty, names2) =>
          rbind (arrow_fields names2 types' recs physical) (fun fs =>
            Ok (AField n ty (Some (sty_id t)) true :: fs)))
      end
  end.
(** arrow_schema (61-77). *)
Definition arrow_schema (ns : named_struct) (recs : list string) (physical : bool)
    : res (list afield) :=
  arrow_fields (ns_names ns) (ns_types ns) recs physical.

(** core/schema/arrow.py:227-241 *)
Definition logical_to_physical_schema (fs : list afield) (recs : list string) : list afield :=
  (fun f => if decide (f_name f ∈ recs)
            then AField (f_name f) record_address_type (f_meta f) true else f) <$> fs.

(** Names of a schema in depth-first order: `ExtendedExpression.base_schema.names`
    as produced by Arrow's Substrait serialisation of a schema.  A struct
    contributes its own name followed by its children's; a list contributes
    the names of its element's children; an extension type contributes only its
    own name. *)
Fixpoint ty_names (t : aty) : list string :=
  match t with
  | TStruct subs =>
      (fix go (l : list afield) : list string :=
         match l with
         | [] => []
         | AField n tg _ _ :: l' => n :: ty_names tg ++ go l'
         end) subs
  | TList (AField _ ti _ _) => ty_names ti
  | _ => []
  end.
Definition flat_names (fs : list afield) : list string :=
  fs ≫= (fun f => f_name f :: ty_names (f_ty f)).

(** Number of Parquet leaf columns of a type. *)
Fixpoint ty_leaves (t : aty) : nat :=
  match t with
  | TStruct subs =>
      (fix go (l : list afield) : nat :=
         match l with
         | [] => 0
         | AField _ tg _ _ :: l' => ty_leaves tg + go l'
         end) subs
  | TList (AField _ ti _ _) => ty_leaves ti
  | _ => 1
  end.

(** Storage schema message: logical fields with IDs, primary keys, record
    fields.  The message stores the fields as a Substrait NamedStruct
    (storage.py:174-178); the storage model below keeps the Arrow fields, which
    the round-trip theorems on [substrait_fields]/[arrow_schema] justify. *)
Record schema := Schema {
  s_fields : list afield;
  s_pks : list string;
  s_recs : list string }.

Definition s_names (s : schema) : list string := names_of (s_fields s).
(** classify_fields (core/schema/arrow.py:181-209). *)
Definition index_names (s : schema) : list string :=
  filter (fun n => n ∉ s_recs s) (s_names s).
Definition record_names (s : schema) : list string :=
  filter (fun n => n ∈ s_recs s) (s_names s).
(** arrow_schema(..., physical=True) as the write path sees it (append.py:83-86). *)
Definition phys_ty (t : aty) : aty := match t with TFile _ => TString | t => t end.
Definition phys_field (s : schema) (f : afield) : afield :=
  if decide (f_name f ∈ s_recs s)
  then AField (f_name f) record_address_type (f_meta f) true
  else AField (f_name f) (phys_ty (f_ty f)) (f_meta f) true.
Definition phys_schema (s : schema) : list afield := phys_field s <$> s_fields s.
(** field_name_to_id_dict (162-164); the last of equal names wins. *)
Definition field_ids_of (fs : list afield) : gmap string Z :=
  foldl (fun m f => <[f_name f := field_id f]> m) ∅ fs.
