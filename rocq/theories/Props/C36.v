(** C36: the schema survives storage. *)
From Verif.Model Require Import System.
From Verif.Spec Require Import SchemaSpec.
From Verif.Proofs Require Import Durable Written.

(** Storing a schema as Substrait and loading it gives the same names, top-level
    ids and types, in order.  Missing from the full claim: inside lists and
    structs, ids, nullability and the names of list items are forgotten
    ([bare_ty]), as shown below. *)
Theorem C36_logical_schema_partial : ∀ fs recs,
  forallb (fun f => storable (f_ty f)) fs = true →
  ∃ ns loaded, substrait_fields (assign_field_ids fs) = Ok ns ∧ arrow_schema ns recs false = Ok loaded
    ∧ Forall2 (fun f g => f_name f = f_name g ∧ field_id f = field_id g ∧ f_ty f = bare_ty (f_ty g))
        loaded (assign_field_ids fs).
Proof. exact stored_schema. Qed.
Print Assumptions C36_logical_schema_partial.

(** The physical schema derived from the stored schema is the one derived from
    the loaded logical schema, unless a field that is not a record field has a
    file reference in its type. *)
Theorem C36_physical_schemas_agree_partial : ∀ fs recs ns loaded,
  substrait_fields (assign_field_ids fs) = Ok ns → arrow_schema ns recs false = Ok loaded →
  (∀ f, f ∈ fs → f_name f ∈ recs → record_type (f_ty f)) →
  (∀ f, f ∈ fs → f_name f ∉ recs → file_free (f_ty f) = true) →
  arrow_schema ns recs true = Ok (logical_to_physical_schema loaded recs).
Proof. exact stored_physical. Qed.
Print Assumptions C36_physical_schemas_agree_partial.

(** The schema with which operations write and read index files, [phys_schema],
    is the physical schema derived from the stored one, names, types, ids and
    nullability.  Missing: file references inside lists and structs. *)
Theorem C36_written_schema_partial : ∀ fs pks recs ns loaded,
  substrait_fields (assign_field_ids fs) = Ok ns → arrow_schema ns recs false = Ok loaded →
  (∀ f, f ∈ fs → f_name f ∈ recs → record_type (f_ty f)) →
  (∀ f, f ∈ fs → f_name f ∉ recs → file_free (f_ty f) = true ∨ ∃ d, f_ty f = TFile d) →
  arrow_schema ns recs true = Ok (phys_schema (Schema loaded pks recs)).
Proof. exact stored_written. Qed.
Print Assumptions C36_written_schema_partial.

Definition nested : list afield :=
  [AField "k" TInt64 None true;
   AField "l" (TList (AField "element" (TStruct [AField "a" TString None false; AField "b" TBool None true]) None true)) None true;
   AField "r" TBinary None true].
Example C36_case : ∃ ns loaded,
  forallb (fun f => storable (f_ty f)) nested = true
  ∧ substrait_fields (assign_field_ids nested) = Ok ns ∧ arrow_schema ns ["r"] false = Ok loaded
  ∧ forallb (fun f => file_free (f_ty f)) nested = true ∧ field_id <$> loaded = [0; 1; 5]%Z.
Proof. do 2 eexists. split_and!; [done|reflexivity|reflexivity|done|done]. Qed.

Example C36_case_written : ∃ fs ns loaded physical,
  substrait_fields (assign_field_ids fs) = Ok ns ∧ arrow_schema ns ["r"] false = Ok loaded
  ∧ fs = nested ++ [AField "f" (TFile "d") None true]
  ∧ arrow_schema ns ["r"] true = Ok physical ∧ physical ≠ loaded ∧ f_ty <$> last physical = Some TString.
Proof.
  exists (nested ++ [AField "f" (TFile "d") None true]). do 3 eexists.
  split_and!; [reflexivity|reflexivity|done|reflexivity|done|done].
Qed.

(** The item name "element" and the non-null field "a" are not restored. *)
Theorem C36_refuted_nested : ∃ fs ns loaded,
  substrait_fields (assign_field_ids fs) = Ok ns ∧ arrow_schema ns [] false = Ok loaded
  ∧ f_ty <$> loaded ≠ f_ty <$> assign_field_ids fs ∧ f_ty <$> loaded ≠ f_ty <$> fs.
Proof. exists nested. do 2 eexists. split_and!; [reflexivity|reflexivity|done|done]. Qed.
Print Assumptions C36_refuted_nested.
(** A field with the File type: the index files are written with a string
    column, the handle believes in an extension column. *)
Theorem C36_refuted_file : ∃ fs ns loaded physical,
  substrait_fields (assign_field_ids fs) = Ok ns ∧ arrow_schema ns [] false = Ok loaded
  ∧ arrow_schema ns [] true = Ok physical ∧ physical ≠ logical_to_physical_schema loaded [].
Proof.
  exists [AField "k" TInt64 None true; AField "f" (TFile "d") None true]. do 3 eexists.
  split_and!; [reflexivity|reflexivity|reflexivity|done].
Qed.
Print Assumptions C36_refuted_file.
