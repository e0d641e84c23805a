(** C37: field ids are unique and stable. *)
From Verif.Spec Require Import Api Fixture SchemaSpec.
From Verif.Proofs Require Import SchemaLaws Durable Witness.

(** Every field at every depth gets an id; depth first they are 0, 1, 2, ... *)
Theorem C37_ids_are_numbered : ∀ fs,
  all_ids (assign_field_ids fs) = Some <$> seqZ 0 (Z.of_nat (length (all_ids (assign_field_ids fs)))).
Proof. exact assign_field_ids_spec. Qed.
Print Assumptions C37_ids_are_numbered.

(** Numbering keeps fields, names and types. *)
Theorem C37_numbering_keeps_fields : ∀ fs,
  Forall2 (fun f g => f_name f = f_name g ∧ bare_ty (f_ty f) = bare_ty (f_ty g)) (assign_field_ids fs) fs.
Proof. exact assign_field_ids_bare. Qed.
Print Assumptions C37_numbering_keeps_fields.

(** Whatever happens afterwards, every handle sees the same schema and ids. *)
Theorem C37_ids_are_stable : ∀ σ σ' hid hid' s s',
  reachable σ → history env_ok σ σ' → schema_at σ hid = Some s → schema_at σ' hid' = Some s' → s' = s.
Proof. exact schema_constant. Qed.
Print Assumptions C37_ids_are_stable.

Example C37_case :
  all_ids (assign_field_ids
    [AField "a" (TStruct [AField "b" TInt64 None true; AField "c" (TList (AField "item" TString None true)) None true]) None true;
     AField "d" TBool None true]) = Some <$> [0; 1; 2; 3; 4]%Z
  ∧ ∃ s, reachable (ex_calls [ex_create]) ∧ schema_at (ex_calls [ex_create]) 0 = Some s
    ∧ schema_at (ex_calls [ex_create; ex_append]) 0 = Some s.
Proof.
  split; [done|]. eexists. assert (reachable (ex_calls [ex_create])) by (apply reach; calls).
  split_and!; [done|computed|computed].
Qed.
