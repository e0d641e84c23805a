(** C44: create accepts exactly valid schemas. *)
From Verif.Spec Require Import Api Fixture SchemaSpec.
From Verif.Proofs Require Import Durable Witness.

(** Missing from the full claim: a key or record field name that occurs twice
    in the schema raises KeyError instead. *)
Theorem C44_input_error_iff_invalid_partial : ∀ σ fs pks recs,
  reachable σ → unambiguous fs (pks ++ recs) →
  (create fs pks recs (y_world σ)).2 = Err (EUser UInput) ↔ ¬ valid_schema fs pks recs.
Proof. exact create_input_error. Qed.
Print Assumptions C44_input_error_iff_invalid_partial.

Example C44_case :
  (create ex_fields ["k"] ["v"] (y_world init)).2 = Err (EUser UInput)
  ∧ unambiguous ex_fields (["k"] ++ ["v"])
  ∧ ¬ valid_schema ex_fields ["k"] ["v"]
  ∧ (∃ h, (create ex_fields ["k"] ["r"] (y_world init)).2 = Ok h).
Proof.
  assert (reachable init) by constructor.
  assert (unambiguous ex_fields (["k"] ++ ["v"])) as Hu.
  { intros n Hn. apply SchemaLaws.nodup_unambiguous with (ns := ["k"; "v"]); [by apply (bool_decide_unpack _)|done]. }
  split_and!; [done|done| |eexists; computed].
  by apply (create_input_error init ex_fields ["k"] ["v"]).
Qed.

(** Two columns "k" of a type that cannot be a key: no input error. *)
Theorem C44_refuted_ambiguous : ∃ fs pks msg,
  ¬ valid_schema fs pks [] ∧ (create fs pks [] (y_world init)).2 = Err (EOther msg).
Proof.
  exists [AField "k" (TStruct []) None true; AField "k" (TStruct []) None true], ["k"]. eexists. split; [|computed].
  intros (_&Hk&_). destruct (Hk "k") as (f&Hf&_&Ht); [left|].
  repeat (apply elem_of_cons in Hf as [->|Hf]; [done|]). by apply elem_of_nil in Hf.
Qed.
Print Assumptions C44_refuted_ambiguous.
