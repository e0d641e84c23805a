(** C21: create is exclusive and load finds what was created. *)
From Verif.Spec Require Import Api Fixture Durable SchemaSpec.
From Verif.Proofs Require Import Durable Witness.

(** Creating where a storage exists raises (StorageExistError if the arguments
    are acceptable) and leaves the storage as it was. *)
Theorem C21_create_is_exclusive : ∀ σ fs pks recs,
  reachable σ → NoDup (names_of fs) → is_Some (stored_meta (w_fs (y_world σ))) →
  (valid_schema fs pks recs → forallb (fun f => storable (f_ty f)) fs = true →
   (create fs pks recs (y_world σ)).2 = Err (EUser UStorageExists))
  ∧ (∃ e, (create fs pks recs (y_world σ)).2 = Err e)
  ∧ ∀ hid, same_storage (step σ (CCreate hid fs pks recs)) σ.
Proof. exact create_exclusive. Qed.
Print Assumptions C21_create_is_exclusive.

(** Creating where none exists succeeds, and loading then shows the fields,
    keys and record fields given, and one empty snapshot 0. *)
Theorem C21_load_finds_created : ∀ σ hid hid' fs pks recs,
  reachable σ → NoDup (names_of fs) → stored_meta (w_fs (y_world σ)) = None →
  valid_schema fs pks recs → forallb (fun f => storable (f_ty f)) fs = true →
  (∃ h, (create fs pks recs (y_world σ)).2 = Ok h)
  ∧ ∃ s sn m, schema_at (step (step σ (CCreate hid fs pks recs)) (CLoad hid')) hid' = Some s
    ∧ Forall2 (fun f g => f_name f = f_name g ∧ bare_ty (f_ty f) = bare_ty (f_ty g)) (s_fields s) fs
    ∧ s_pks s = pks ∧ s_recs s = recs
    ∧ stored_meta (w_fs (y_world (step (step σ (CCreate hid fs pks recs)) (CLoad hid')))) = Some m
    ∧ md_current m = 0%Z ∧ md_refs m = ∅ ∧ md_snaps m = {[ 0%Z := sn ]} ∧ sn_idx sn = [] ∧ sn_rec sn = []
    ∧ reads (step (step σ (CCreate hid fs pks recs)) (CLoad hid')) hid' None [].
Proof. exact create_then_load. Qed.
Print Assumptions C21_load_finds_created.

Example C21_case :
  valid_schema ex_fields ["k"] ["r"] ∧ NoDup (names_of ex_fields)
  ∧ forallb (fun f => storable (f_ty f)) ex_fields = true
  ∧ (reachable init ∧ stored_meta (w_fs (y_world init)) = None)
  ∧ ∃ σ, reachable σ ∧ is_Some (stored_meta (w_fs (y_world σ))) ∧ reads σ 0 None (concat ex_rows).
Proof.
  split_and!; [|by apply (bool_decide_unpack _)|done|constructor|done|].
  - split_and!; [done| |].
    + intros n ->%elem_of_list_singleton. exists (AField "k" TInt64 None true). split_and!; [left|done|done].
    + intros n ->%elem_of_list_singleton. split; [by apply (bool_decide_unpack _)|].
      exists (AField "r" TBinary None true). split_and!; [right; right; left|done|done].
  - exists (ex_calls [ex_create; ex_append]).
    assert (reachable (ex_calls [ex_create; ex_append])) by (apply reach; calls).
    split_and!; [done|by eexists; computed|by reads_by_computing].
Qed.
