(** C39: random access by index equals sequential read. *)
From Verif.Spec Require Import Api Fixture Access.
From Verif.Proofs Require Import Sources Witness.

(** [run_random_access sers E fields use_array_record] opens the source in state
    [σ]; items are read in any later state [σ'], whatever happened in between.
    [raw] makes a Python value of bytes, [sers] are the serializers if records
    are deserialized; [dict_of raw sers fields r] is row [r] as a dict. *)

(** The source backed by the table of addresses (several fields, or on request):
    item [i] is row [i] of a sequential read. *)
Theorem C39_arrow : ∀ (V : Type) (raw : string → V) sers σ hid s E fields use fields' addrs σ',
  reachable σ → schema_at σ hid = Some s → (∀ f, f ∈ fields → f ∈ record_names s) →
  result σ hid (run_random_access sers E fields use) = Some (Ok (ArrowSource fields' addrs)) →
  history env_ok σ σ' →
  ∃ rows, (∀ E' b, result σ hid (run_read_all E' None (Some fields) None false b) = Some (Ok rows))
    ∧ source_length (ArrowSource fields' addrs) = length rows
    ∧ ∀ i r, rows !! i = Some r →
        source_getitem raw sers (ArrowSource fields' addrs) i (y_world σ') = (y_world σ', dict_of raw sers fields r).
Proof. intros V raw sers. exact (arrow_items raw sers). Qed.
Print Assumptions C39_arrow.

(** Batches and single items agree, for both sources: a batch succeeds exactly if
    every item does, and its columns are made of the items. *)
Theorem C39_batch : ∀ (V : Type) (raw : string → V) sers σ hid s E fields use src σ' is cols,
  reachable σ → schema_at σ hid = Some s → (∀ f, f ∈ fields → f ∈ record_names s) → fields ≠ [] → NoDup fields →
  result σ hid (run_random_access sers E fields use) = Some (Ok src) → history env_ok σ σ' →
  source_getitems raw sers src is (y_world σ') = (y_world σ', Ok cols)
  ↔ ∃ dicts, Forall2 (fun i d => source_getitem raw sers src i (y_world σ') = (y_world σ', Ok d)) is dicts
      ∧ cols = (fun f => (f, omap (dict_get f) dicts)) <$> fields.
Proof. intros V raw sers. exact (batches raw sers). Qed.
Print Assumptions C39_batch.

(** The claim fails for the default source of a single field, which goes through
    the record files: five rows are written to two index files and one record
    file; deleting the first row moves the second row behind the others, but the
    record file is still read from front to back. *)
Theorem C39_refuted : ∃ σ rows src r,
  reachable σ ∧ result σ 0 (run_read_all ex_env None (Some ["r"]) None false None) = Some (Ok rows)
  ∧ result σ 0 (run_random_access (V := string) None ex_env ["r"] true) = Some (Ok src)
  ∧ rows !! 0 = Some r ∧ dict_of id None ["r"] r = Ok [("r", "C")]
  ∧ (source_getitem id None src 0 (y_world σ)).2 = Ok [("r", "B")].
Proof.
  set (fo := FOpts 0 0 100000).
  set (cs := [ex_create; CRun 0 ex_env fo (OAppend ex_rows); CRun 0 ex_env fo (ODelete (ex_cmp OpEq "k" (SNum 1)))]).
  assert (reachable (ex_calls cs)) by (apply reach; calls).
  exists (ex_calls cs). do 3 eexists. split; [done|]. split; [computed|]. split; [computed|]. split; [computed|].
  split; computed.
Qed.
Print Assumptions C39_refuted.

(** Missing from the full claim: the rows must come file by file, increasing
    within each record file. *)
Theorem C39_array_record_partial : ∀ (V : Type) (raw : string → V) sers σ hid s E E' b f src addrs rows σ',
  reachable σ → schema_at σ hid = Some s → f ∈ record_names s →
  result σ hid (run_random_access sers E [f] true) = Some (Ok src) →
  result σ hid (run_read_all E' None (Some [f]) None true b) = Some (Ok addrs) →
  result σ hid (run_read_all E' None (Some [f]) None false b) = Some (Ok rows) →
  in_file_order (addresses_in f addrs) → history env_ok σ σ' →
  source_length src = length rows
  ∧ ∀ i r, rows !! i = Some r → source_getitem raw sers src i (y_world σ') = (y_world σ', dict_of raw sers [f] r).
Proof. intros V raw sers. exact (array_in_order raw sers). Qed.
Print Assumptions C39_array_record_partial.

(** Missing from the full claim: the order.  If no record belongs to two rows, the
    items are the rows in some order. *)
Theorem C39_array_record_same_partial : ∀ (V : Type) (raw : string → V) sers σ hid s E E' b f src addrs rows σ',
  reachable σ → schema_at σ hid = Some s → f ∈ record_names s →
  result σ hid (run_random_access sers E [f] true) = Some (Ok src) →
  result σ hid (run_read_all E' None (Some [f]) None true b) = Some (Ok addrs) →
  result σ hid (run_read_all E' None (Some [f]) None false b) = Some (Ok rows) →
  NoDup (addresses_in f addrs) → history env_ok σ σ' →
  ∃ items, items ≡ₚ dict_of raw sers [f] <$> rows ∧ source_length src = length items
  ∧ ∀ i d, items !! i = Some d → source_getitem raw sers src i (y_world σ') = (y_world σ', d).
Proof. intros V raw sers. exact (array_same_records raw sers). Qed.
Print Assumptions C39_array_record_same_partial.

Example C39_case_arrow : ∃ s addrs,
  reachable (ex_calls [ex_create; ex_append]) ∧ schema_at (ex_calls [ex_create; ex_append]) 0 = Some s
  ∧ (∀ f, f ∈ ["r"] → f ∈ record_names s) ∧ NoDup ["r"]
  ∧ result (ex_calls [ex_create; ex_append]) 0 (run_random_access (V := string) None ex_env ["r"] false)
    = Some (Ok (ArrowSource ["r"] addrs))
  ∧ length addrs = 5
  ∧ history env_ok (ex_calls [ex_create; ex_append])
      (ex_calls [ex_create; ex_append; CRun 0 ex_env ex_opts (ODelete (ex_cmp OpEq "k" (SNum 1)))]).
Proof.
  assert (reachable (ex_calls [ex_create; ex_append])) by (apply reach; calls).
  do 2 eexists. split; [done|]. split; [computed|]. split; [apply Forall_forall; apply (bool_decide_unpack _); computed|].
  split; [apply (bool_decide_unpack _); computed|]. split; [computed|]. split; [computed|].
  apply (history_tested _ (ex_calls [ex_create; ex_append]) [CRun 0 ex_env ex_opts (ODelete (ex_cmp OpEq "k" (SNum 1)))]); calls.
Qed.
Example C39_case_array_record : ∃ s src addrs rows,
  reachable (ex_calls [ex_create; ex_append]) ∧ schema_at (ex_calls [ex_create; ex_append]) 0 = Some s
  ∧ "r" ∈ record_names s
  ∧ result (ex_calls [ex_create; ex_append]) 0 (run_random_access (V := string) None ex_env ["r"] true) = Some (Ok src)
  ∧ result (ex_calls [ex_create; ex_append]) 0 (run_read_all ex_env None (Some ["r"]) None true None) = Some (Ok addrs)
  ∧ result (ex_calls [ex_create; ex_append]) 0 (run_read_all ex_env None (Some ["r"]) None false None) = Some (Ok rows)
  ∧ in_file_order (addresses_in "r" addrs) ∧ NoDup (addresses_in "r" addrs) ∧ length rows = 5.
Proof.
  assert (reachable (ex_calls [ex_create; ex_append])) by (apply reach; calls).
  do 4 eexists. split; [done|]. split; [computed|]. split; [apply (bool_decide_unpack _); computed|].
  split; [computed|]. split; [computed|]. split; [computed|].
  split; [apply Access.instructions_order; computed|]. split; [apply (bool_decide_unpack _); computed|computed].
Qed.
