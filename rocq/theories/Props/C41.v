(** C41: loading external files adds exactly their rows. *)
From Verif.Spec Require Import Api Fixture Layout Logical Loading.
From Verif.Proofs Require Import Adds Loads Witness.

(** append_parquet adds the rows of the given files, in their order, after the
    rows already there. *)
Theorem C41_parquet_rows : ∀ σ hid s E paths st before,
  reachable σ → schema_at σ hid = Some s →
  (∀ p, p ∈ paths → external_ok s (w_fs (y_world σ)) p) → reads σ hid None before →
  result σ hid (run_append_parquet E paths) = Some (Ok (JSucceeded st)) →
  reads (after σ hid (run_append_parquet E paths)) hid None
    (before ++ (show s <$> (paths ≫= file_table (w_fs (y_world σ))))).
Proof. exact parquet_shows. Qed.
Print Assumptions C41_parquet_rows.

(** append_array_record adds one row per record: the fields computed by
    [index_fn], and the record. *)
Theorem C41_array_record_rows : ∀ σ hid s f E fo paths index_fn nbytes st before,
  reachable σ → schema_at σ hid = Some s → record_names s = [f] →
  (∀ p, p ∈ paths → path_is_ext p) → reads σ hid None before →
  result σ hid (run_append_array_record E fo paths index_fn nbytes) = Some (Ok (JSucceeded st)) →
  reads (after σ hid (run_append_array_record E fo paths index_fn nbytes)) hid None
    (before ++ (show s <$> ((fun b => columns (filter (fun n => n ≠ f) (names_of (s_fields s))) (index_fn b)
                                       ++ [(f, CVal (SStr b))])
                            <$> (paths ≫= (fun p => default [] (records_in (w_fs (y_world σ)) p)))))).
Proof. exact array_record_shows. Qed.
Print Assumptions C41_array_record_rows.

(** Read as references, the added rows have the addresses of the records in
    the external files. *)
Theorem C41_array_record_addresses : ∀ σ hid s f E E' fo paths index_fn nbytes st before b,
  reachable σ → schema_at σ hid = Some s → record_names s = [f] → (∀ p, p ∈ paths → path_is_ext p) →
  result σ hid (run_read_all E' None None None true b) = Some (Ok before) →
  result σ hid (run_append_array_record E fo paths index_fn nbytes) = Some (Ok (JSucceeded st)) →
  result (after σ hid (run_append_array_record E fo paths index_fn nbytes)) hid (run_read_all E' None None None true b)
  = Some (Ok (before ++ (paths ≫= (fun p => addressed s f index_fn p (default [] (records_in (w_fs (y_world σ)) p)))))).
Proof. exact array_record_refers. Qed.
Print Assumptions C41_array_record_addresses.

(** Nothing is copied: append_parquet writes no index file and no record file,
    append_array_record writes no record file.  This holds for every outcome,
    also for exceptions. *)
Theorem C41_parquet_no_copies : ∀ σ hid E paths p,
  data_path p → w_fs (y_world (after σ hid (run_append_parquet E paths))) !! p = w_fs (y_world σ) !! p.
Proof. exact parquet_no_copies. Qed.
Print Assumptions C41_parquet_no_copies.
Theorem C41_array_record_no_copies : ∀ σ hid E fo paths index_fn nbytes p,
  record_file p →
  w_fs (y_world (after σ hid (run_append_array_record E fo paths index_fn nbytes))) !! p = w_fs (y_world σ) !! p.
Proof. exact array_record_no_copies. Qed.
Print Assumptions C41_array_record_no_copies.

(** Two rows, then two external files with three rows. *)
Example parquet_case :
  let cs := [ex_flat; CRun 0 ex_env ex_large (OAppend [[ex_flat_row 7 "z"]]); ex_parquet "x" [ex_flat_row 1 "a"; ex_flat_row 2 "b"]; ex_parquet "y" [ex_flat_row 3 "c"]] in
  let paths := [PExt "x"; PExt "y"] in
  ∃ σ s st before, σ = ex_calls cs ∧ reachable σ ∧ schema_at σ 0 = Some s
    ∧ (∀ p, p ∈ paths → external_ok s (w_fs (y_world σ)) p) ∧ reads σ 0 None before
    ∧ result σ 0 (run_append_parquet ex_env paths) = Some (Ok (JSucceeded st))
    ∧ before = [ex_flat_row 7 "z"]
    ∧ (paths ≫= file_table (w_fs (y_world σ))) = [ex_flat_row 1 "a"; ex_flat_row 2 "b"; ex_flat_row 3 "c"].
Proof.
  intros cs paths. assert (reachable (ex_calls cs)) by (apply reach; calls).
  exists (ex_calls cs). do 3 eexists. split; [done|]. split; [done|]. split; [computed|]. split.
  { intros p Hp. repeat (apply elem_of_cons in Hp as [->|Hp]; [external_tested|]). by apply elem_of_nil in Hp. }
  split; [by reads_by_computing|]. split; [computed|]. split; [done|computed].
Qed.

(** Five rows, then an external file with three records. *)
Definition ex_index (b : string) : row := [("k", CVal (SNum (Z.of_nat (String.length b)))); ("v", CVal (SStr ("n" ++ b)))].
Definition ex_external : list call := [ex_create; ex_append; CExternal "e" (FRecord ["x"; "yy"; "zzz"])].
Example array_record_case :
  let paths := [PExt "e"] in
  ∃ s st before refs, reachable (ex_calls ex_external) ∧ schema_at (ex_calls ex_external) 0 = Some s ∧ record_names s = ["r"]
    ∧ (∀ p, p ∈ paths → path_is_ext p) ∧ reads (ex_calls ex_external) 0 None before
    ∧ result (ex_calls ex_external) 0 (run_read_all ex_env None None None true None) = Some (Ok refs) ∧ length refs = 5
    ∧ result (ex_calls ex_external) 0 (run_append_array_record ex_env ex_opts paths ex_index (fun b => Z.of_nat (String.length b)))
      = Some (Ok (JSucceeded st))
    ∧ addressed s "r" ex_index (PExt "e") (default [] (records_in (w_fs (y_world (ex_calls ex_external))) (PExt "e")))
      = [[("k", CVal (SNum 1)); ("v", CVal (SStr "nx")); ("r", CAddr (PExt "e") 0)];
         [("k", CVal (SNum 2)); ("v", CVal (SStr "nyy")); ("r", CAddr (PExt "e") 1)];
         [("k", CVal (SNum 3)); ("v", CVal (SStr "nzzz")); ("r", CAddr (PExt "e") 2)]].
Proof.
  intros paths. assert (reachable (ex_calls ex_external)) by (apply reach; calls).
  do 4 eexists. split; [done|]. split; [computed|]. split; [computed|]. split.
  { intros p Hp. apply elem_of_cons in Hp as [->|Hp]; [exact I|]. by apply elem_of_nil in Hp. }
  split; [by reads_by_computing|]. split; [computed|]. split; [done|]. split; computed.
Qed.
