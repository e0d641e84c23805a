(** C02: record payloads come back unchanged. *)
From Verif.Spec Require Import Api Fixture Logical Supplied.
From Verif.Proofs Require Import Supplied Provenance Witness.

(** A read that returns addresses (reference read) instead of payloads, made at
    any reachable state through any handle: at any later time (appends,
    rollovers, deletes, rewrites, crashes) every address still resolves, and the
    resolved rows are the rows a full read returned. *)
Theorem C02_addresses_resolve : ∀ σ σ' hid s E v b addrs rows,
  reachable σ → schema_at σ hid = Some s → history env_ok σ σ' →
  result σ hid (run_read_all E None None v true b) = Some (Ok addrs) → reads σ hid v rows →
  ∃ full, mapM (resolve_row (records_in (w_fs (y_world σ'))) (s_recs s)) addrs = Some full ∧ rows = show s <$> full.
Proof. exact addresses_stay. Qed.
Print Assumptions C02_addresses_resolve.

(** Every row ever read, payloads included, is a row that some append, insert,
    upsert or load supplied: a property of all supplied rows holds of all rows
    read, at every version, in every history, whatever is done to branches and
    tags, through however outdated handles. *)
Theorem C02_rows_supplied : ∀ (R : row → Prop) σ hid v rows,
  history (fun σ c => env_ok σ c ∧ provides R σ c) init σ → reads σ hid v rows → Forall R rows.
Proof. exact rows_provided. Qed.
Print Assumptions C02_rows_supplied.

(** Record files hold two payloads; a delete rewrites index files. *)
Definition C02_before : list call := [ex_create; ex_append].
Definition C02_after : list call :=
  [CRun 0 ex_env ex_opts (ODelete (ex_cmp OpEq "k" (SNum 2)));
   CRun 0 ex_env ex_opts (OInsert MUpsert [ex_row 4 "x" "X"; ex_row 9 "y" "Y"])].
Example C02_case : ∃ s addrs rows,
  reachable (ex_calls C02_before) ∧ schema_at (ex_calls C02_before) 0 = Some s
  ∧ history env_ok (ex_calls C02_before) (foldl step (ex_calls C02_before) C02_after)
  ∧ result (ex_calls C02_before) 0 (run_read_all ex_env None None None true None) = Some (Ok addrs)
  ∧ reads (ex_calls C02_before) 0 None rows ∧ length rows = 5
  ∧ length (remove_dups ((fun r => match rget "r" r with Some (CAddr p _) => Some p | _ => None end) <$> addrs)) = 2
  ∧ rget "r" <$> (rows !! 3) = Some (Some (CVal (SStr "D"))).
Proof.
  assert (Hr : reachable (ex_calls C02_before)) by (apply reach; calls).
  do 3 eexists. split; [done|]. split; [computed|].
  split; [apply history_tested; calls|]. split; [computed|]. split; [by reads_by_computing|].
  split; [computed|]. split; computed.
Qed.
(** No payload ever read contains "Z" when none was supplied. *)
Definition C02_no_z (r : row) : Prop := rget "r" r ≠ Some (CVal (SStr "Z")).
Definition C02_wild : list call :=
  [CLoad 1; CEdit 0 (EdAddBranch "b"); CEdit 0 (EdSetBranch "b"); CRun 0 ex_env ex_opts (OAppend [[ex_row 7 "z" "B"]]);
   CEdit 1 (EdAddTag "t" None); CEdit 0 (EdRemoveBranch "b"); CEdit 0 (EdSetBranch MAIN)].
Example C02_supplied_case : ∃ rows,
  history (fun σ c => env_ok σ c ∧ provides C02_no_z σ c) init (ex_calls (C02_before ++ C02_after ++ C02_wild))
  ∧ reads (ex_calls (C02_before ++ C02_after ++ C02_wild)) 1 (Some (VName "t")) rows ∧ length rows = 5.
Proof.
  assert (Hr : reachable (ex_calls (C02_before ++ C02_after ++ C02_wild))) by (apply reach; calls).
  eexists. split; [|split; [by reads_by_computing|computed]].
  apply history_tested.
  repeat (split; [split; [first [ exact I | by apply (bool_decide_unpack _) | by intros ?? | by vm_compute ]
                         |first [ exact I | intros s Hs; vm_compute in Hs; injection Hs as <-; vm_compute; repeat constructor; discriminate ]]|]).
  exact I.
Qed.
