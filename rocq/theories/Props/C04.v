(** C04: a filtered read equals filtering the full read. *)
From Verif.Spec Require Import Api Fixture Pruning.
From Verif.Proofs Require Import Reads Witness.

(** Missing from the full claim: filters that negate a condition on primary
    keys or compare two keys by [!=] ([prunable]), filters on record fields
    ([ignores]), keys or filter fields after a nested or record field
    ([plain_before]), null literals and bare nodes ([buildable]), NaN in a key
    ([no_nan_keys]).  The theorems below show that the claim fails there. *)
Theorem C04_filtered_read_partial : ∀ σ hid s e v before,
  reachable σ → schema_at σ hid = Some s → reads σ hid v before →
  safe_filter s e → buildable s e → no_nan_keys (s_pks s) before →
  ∀ E b, result σ hid (run_read_all E (Some e) None v false b)
         = Some (Ok (filter (fun r => matches e r = true) before)).
Proof. exact filtered_read. Qed.
Print Assumptions C04_filtered_read_partial.

Example C04_case : ∃ σ s e before,
  reachable σ ∧ schema_at σ 0 = Some s ∧ reads σ 0 None before
  ∧ safe_filter s e ∧ buildable s e ∧ no_nan_keys (s_pks s) before
  ∧ filter (fun r => matches e r = true) before ≠ [] ∧ filter (fun r => matches e r = true) before ≠ before.
Proof.
  exists (ex_calls [ex_create; ex_append]).
  assert (reachable (ex_calls [ex_create; ex_append])) by (apply reach; calls).
  eexists _, (EBin FnOr (ex_cmp OpGt "k" (SNum 3)) (ex_cmp OpEq "v" (SStr "a"))), (concat ex_rows).
  split_and!; [done|computed|by reads_by_computing|safe|can_build|apply proper_no_nan; proper|by vm_compute|by vm_compute].
Qed.

(** Negation: the rows with keys 5 and 6 are in one file; [~ (k = 5)] drops 6. *)
Theorem C04_refuted_not : ∃ σ e before,
  reachable σ ∧ reads σ 0 None before
  ∧ result σ 0 (run_read_all ex_env (Some e) None None false None)
    = Some (Ok [])
  ∧ filter (fun r => matches e r = true) before ≠ [].
Proof.
  exists (ex_calls [ex_create; ex_add [ex_row 5 "a" "A"; ex_row 6 "b" "B"]]).
  exists (EUn FnNot (ex_cmp OpEq "k" (SNum 5))).
  assert (reachable (ex_calls [ex_create; ex_add [ex_row 5 "a" "A"; ex_row 6 "b" "B"]])) by (apply reach; calls).
  eexists. split_and!; [done|reads_by_computing; done|vm_compute; reflexivity|by vm_compute].
Qed.
Print Assumptions C04_refuted_not.
(** NaN: the values 5.0 and NaN are in one file; [x != 5.0] drops NaN. *)
Theorem C04_refuted_nan : ∃ σ e before,
  reachable σ ∧ reads σ 0 None before
  ∧ result σ 0 (run_read_all ex_env (Some e) None None false None) = Some (Ok [])
  ∧ filter (fun r => matches e r = true) before ≠ [].
Proof.
  exists (ex_calls [ex_float; ex_add [[("x", CVal (SNum 5))]; [("x", CVal SNaN)]]]).
  exists (ex_cmp OpNe "x" (SNum 5)).
  assert (reachable (ex_calls [ex_float; ex_add [[("x", CVal (SNum 5))]; [("x", CVal SNaN)]]])) by (apply reach; calls).
  eexists. split_and!; [done|reads_by_computing; done|vm_compute; reflexivity|by vm_compute].
Qed.
Print Assumptions C04_refuted_nan.
(** Null literal: comparing a key with null raises instead of returning nothing. *)
Theorem C04_refuted_null : ∃ σ e before msg,
  reachable σ ∧ reads σ 0 None before
  ∧ result σ 0 (run_read_all ex_env (Some e) None None false None) = Some (Err (EOther msg)).
Proof.
  exists (ex_calls [ex_create; ex_append]).
  exists (EBin (FnCmp OpEq) (EField "k") (ELit None)).
  assert (reachable (ex_calls [ex_create; ex_append])) by (apply reach; calls).
  do 2 eexists. split_and!; [done|reads_by_computing; done|vm_compute; reflexivity].
Qed.
Print Assumptions C04_refuted_null.
(** A struct before the key, one of whose fields is called like the key: the
    statistics and the names belong to the wrong columns, and the row is lost. *)
Theorem C04_refuted_nested : ∃ σ e before,
  reachable σ ∧ reads σ 0 None before
  ∧ result σ 0 (run_read_all ex_env (Some e) None None false None) = Some (Ok [])
  ∧ filter (fun r => matches e r = true) before ≠ [].
Proof.
  exists (ex_calls [ex_nested; ex_add [ex_nested_row 1 2 3]]).
  exists (ex_cmp OpEq "k" (SNum 3)).
  assert (reachable (ex_calls [ex_nested; ex_add [ex_nested_row 1 2 3]])) by (apply reach; calls).
  eexists. split_and!; [done|reads_by_computing; done|vm_compute; reflexivity|by vm_compute].
Qed.
Print Assumptions C04_refuted_nested.
(** Two keys: in one file [a] is 1 and 2, [b] is 2 and 3.  [a != b] and [b != a]
    hold on both rows and return none. *)
Definition C04_two_keys : list call :=
  [CCreate 0 [AField "a" TInt64 None true; AField "b" TInt64 None true] ["a"; "b"] [];
   ex_add [[("a", CVal (SNum 1)); ("b", CVal (SNum 2))]; [("a", CVal (SNum 2)); ("b", CVal (SNum 3))]]].
Theorem C04_refuted_two_keys : ∃ σ before,
  let ne a b := EBin (FnCmp OpNe) (EField a) (EField b) in
  reachable σ ∧ reads σ 0 None before ∧ length before = 2
  ∧ filter (fun r => matches (ne "a" "b") r = true) before = before
  ∧ filter (fun r => matches (ne "b" "a") r = true) before = before
  ∧ result σ 0 (run_read_all ex_env (Some (ne "a" "b")) None None false None) = Some (Ok [])
  ∧ result σ 0 (run_read_all ex_env (Some (ne "b" "a")) None None false None) = Some (Ok []).
Proof.
  exists (ex_calls C04_two_keys).
  assert (reachable (ex_calls C04_two_keys)) by (apply reach; calls).
  eexists. cbv zeta.
  split_and!; [done|reads_by_computing; done|done|by vm_compute|by vm_compute|vm_compute; reflexivity|vm_compute; reflexivity].
Qed.
Print Assumptions C04_refuted_two_keys.
