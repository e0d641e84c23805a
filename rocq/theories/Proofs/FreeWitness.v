(** Checking histories restricted in their operations only. *)
From Verif.Spec Require Import Free Fixture.
From Verif.Proofs Require Import Witness.

Lemma limited_tested P cs : all_calls (fun σ c => env_ok σ c ∧ ops_in P c) init cs → limited P init (ex_calls cs).
Proof. apply history_tested. Qed.
Lemma free_tested P cs : all_calls (fun σ c => env_ok σ c ∧ runs_only P σ c) init cs → free P init (ex_calls cs).
Proof. apply history_tested. Qed.
Lemma keeping_tested P cs :
  all_calls (fun σ c => env_ok σ c ∧ keeps_branches c ∧ runs_only P σ c) init cs → keeping P init (ex_calls cs).
Proof. apply history_tested. Qed.
Ltac limited_by_computing := apply limited_tested; repeat (split; [split; [env_tested|exact I]|]); try exact I.
Ltac free_by tac := apply free_tested; repeat (split; [split; [env_tested|runs_tested tac]|]); try exact I.
Ltac keeping_by tac := apply keeping_tested; repeat (split; [split_and!; [env_tested|branches_tested|runs_tested tac]|]); try exact I.
(** Reading some versions and testing their keys. *)
Lemma unique_versions_tested σ hid ks pks :
  forallb (fun k => match result σ hid (run_read_all ex_env None None (Some (VId k)) false None) with
                    | Some (Ok rows) => bool_decide (NoDup (key_of pks <$> rows)) | _ => true end) ks = true →
  ∀ k rows, k ∈ ks → reads σ hid (Some (VId k)) rows → unique_keys pks rows.
Proof.
  intros Ht k rows Hk Hr. rewrite forallb_forall in Ht. specialize (Ht k (proj1 (elem_of_list_In _ _) Hk)).
  rewrite (Hr ex_env None) in Ht. by apply bool_decide_eq_true in Ht.
Qed.
