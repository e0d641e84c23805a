(** Checking histories in which tags and branches are edited at any time. *)
From Verif.Spec Require Import Disturbed Fixture.
From Verif.Proofs Require Import Witness.

Lemma stale_edits_tested P cs :
  all_calls (fun σ c => env_ok σ c ∧ keeps_branches c ∧ stays_on_branch σ c ∧ runs_only P σ c) init cs →
  stale_edits P init (ex_calls cs).
Proof. apply history_tested. Qed.
Lemma removals_tested P cs :
  all_calls (fun σ c => env_ok σ c ∧ fresh_edits σ c ∧ stays_on_branch σ c ∧ runs_only P σ c) init cs →
  removals P init (ex_calls cs).
Proof. apply history_tested. Qed.
Ltac stays_anywhere_tested :=
  first [ stays_tested
        | let h := fresh in let m := fresh in let Hh := fresh in let Hm := fresh in
          intros h m Hh Hm; right; vm_compute in Hh; injection Hh as <-; vm_compute in Hm; injection Hm as <-;
          eexists; split; [computed|reflexivity] ].
Ltac stale_edits_by tac :=
  apply stale_edits_tested;
  repeat (split; [split_and!; [env_tested|branches_tested|stays_anywhere_tested|runs_tested tac ]|]); try exact I.
Ltac removals_by tac :=
  apply removals_tested;
  repeat (split; [split_and!; [env_tested|edits_tested|stays_anywhere_tested|runs_tested tac ]|]); try exact I.
Lemma switches_tested P cs :
  all_calls (fun σ c => env_ok σ c ∧ fresh_edits σ c ∧ keeps_branches c ∧ runs_only P σ c) init cs →
  switches P init (ex_calls cs).
Proof. apply history_tested. Qed.
Ltac switches_by tac :=
  apply switches_tested;
  repeat (split; [split_and!; [env_tested|edits_tested|branches_tested|runs_tested tac ]|]); try exact I.
