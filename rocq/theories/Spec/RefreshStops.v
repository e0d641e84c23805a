(** Results of a refresh. *)
From Verif.Spec Require Export Refreshing.

Definition succeeded (j : job) : bool := match j with JSucceeded _ => true | _ => false end.
Definition successes (jobs : list job) : nat := length (filter (fun j => succeeded j = true) jobs).
