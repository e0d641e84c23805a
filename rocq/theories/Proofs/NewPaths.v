(** Paths generated in an interval of the counter. *)
From Verif.Model Require Import System.
From Verif.Proofs Require Import Lib World.

Lemma not_below lo k u : (lo ≤ u)%N → ¬ below lo (PGen k u).
Proof. cbn. lia. Qed.
Lemma below_le lo lo' p : (lo ≤ lo')%N → ¬ below lo' p → ¬ below lo p.
Proof. intros Hle Hn Hb. apply Hn. by eapply below_mono. Qed.
Definition new_paths (lo hi : N) (l : list path) : Prop := NoDup l ∧ ∀ q, q ∈ l → ¬ below lo q ∧ below hi q.
Lemma new_paths_nil lo hi : new_paths lo hi [].
Proof. split; [constructor|]. by intros q ?%elem_of_nil. Qed.
Lemma new_paths_app lo mid hi a b :
  (lo ≤ mid)%N → (mid ≤ hi)%N → new_paths lo mid a → new_paths mid hi b → new_paths lo hi (a ++ b).
Proof.
  intros H1 H2 [Ha Ha'] [Hb Hb']. split.
  - apply NoDup_app. split_and!; try done. intros x Hx Hx'. destruct (Ha' x Hx), (Hb' x Hx'). done.
  - intros x [Hx|Hx]%elem_of_app.
    + destruct (Ha' x Hx). split; [done|]. by eapply below_mono.
    + destruct (Hb' x Hx). split; [|done]. by eapply below_le.
Qed.
