(** When a delete can be done file by file. *)
From Verif.Spec Require Export Layout.

(** Every manifest either has only rows on which [P] holds, or its rows on which
    [P] holds are all in one file that also has a row on which it does not. *)
Definition separable (lay : list (list (list row))) (P : row → Prop) : Prop :=
  ∀ man, man ∈ lay →
    (∀ t r, t ∈ man → r ∈ t → P r)
    ∨ ∃ a t b r, man = a ++ t :: b ∧ r ∈ t ∧ ¬ P r ∧ ∀ t' r', t' ∈ a ++ b → r' ∈ t' → ¬ P r'.
