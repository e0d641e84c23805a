(** C50: patch merging is order-preserving concatenation. *)
From Verif.Spec Require Import Merging.
From Verif.Proofs Require Import Merge.

(** Merging gives no patch iff there is none among [ps]; otherwise everything in
    the patches, in order, with statistics summed. *)
Theorem C50_merge_concatenates : ∀ ps,
  match merge_patches ps with
  | None => ∀ p, p ∈ ps → p = None
  | Some q => (∃ p, Some p ∈ ps) ∧ concatenates (omap id ps) q
  end.
Proof. exact merged. Qed.
Print Assumptions C50_merge_concatenates.

(** Committing the merged patch gives the manifests that committing the parts one
    after the other gives, if no part deletes a manifest another part adds. *)
Theorem C50_merged_commit : ∀ l idx rec idx' rec' q,
  NoDup idx → concatenates l q → apply_all idx rec l = Ok (idx', rec') →
  (∀ x, x ∈ pa_del_idx q → x ∉ pa_add_idx q) → l ≠ [] →
  patch_manifests idx rec q = Ok (idx', rec').
Proof. exact apply_merged. Qed.
Print Assumptions C50_merged_commit.

Definition man (u : N) : path := PGen KIdxMan u.
Definition del_part : patch :=
  Patch [man 5] [] [man 1] (Some (ChangeLog [RowBitmap (PGen KIndex 0) false 1 [0]] [])) (Stats (-1) 0 0 0).
Definition add_part : patch :=
  Patch [man 7] [PGen KRecMan 8] [] (Some (ChangeLog [] [RowBitmap (PGen KIndex 6) true 2 []])) (Stats 2 10 20 30).
Example C50_case : ∃ q,
  merge_patches [Some del_part; None; Some add_part] = Some q
  ∧ pa_add_idx q = [man 5; man 7] ∧ pa_stats q = Stats 1 10 20 30
  ∧ apply_all [man 1; man 2] [] [del_part; add_part] = Ok ([man 2; man 5; man 7], [PGen KRecMan 8]).
Proof. eexists. split_and!; [reflexivity|done|done|vm_compute; reflexivity]. Qed.
