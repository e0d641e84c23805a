(** What merging and applying patches means. *)
From Verif.Model Require Export Runner.

Definition deleted_rows (p : patch) : list row_bitmap := from_option cl_deleted [] (pa_log p).
Definition added_rows (p : patch) : list row_bitmap := from_option cl_added [] (pa_log p).
Definition stats_add (a b : stats) : stats :=
  Stats (st_rows a + st_rows b) (st_cb a + st_cb b) (st_ub a + st_ub b) (st_rb a + st_rb b).
(** [q] says what the patches [l] say, in order. *)
Record concatenates (l : list patch) (q : patch) : Prop := {
  cc_add_idx : pa_add_idx q = l ≫= pa_add_idx;
  cc_add_rec : pa_add_rec q = l ≫= pa_add_rec;
  cc_del_idx : pa_del_idx q = l ≫= pa_del_idx;
  cc_deleted : deleted_rows q = l ≫= deleted_rows;
  cc_added : added_rows q = l ≫= added_rows;
  cc_log : is_Some (pa_log q) ↔ ∃ p, p ∈ l ∧ is_Some (pa_log p);
  cc_stats : pa_stats q = foldl stats_add stats0 (pa_stats <$> l) }.
(** The manifests of a snapshot after applying one patch after the other. *)
Fixpoint apply_all (idx rec : list path) (l : list patch) : res (list path * list path) :=
  match l with
  | [] => Ok (idx, rec)
  | p :: l => rbind (patch_manifests idx rec p) (fun '(idx', rec') => apply_all idx' rec' l)
  end.
