(** C40: stored relative paths resolve to the same file.  [place cwd p] is
    where [p] leads from the root when the working directory is [cwd]. *)
From Verif.Spec Require Import Places FileNames.
From Verif.Proofs Require Import PathFacts.

(** A path of names below the location is stored as those names, and read back
    as the same string. *)
Theorem C40_round_trip : ∀ cwd location names,
  abs_path cwd → names ≠ [] → Forall plain_name names →
  short_path cwd location (join location (unsplit names)) = Ok (unsplit names)
  ∧ full_path location (unsplit names) = join location (unsplit names).
Proof. intros. split; [by apply short_below|done]. Qed.
Print Assumptions C40_round_trip.

(** Any path at all has a stored form, which leads to the same place. *)
Theorem C40_same_place : ∀ cwd location p,
  abs_path cwd → p ≠ "" →
  ∃ s, short_path cwd location p = Ok s ∧ place cwd (full_path location s) = place cwd p.
Proof.
  intros cwd location p Hc Hp. destruct (short_total cwd location p Hp) as [s Hs].
  exists s. split; [done|]. by eapply short_full_place.
Qed.
Print Assumptions C40_same_place.

(** An external file given by an absolute path is opened where the user said. *)
Theorem C40_external_absolute_partial : ∀ location f,
  abs_path f → open_external location f = f.
Proof. intros location f Hf. unfold open_external, full_path, join. by rewrite Hf. Qed.
Print Assumptions C40_external_absolute_partial.

(** Given by a relative path it is not: it is looked for below the location
    instead of below the working directory. *)
Theorem C40_external_relative : ∀ cwd location f,
  ¬ abs_path f → place cwd (open_external location f) = walk (place cwd location) f.
Proof. exact open_relative. Qed.
Print Assumptions C40_external_relative.
Theorem C40_external_relative_iff : ∀ cwd location f,
  ¬ abs_path f → Forall (λ x, x ≠ "..") (split f) →
  place cwd (open_external location f) = place cwd f ↔ place cwd location = walk [] cwd.
Proof. exact open_relative_iff. Qed.
Print Assumptions C40_external_relative_iff.
Theorem C40_refuted : ∃ cwd location f, abs_path cwd ∧ f ≠ "" ∧ place cwd (open_external location f) ≠ place cwd f.
Proof. exists "/home/u", "/data/ds", "in/a.parquet". split; [done|]. split; [done|]. by vm_compute. Qed.
Print Assumptions C40_refuted.

(** Files created with different UUIDs never share a place, whatever their
    kinds, the fields they are named after and the locations. *)
Theorem C40_created_apart : ∀ cwd location location' k k' u u' p p',
  uuid_like u → uuid_like u' → u ≠ u' →
  created_path location k u = Some p → created_path location' k' u' = Some p' →
  place cwd p ≠ place cwd p'.
Proof. exact created_distinct. Qed.
Print Assumptions C40_created_apart.
Theorem C40_created_not_entry : ∀ cwd location location' k u p,
  uuid_like u → created_path location k u = Some p → place cwd p ≠ place cwd (entry_point_path location').
Proof. exact created_not_entry. Qed.
Print Assumptions C40_created_not_entry.

Example C40_case_below : short_path "/home/u" "ds/" (join "ds/" (unsplit ["data"; "index_1.parquet"])) = Ok "data/index_1.parquet"
  ∧ full_path "ds/" "data/index_1.parquet" = "ds/data/index_1.parquet"
  ∧ Forall plain_name ["data"; "index_1.parquet"] ∧ abs_path "/home/u".
Proof. split; [by vm_compute|]. split; [by vm_compute|]. split; [|done]. apply (bool_decide_unpack _). by vm_compute. Qed.
Example C40_case_away : short_path "/home/u" "/data//ds/." "x/../y.parquet" = Ok "../../home/u/y.parquet"
  ∧ place "/home/u" (full_path "/data//ds/." "../../home/u/y.parquet") = ["home"; "u"; "y.parquet"].
Proof. split; by vm_compute. Qed.
Example C40_case_external : open_external "ds" "/in/a.parquet" = "/in/a.parquet" ∧ place "/home/u" (open_external "ds" "in/a.parquet") = ["home"; "u"; "ds"; "in"; "a.parquet"]
  ∧ Forall (λ x, x ≠ "..") (split "in/a.parquet").
Proof. split; [done|]. split; [by vm_compute|]. apply (bool_decide_unpack _). by vm_compute. Qed.
Example C40_case_created : ∃ u u' p p', uuid_like u ∧ uuid_like u' ∧ u ≠ u'
  ∧ created_path "/ds" KIndex u = Some p ∧ created_path "/ds" (KRecord "a/../b") u' = Some p'
  ∧ place "/" p' = ["ds"; "data"; "b_123e4567-e89b-42d3-a456-426614174001.array_record"].
Proof.
  exists "123e4567-e89b-42d3-a456-426614174000", "123e4567-e89b-42d3-a456-426614174001". do 2 eexists.
  split; [split; [done|]; apply (bool_decide_unpack _); by vm_compute|].
  split; [split; [done|]; apply (bool_decide_unpack _); by vm_compute|].
  split; [done|]. split; [done|]. split; [done|]. by vm_compute.
Qed.
