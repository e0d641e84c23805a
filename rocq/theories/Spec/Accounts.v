(** What the patch of an append must say about the files written. *)
From Verif.Model Require Import System.

(** A file that was not there before and is there afterwards. *)
Definition written (w w' : world) (f : path) : Prop := w_fs w !! f = None ∧ is_Some (w_fs w' !! f).
Definition index_file (f : path) : Prop := ∃ u, f = PGen KIndex u.
Definition record_file (f : path) : Prop := ∃ field u, f = PGen (KRecord field) u.

(** The entries [ms] of an index manifest name exactly the index files
    written, each once and with its true number of rows. *)
Definition lists_index_files (w w' : world) (ms : list mrow) : Prop :=
  NoDup (mr_path <$> ms)
  ∧ (∀ f, f ∈ mr_path <$> ms ↔ index_file f ∧ written w w' f)
  ∧ (∀ m, m ∈ ms → ∃ cols groups, w_fs w' !! mr_path m = Some (FIndex cols groups)
       ∧ mr_rows m = Z.of_nat (length (concat groups))).
(** The same for record files. *)
Definition lists_record_files (w w' : world) (rms : list rmrow) : Prop :=
  NoDup (rm_path <$> rms)
  ∧ (∀ f, f ∈ rm_path <$> rms ↔ record_file f ∧ written w w' f)
  ∧ (∀ m, m ∈ rms → ∃ records, w_fs w' !! rm_path m = Some (FRecord records)
       ∧ rm_rows m = Z.of_nat (length records)).

(** A patch that accounts for [n] appended rows. *)
Definition accounts (w w' : world) (n : nat) (p : patch) : Prop :=
  (∃ q ms, pa_add_idx p = [q] ∧ w_fs w' !! q = Some (FIdxMan ms) ∧ lists_index_files w w' ms
     ∧ pa_log p = Some (ChangeLog [] ((fun m => RowBitmap (mr_path m) true (mr_rows m) []) <$> ms))
     ∧ Zsum (mr_rows <$> ms) = Z.of_nat n)
  ∧ (∃ rms, lists_record_files w w' rms
       ∧ ((rms = [] ∧ pa_add_rec p = []) ∨ ∃ q, pa_add_rec p = [q] ∧ w_fs w' !! q = Some (FRecMan rms)))
  ∧ pa_del_idx p = []
  ∧ st_rows (pa_stats p) = Z.of_nat n.
