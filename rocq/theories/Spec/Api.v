(** What the user of a dataset sees: the result of calling a method of a handle,
    the system after the call, and the rows a full read returns. *)
From Verif.Model Require Export System.

Definition result {A} (σ : sys) (hid : nat) (m : H A) : option (res A) := (with_handle σ hid m).2.
Definition after {A} (σ : sys) (hid : nat) (m : H A) : sys := (with_handle σ hid m).1.

(** A full read of version [v] ([None] is the default) through handle [hid]
    returns [rows], whatever the batch size and however the reader chunks. *)
Definition reads (σ : sys) (hid : nat) (v : option version) (rows : list row) : Prop :=
  ∀ E b, result σ hid (run_read_all E None None v false b) = Some (Ok rows).

(** The schema of the dataset and the columns a full read shows: first those
    that are not record fields, then the record fields. *)
Definition schema_at (σ : sys) (hid : nat) : option schema :=
  (fun h => md_schema (h_meta h)) <$> y_handles σ !! hid.
Definition shown_order (s : schema) (ns : list string) : list string :=
  filter (fun n => n ∉ s_recs s) ns ++ filter (fun n => n ∈ s_recs s) ns.
Definition read_columns (s : schema) : list string := shown_order s (names_of (s_fields s)).
(** A row reduced to the columns [ns], in this order, and a row as a full read
    shows it. *)
Definition columns (ns : list string) (r : row) : row := (fun n => (n, default CNull (rget n r))) <$> ns.
Definition show (s : schema) (r : row) : row := columns (read_columns s) r.
