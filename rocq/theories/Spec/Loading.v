(** What loading external files may write. *)
From Verif.Model Require Import System.
From Verif.Spec Require Export Api Layout Accounts.

(** Data files: Parquet index files and record files. *)
Definition data_path (p : path) : Prop := index_file p ∨ record_file p.
(** The rows of external record files as references: record [i] of file [p] has
    address (p, i). *)
Definition addressed (s : schema) (f : string) (index_fn : string → row) (p : path) (records : list string) : list row :=
  imap (fun i b => columns (names_of (s_fields s))
         (columns (filter (fun n => n ≠ f) (names_of (s_fields s))) (index_fn b) ++ [(f, CAddr p (Z.of_nat i))])) records.
