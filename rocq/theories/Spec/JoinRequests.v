(** What may be asked of a join. *)
From Verif.Model Require Export Join.

(** A list of columns names one besides the key, and only columns of the side.
    Without a list all columns are meant. *)
Definition names_more (key : string) (fields : option (list string)) : Prop :=
  match fields with None => True | Some l => ∃ n, n ∈ l ∧ n ≠ key end.
Definition names_known (s : schema) (key : string) (fields : option (list string)) : Prop :=
  match fields with None => True | Some l => ∀ n, n ∈ l → n = key ∨ n ∈ s_names s end.
(** A join may be asked for on one key, a primary key of both sides and a column
    of both (a map may drop it), with such lists. *)
Definition valid_request (sl sr : schema) (keys : list string) (lf rf : option (list string)) : Prop :=
  ∃ key, keys = [key] ∧ key ∈ s_pks sl ∧ key ∈ s_pks sr ∧ key ∈ s_names sl ∧ key ∈ s_names sr
    ∧ names_more key lf ∧ names_more key rf ∧ names_known sl key lf ∧ names_known sr key rf.
(** The columns asked for on a side, without the key. *)
Definition wanted (key : string) (s : schema) (fields : option (list string)) : list string :=
  filter (fun n => n ≠ key) (default (s_names s) fields).
(** What is accepted: the lists are neither empty nor the key alone, and besides
    the key they name columns of their side; a side that reads addresses may also
    name record fields asked for on either side. *)
Definition asked (s : schema) (fields : option (list string)) : list string := default (s_names s) fields.
Definition record_asked (sl sr : schema) (lf rf : option (list string)) (n : string) : Prop :=
  (n ∈ s_recs sl ∧ n ∈ asked sl lf) ∨ (n ∈ s_recs sr ∧ n ∈ asked sr rf).
Definition accepted_request (sl sr : schema) (keys : list string) (lf rf : option (list string)) (lref rref : bool) : Prop :=
  ∃ key, keys = [key] ∧ key ∈ s_pks sl ∧ key ∈ s_pks sr ∧ key ∈ s_names sl
    ∧ lf ≠ Some [] ∧ lf ≠ Some [key] ∧ rf ≠ Some [] ∧ rf ≠ Some [key]
    ∧ ∀ n, n ≠ key →
        (n ∈ asked sl lf → n ∈ s_names sl ∨ (lref = true ∧ record_asked sl sr lf rf n))
        ∧ (n ∈ asked sr rf → n ∈ s_names sr ∨ (rref = true ∧ record_asked sl sr lf rf n)).
