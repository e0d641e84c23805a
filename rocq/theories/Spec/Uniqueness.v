(** Datasets modified by insert, upsert and delete only. *)
From Verif.Spec Require Export Separable Layout Changes.

(** Inserted rows have keys that are neither null nor NaN. *)
Definition keyed_op (s : schema) (fs : fsys) (sn : snapshot) (o : op) : Prop :=
  match o with
  | OInsert _ data | ORayInsert _ _ data => proper_keys (s_pks s) data
  | ODelete _ => True
  | ORayDelete _ => separate_op s fs sn o
  | _ => False
  end.
