(** The place in the directory tree that a path names: the names on the way
    from the root.  Symbolic links are not considered. *)
From Verif.Model Require Export Paths.

Definition walk_step (here : list string) (name : string) : list string :=
  if decide (name = "" ∨ name = ".") then here
  else if decide (name = "..") then take (pred (length here)) here
  else here ++ [name].
Definition abs_path (p : string) : Prop := starts_slash p = true.
(** From directory [here], follow the names between the slashes of [p]. *)
Definition walk (here : list string) (p : string) : list string := foldl walk_step here (split p).
(** A path starting with a slash starts at the root, any other at [cwd]. *)
Definition place (cwd p : string) : list string :=
  if starts_slash p then walk [] p else walk (walk [] cwd) p.

(** A name that a single file or directory can have. *)
Definition plain_name (s : string) : Prop :=
  s ≠ "" ∧ s ≠ "." ∧ s ≠ ".." ∧ slash ∉ String.list_ascii_of_string s.
Global Instance plain_name_dec s : Decision (plain_name s).
Proof. unfold plain_name. apply _. Defined.
