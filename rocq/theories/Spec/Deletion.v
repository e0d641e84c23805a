(** What a delete leaves, file by file.  A file is a path with its rows. *)
From Verif.Spec Require Export Candidates.

(** The current rows cut into manifests and files. *)
Definition cut_like (fs : fsys) (q : path) (man : list (path * list row)) : Prop :=
  Forall2 (fun m f => f.1 = mr_path m ∧ length f.2 = length (file_table fs (mr_path m))) (manifest_rows fs q) man.
Definition rows_of (files : list (path * list row)) : list row := concat (snd <$> files).
Definition divides (σ : sys) (hid : nat) (before : list row) (mans : list (list (path * list row))) : Prop :=
  ∃ sn, current σ hid = Some sn
    ∧ Forall2 (cut_like (w_fs (y_world σ))) (sn_idx sn) mans
    ∧ rows_of (concat mans) = before.

(** A delete rewrites the files among [cs] that have a row on which "not [e]" is
    not true.  Manifests without such files stay.  Of the others, rows on which
    "not [e]" is true are kept, and so are the files that are not rewritten,
    unless no row of a rewritten file is kept: then these files are lost. *)
Section deletion.
Context (cs : list path) (e : filter_expr).
Definition stays (r : row) : Prop := matches (EUn FnNot e) r = true.
Definition rewritten (f : path * list row) : Prop := f.1 ∈ cs ∧ Exists (fun r => ¬ stays r) f.2.
#[global] Instance stays_dec r : Decision (stays r) := _.
#[global] Instance rewritten_dec f : Decision (rewritten f) := _.
Definition kept_rows (mans : list (list (path * list row))) : list row :=
  filter stays (rows_of (filter rewritten (concat mans))).
Definition remaining (mans : list (list (path * list row))) : list row :=
  rows_of (concat (filter (fun man => ¬ Exists rewritten man) mans))
  ++ match kept_rows mans with
     | [] => []
     | kept => rows_of (filter (fun f => ¬ rewritten f) (concat (filter (Exists rewritten) mans))) ++ kept
     end.

(** A distributed delete rewrites each file on its own: for every rewritten file
    of which a row is kept, the manifest comes back without this file, together
    with the rows kept of it. *)
Definition alone (man : list (path * list row)) (f : path * list row) : list row :=
  match filter stays f.2 with
  | [] => []
  | kept => rows_of (filter (fun g => g.1 ≠ f.1) man) ++ kept
  end.
Definition apart_remaining (mans : list (list (path * list row))) : list row :=
  rows_of (concat (filter (fun man => ¬ Exists rewritten man) mans))
  ++ (mans ≫= (fun man => filter rewritten man ≫= alone man)).
End deletion.
