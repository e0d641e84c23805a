(** Byte sizes recorded for snapshots and for their files. *)
From Verif.Spec Require Export Deletion Changes.

(** The sizes kept per file and per snapshot: compressed and uncompressed bytes. *)
Definition index_sizes : list ((mrow → Z) * (stats → Z)) := [(mr_cb, st_cb); (mr_ub, st_ub)].
(** By how much a snapshot's statistic exceeds the sum over its files. *)
Definition excess (sz : (mrow → Z) * (stats → Z)) (fs : fsys) (sn : snapshot) : Z :=
  sz.2 (sn_stats sn) - sum_of (sz.1 <$> files_of fs sn).

(** Files of the manifests in which a delete rewrites a file, and those of them
    that are lost with it (see Spec/Deletion.v). *)
Section gone.
Context (fs : fsys) (qs : list path) (cs : list path) (e : filter_expr) (mans : list (list (path * list row))).
Definition gone_files : list mrow :=
  (fst <$> filter (fun qm => Exists (rewritten cs e) qm.2) (zip qs mans)) ≫= manifest_rows fs.
Definition lost_files : list mrow :=
  match kept_rows cs e mans with
  | [] => filter (fun m => mr_path m ∉ fst <$> filter (rewritten cs e) (concat mans)) gone_files
  | _ => []
  end.
End gone.
(** Every candidate file has a row to remove, and a manifest with such a file has
    no others. *)
Definition rewrites_whole (cs : list path) (e : filter_expr) (mans : list (list (path * list row))) : Prop :=
  Forall (fun f => f.1 ∈ cs → rewritten cs e f) (concat mans)
  ∧ Forall (fun man => Exists (rewritten cs e) man → Forall (rewritten cs e) man) mans.
