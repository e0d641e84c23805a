(** C49: a catalog lists and loads what was created.  [tr] is any sequence of
    calls on any storages of the machine; [disk_run cwd tr] is what they leave
    behind; [entries] is what os.listdir returns. *)
From Verif.Spec Require Import Api Fixture Durable SchemaSpec Catalogs.
From Verif.Proofs Require Import PathFacts Catalogs Witness.

(** The names listed are the single directory names under which a dataset was
    created in the catalog.  (Names with slashes are missing.) *)
Theorem C49_lists_created_partial : ∀ cwd catalog tr entries n,
  allowed cwd tr → creates_finish tr → lists_dir cwd catalog (disk_run cwd tr) entries →
  n ∈ (datasets cwd catalog entries (disk_run cwd tr)).*1
  ↔ plain_name n ∧ ∃ fs pks recs, created cwd tr (place cwd (dataset_location catalog n)) fs pks recs.
Proof. exact listed_iff. Qed.
Print Assumptions C49_lists_created_partial.
(** Also when processes die: what was created is listed, with its location. *)
Theorem C49_created_listed : ∀ cwd catalog tr entries n fs pks recs,
  allowed cwd tr → lists_dir cwd catalog (disk_run cwd tr) entries → plain_name n →
  created cwd tr (place cwd (dataset_location catalog n)) fs pks recs →
  (n, dataset_location catalog n) ∈ datasets cwd catalog entries (disk_run cwd tr).
Proof. exact created_listed. Qed.
Print Assumptions C49_created_listed.
Theorem C49_listed_once : ∀ cwd catalog entries D,
  lists_dir cwd catalog D entries → NoDup (datasets cwd catalog entries D).*1.
Proof. exact listed_once. Qed.
Print Assumptions C49_listed_once.

(** A dataset created under a name with a slash can be loaded by that name but
    is never listed. *)
Theorem C49_refuted : ∃ cwd catalog tr n fs pks recs,
  allowed cwd tr ∧ created cwd tr (place cwd (dataset_location catalog n)) fs pks recs
  ∧ (∃ h, dataset cwd catalog n (disk_run cwd tr) = Ok h)
  ∧ ∀ entries, lists_dir cwd catalog (disk_run cwd tr) entries → n ∉ (datasets cwd catalog entries (disk_run cwd tr)).*1.
Proof.
  set (tr := [("/cat/a/b", ex_create)] : trace). exists "/", "/cat", tr, "a/b", ex_fields, ["k"], ["r"].
  assert (allowed "/" tr) as Hal.
  { apply (AllowedStep "/" [] "/cat/a/b" ex_create); [constructor|]. apply (bool_decide_unpack _). by vm_compute. }
  assert (created "/" tr (place "/" (dataset_location "/cat" "a/b")) ex_fields ["k"] ["r"]) as Hc.
  { eexists [], "/cat/a/b", 0, [], _. split; [done|]. split; by vm_compute. }
  split; [done|]. split; [done|]. split.
  - destruct (load_created _ _ _ _ _ _ _ Hal Hc) as (h & Hh & _). by exists h.
  - intros entries Hl ([n l] & Hn & (Hp & _)%(in_datasets _ _ _ _ _ _ Hl))%elem_of_list_fmap. cbn in Hn. subst n.
    destruct Hp as (_ & _ & _ & Hp). apply Hp. apply (bool_decide_unpack _). by vm_compute.
Qed.
Print Assumptions C49_refuted.

(** Loading a created name returns that dataset: the metadata now stored at its
    location, with the fields, keys and record fields it was created with. *)
Theorem C49_load_returns_it : ∀ cwd catalog tr n fs pks recs,
  allowed cwd tr → created cwd tr (place cwd (dataset_location catalog n)) fs pks recs →
  ∃ h, dataset cwd catalog n (disk_run cwd tr) = Ok h
    ∧ stored_meta (w_fs (y_world (storage_at (disk_run cwd tr) (place cwd (dataset_location catalog n))))) = Some (h_meta h)
    ∧ Forall2 (fun f g => f_name f = f_name g ∧ bare_ty (f_ty f) = bare_ty (f_ty g)) (s_fields (md_schema (h_meta h))) fs
    ∧ s_pks (md_schema (h_meta h)) = pks ∧ s_recs (md_schema (h_meta h)) = recs.
Proof. exact load_created. Qed.
Print Assumptions C49_load_returns_it.
(** Loading a name raises StorageNotFoundError exactly when it was not created. *)
Theorem C49_load_missing : ∀ cwd catalog tr n,
  allowed cwd tr → creates_finish tr →
  dataset cwd catalog n (disk_run cwd tr) = Err (EUser UStorageNotFound)
  ↔ ¬ ∃ fs pks recs, created cwd tr (place cwd (dataset_location catalog n)) fs pks recs.
Proof. exact load_missing. Qed.
Print Assumptions C49_load_missing.

(** Creating an existing name fails, with StorageExistError when the arguments
    are acceptable, and leaves every dataset as it was. *)
Theorem C49_create_existing : ∀ cwd catalog tr n hid fs pks recs fs0 pks0 recs0,
  allowed cwd tr → created cwd tr (place cwd (dataset_location catalog n)) fs0 pks0 recs0 → NoDup (names_of fs) →
  (∃ e, (create_dataset cwd catalog n (disk_run cwd tr) hid fs pks recs).2 = Err e)
  ∧ (valid_schema fs pks recs → forallb (fun f => storable (f_ty f)) fs = true →
     (create_dataset cwd catalog n (disk_run cwd tr) hid fs pks recs).2 = Err (EUser UStorageExists))
  ∧ ∀ p, same_storage (storage_at (create_dataset cwd catalog n (disk_run cwd tr) hid fs pks recs).1 p) (storage_at (disk_run cwd tr) p).
Proof. exact recreate. Qed.
Print Assumptions C49_create_existing.

(** Two datasets, one created twice and written to, in a relative catalog. *)
Definition C49_trace : trace := [("cat/x", ex_create); ("cat/y", ex_create); ("./cat//x", ex_create); ("cat/x", ex_append)].
Example C49_case : ∃ D, D = disk_run "/u" C49_trace ∧ allowed "/u" C49_trace ∧ creates_finish C49_trace
  ∧ lists_dir "/u" "cat" D ["y"; "notes"; "x"]
  ∧ datasets "/u" "cat" ["y"; "notes"; "x"] D = [("y", "cat/y"); ("x", "cat/x")]
  ∧ created "/u" C49_trace (place "/u" (dataset_location "cat" "x")) ex_fields ["k"] ["r"].
Proof.
  exists (disk_run "/u" C49_trace). split; [done|].
  assert (allowed "/u" C49_trace) as Hal.
  { apply (AllowedStep "/u" [("cat/x", ex_create); ("cat/y", ex_create); ("./cat//x", ex_create)] "cat/x" ex_append).
    - apply (AllowedStep "/u" [("cat/x", ex_create); ("cat/y", ex_create)] "./cat//x" ex_create).
      + apply (AllowedStep "/u" [("cat/x", ex_create)] "cat/y" ex_create).
        * apply (AllowedStep "/u" [] "cat/x" ex_create); [constructor|]. apply (bool_decide_unpack _). by vm_compute.
        * apply (bool_decide_unpack _). by vm_compute.
      + apply (bool_decide_unpack _). by vm_compute.
    - intros h _. exact I. }
  assert (creates_finish C49_trace) as Hf by (apply (bool_decide_unpack _); by vm_compute).
  split; [done|]. split; [done|]. split; [|split].
  - split; [apply (bool_decide_unpack _); by vm_compute|]. split; [apply (bool_decide_unpack _); by vm_compute|].
    intros n Hn Hd. destruct (entry_created _ _ _ Hal Hf Hd) as (fs & pks & recs & b & loc & hid & a & h & Htr & Hp & _).
    assert ((loc, CCreate hid fs pks recs) ∈ C49_trace) as Hin by (rewrite Htr, elem_of_app; right; left).
    assert (n = "x" ∨ n = "y") as [-> | ->]; [|apply (bool_decide_unpack _); by vm_compute..].
    unfold C49_trace in Hin. rewrite !elem_of_cons in Hin.
    destruct Hin as [E|[E|[E|[E|E%elem_of_nil]]]]; [| | | |done]; injection E as ->; try done;
      apply (f_equal last) in Hp; rewrite last_snoc in Hp; vm_compute in Hp; injection Hp; auto.
  - by vm_compute.
  - eexists [], "cat/x", 0, _, _. split; [done|]. split; by vm_compute.
Qed.
