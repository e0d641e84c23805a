(** data_files: which files a filter selects. *)
From Verif.Model Require Import Storage Runner.
From Verif.Spec Require Import Logical.
From Verif.Proofs Require Import Lib World Resolve AppendSpec SchemaFacts ReadSpec Wf OpSpec Inv.

Definition mk_df (i : nat) (m : mrow) : data_file := DataFile (mr_path m) i (mrow_stats m) None None.
(** The manifests with a matching row: their number, path and matching rows. *)
Fixpoint picked (fs : fsys) (flt : option sexpr) (mans : list path) (i : nat)
    : list (nat * path * list mrow) :=
  match mans with
  | [] => []
  | p :: mans' =>
      match filter (fun m => mrow_matches flt m = true) (man_at fs p) with
      | [] => picked fs flt mans' i
      | ms => (i, p, ms) :: picked fs flt mans' (S i)
      end
  end.
Definition picked_files (l : list (nat * path * list mrow)) : list data_file :=
  l ≫= (fun x => mk_df x.1.1 <$> x.2).
Definition picked_mans (l : list (nat * path * list mrow)) (acc : gmap nat path) : gmap nat path :=
  foldl (fun m x => <[x.1.1 := x.1.2]> m) acc l.

Lemma read_idx_man_run fs w p ms :
  w_fs w = fs → fs !! p = Some (FIdxMan ms) → read_idx_man p w = (w, Ok ms).
Proof. intros <- Hp. unfold read_idx_man, read_file, bind. cbn. by rewrite Hp. Qed.

Lemma collect_files_run s w mans i flt acc :
  Forall (wf_man s (w_fs w)) mans →
  collect_files mans i flt acc w =
    (w, Ok (FileSet (fset_files acc ++ picked_files (picked (w_fs w) flt mans i))
                    (picked_mans (picked (w_fs w) flt mans i) (fset_mans acc)))).
Proof.
  intros Hm. revert i acc. induction Hm as [|p mans Hp _ IH]; intros i acc.
  - cbn. rewrite app_nil_r. by destruct acc.
  - apply wf_man_at in Hp as [Hp _]. cbn [collect_files picked].
    erewrite bind_run.
    2:{ unfold read_index_manifests. erewrite bind_run; [|by eapply read_idx_man_run]. reflexivity. }
    destruct (filter _ (man_at (w_fs w) p)) as [|m ms] eqn:Hf; cbn [fmap list_fmap]; [by rewrite IH|].
    rewrite IH. do 2 f_equal. f_equal. cbn. by rewrite <-!app_assoc.
Qed.

Lemma picked_ids fs flt mans i x : x ∈ picked fs flt mans i → i ≤ x.1.1.
Proof.
  revert i. induction mans as [|p mans IH]; intros i; cbn; [set_solver|].
  destruct (filter _ (man_at fs p)); [apply IH|]. intros [->|Hx]%elem_of_cons; [done|]. apply IH in Hx. lia.
Qed.
Lemma picked_nodup fs flt mans i : NoDup ((fun x => x.1.1) <$> picked fs flt mans i).
Proof.
  revert i. induction mans as [|p mans IH]; intros i; cbn; [constructor|].
  destruct (filter _ (man_at fs p)); [apply IH|]. rewrite fmap_cons. apply NoDup_cons. split; [|apply IH].
  intros (x&Hx&Hin)%elem_of_list_fmap. apply picked_ids in Hin. cbn in Hx. lia.
Qed.
Lemma picked_paths fs flt mans i : ((fun x => x.1.2) <$> picked fs flt mans i) `sublist_of` mans.
Proof.
  revert i. induction mans as [|p mans IH]; intros i; cbn; [done|].
  destruct (filter _ (man_at fs p)); [apply sublist_cons, IH|]. rewrite fmap_cons. apply sublist_skip, IH.
Qed.
Lemma picked_spec fs flt mans i x :
  x ∈ picked fs flt mans i →
  x.1.2 ∈ mans ∧ x.2 = filter (fun m => mrow_matches flt m = true) (man_at fs x.1.2) ∧ x.2 ≠ [].
Proof.
  revert i. induction mans as [|p mans IH]; intros i; cbn; [set_solver|].
  destruct (filter _ (man_at fs p)) as [|m ms] eqn:Hf.
  - intros Hx%IH. set_solver.
  - intros [->|Hx]%elem_of_cons; [cbn; rewrite Hf; set_solver|]. apply IH in Hx. set_solver.
Qed.
Lemma picked_complete fs flt mans i p m :
  p ∈ mans → m ∈ man_at fs p → mrow_matches flt m = true →
  ∃ x, x ∈ picked fs flt mans i ∧ x.1.2 = p ∧ m ∈ x.2.
Proof.
  revert i. induction mans as [|q mans IH]; intros i; cbn; [set_solver|].
  intros Hp Hm Hmt. destruct (filter _ (man_at fs q)) as [|m0 ms] eqn:Hf.
  - apply elem_of_cons in Hp as [->|Hp]; [|by apply IH].
    assert (Hin : m ∈ filter (fun m => mrow_matches flt m = true) (man_at fs q)) by (by apply elem_of_list_filter).
    rewrite Hf in Hin. set_solver.
  - apply elem_of_cons in Hp as [->|Hp].
    + exists (i, q, m0 :: ms). split; [set_solver|]. split; [done|]. cbn. rewrite <-Hf. by apply elem_of_list_filter.
    + destruct (IH (S i) Hp Hm Hmt) as (x&Hx&?&?). exists x. set_solver.
Qed.
Lemma picked_mans_lookup l acc i :
  NoDup ((fun x : nat * path * list mrow => x.1.1) <$> l) →
  picked_mans l acc !! i =
    match list_find (fun x : nat * path * list mrow => x.1.1 = i) l with
    | Some (_, x) => Some x.1.2 | None => acc !! i end.
Proof.
  unfold picked_mans. revert acc. induction l as [|x l IH]; intros acc Hnd; [done|].
  rewrite fmap_cons in Hnd. apply NoDup_cons in Hnd as [Hx Hnd]. cbn [foldl list_find]. rewrite IH by done.
  case_decide as Hi.
  - destruct (list_find _ l) as [[k y]|] eqn:Hl.
    + apply list_find_Some in Hl as (Hk&Hy&_). exfalso. apply Hx. rewrite Hi, <-Hy.
      apply elem_of_list_fmap. exists y. split; [done|]. by eapply elem_of_list_lookup_2.
    + subst. by rewrite lookup_insert.
  - destruct (list_find _ l) as [[k y]|] eqn:Hl; cbn; [done|]. by rewrite lookup_insert_ne.
Qed.
Lemma picked_mans_in l x :
  NoDup ((fun x : nat * path * list mrow => x.1.1) <$> l) → x ∈ l → picked_mans l ∅ !! x.1.1 = Some x.1.2.
Proof.
  intros Hnd Hx. rewrite picked_mans_lookup by done.
  destruct (list_find _ l) as [[k y]|] eqn:Hl.
  - apply list_find_Some in Hl as (Hk&Hy&_). apply elem_of_list_lookup in Hx as [j Hj].
    assert (k = j) as ->; [|congruence].
    eapply (NoDup_lookup _ k j (x.1.1)); [done| |].
    + rewrite list_lookup_fmap, Hk. cbn. by rewrite Hy.
    + by rewrite list_lookup_fmap, Hj.
  - apply list_find_None in Hl. eapply Forall_forall in Hl; [|exact Hx]. done.
Qed.
Lemma picked_mans_inv l i p :
  NoDup ((fun x : nat * path * list mrow => x.1.1) <$> l) → picked_mans l ∅ !! i = Some p →
  ∃ x, x ∈ l ∧ x.1.1 = i ∧ x.1.2 = p.
Proof.
  intros Hnd. rewrite picked_mans_lookup by done.
  destruct (list_find _ l) as [[k y]|] eqn:Hl; [|by rewrite lookup_empty].
  apply list_find_Some in Hl as (Hk&Hy&_). intros [= <-]. exists y. split_and!; try done.
  by eapply elem_of_list_lookup_2.
Qed.

(** Without a filter all files are listed. *)
Lemma picked_all fs mans i : (picked fs None mans i ≫= (fun x => x.2)) = mans ≫= man_at fs.
Proof.
  revert i. induction mans as [|p mans IH]; intros i; [done|]. cbn [picked].
  assert (Hf : filter (fun m => mrow_matches None m = true) (man_at fs p) = man_at fs p).
  { induction (man_at fs p) as [|m ms IHm]; [done|]. rewrite filter_cons, decide_True by done. by rewrite IHm. }
  rewrite Hf, (bind_cons (man_at fs)). destruct (man_at fs p) as [|m ms]; [by rewrite IH|]. rewrite bind_cons, IH. done.
Qed.
Lemma picked_filter fs flt mans i :
  (picked fs flt mans i ≫= (fun x => x.2)) = filter (fun m => mrow_matches flt m = true) (mans ≫= man_at fs).
Proof.
  revert i. induction mans as [|p mans IH]; intros i; [done|]. cbn [picked].
  rewrite (bind_cons (man_at fs)), filter_app.
  destruct (filter _ (man_at fs p)) as [|m ms]; [by rewrite IH|]. rewrite bind_cons, IH. done.
Qed.

Definition fset_at (fs : fsys) (flt : option sexpr) (mans : list path) : file_set :=
  FileSet (picked_files (picked fs flt mans 1)) (picked_mans (picked fs flt mans 1) ∅).
Lemma fset_files_filter fs flt mans :
  df_path <$> fset_files (fset_at fs flt mans)
  = mr_path <$> filter (fun m => mrow_matches flt m = true) (mans ≫= man_at fs).
Proof.
  cbn. rewrite <-(picked_filter fs flt mans 1). generalize (picked fs flt mans 1). intros l.
  induction l as [|x l IH]; [done|]. unfold picked_files in *. rewrite !bind_cons, !fmap_app, IH.
  f_equal. rewrite <-list_fmap_compose. by apply list_fmap_ext.
Qed.

(** data_files on an up-to-date handle. *)
Definition man_filter (s : schema) (flt : option filter_expr) : res (option sexpr) :=
  match flt with None => Ok None | Some e => build_manifest_filter (fenv_of s) e end.
Lemma data_files_run s h w flt sid :
  wf_meta s (w_fs w) (h_meta h) →
  data_files flt sid (h, w) =
    ((h, w), match get_snapshot h sid with
             | Err e => Err e
             | Ok sn => rmap (fun mf => fset_at (w_fs w) mf (sn_idx sn)) (man_filter s flt)
             end).
Proof.
  intros Hm. unfold data_files. rewrite get_handle_bind, lift_bind.
  destruct (get_snapshot h sid) as [sn|e] eqn:Hsn; [|done]. rewrite lift_bind.
  rewrite (wm_schema _ _ _ Hm). unfold man_filter.
  destruct (match flt with None => _ | Some _ => _ end) as [mf|e]; [|done].
  assert (Hwf : wf_snap s (w_fs w) sn).
  { unfold get_snapshot in Hsn. apply rbind_ok in Hsn as (i&_&Hi). apply of_opt_ok in Hi.
    by apply (wm_snaps _ _ _ Hm) in Hi as (_&?&_). }
  erewrite liftM_run; [|apply (collect_files_run s); apply Hwf]. done.
Qed.

Lemma fset_listed s w flt mans :
  Forall (wf_man s (w_fs w)) mans → Forall (listed s w) (fset_files (fset_at (w_fs w) flt mans)).
Proof.
  intros Hm. apply Forall_forall. intros df Hdf. cbn in Hdf.
  apply elem_of_list_bind in Hdf as (x&Hdf&Hx). apply elem_of_list_fmap in Hdf as (m&->&Hmx).
  apply picked_spec in Hx as (Hp&Hf&_). rewrite Hf in Hmx. apply elem_of_list_filter in Hmx as [_ Hmx].
  eapply Forall_forall in Hm; [|exact Hp]. apply wf_man_at in Hm as [_ Hm].
  eapply Forall_forall in Hm; [|exact Hmx]. split_and!; [done..|]. exists m. done.
Qed.
Lemma fset_mans_wf s w flt mans i q :
  Forall (wf_man s (w_fs w)) mans → fset_mans (fset_at (w_fs w) flt mans) !! i = Some q → wf_man s (w_fs w) q.
Proof.
  intros Hm Hq. cbn in Hq. apply picked_mans_inv in Hq as (x&Hx&_&<-); [|apply picked_nodup].
  apply picked_spec in Hx as (Hp&_). by eapply Forall_forall in Hm.
Qed.
