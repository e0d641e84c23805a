(** LocalRunner.read on a stored dataset. *)
From Verif.Model Require Import System.
From Verif.Spec Require Import Logical.
From Verif.Proofs Require Import Lib World Resolve AppendSpec SchemaFacts ReadSpec Wf OpSpec Inv FileSet Ops Bodies Txn.

(** The snapshot a version argument names, on branch [b]. *)
Definition version_id (m : metadata) (b : string) (v : option version) : option Z :=
  match v with
  | None => head_of m b
  | Some (VId i) => Some i
  | Some (VName n) => rf_id <$> md_refs m !! n
  end.
Definition snap_of (m : metadata) (b : string) (v : option version) : option snapshot :=
  i ← version_id m b v; md_snaps m !! i.
Lemma snap_of_wf s fs m b v sn : wf_meta s fs m → snap_of m b v = Some sn → wf_snap s fs sn.
Proof.
  intros Hm. unfold snap_of. destruct (version_id m b v); [|done]. cbn.
  intros Hi. by apply (wm_snaps _ _ _ Hm) in Hi as (_&?&_).
Qed.

Definition picked_rows (fs : fsys) (mf : option sexpr) (sn : snapshot) : list row :=
  man_rows fs (filter (fun m => mrow_matches mf m = true) (snap_mrows fs sn)).
Definition filter_rows (flt : option filter_expr) (rows : list row) : list row :=
  match flt with None => rows | Some e => filter (fun r => matches e r = true) rows end.
Lemma picked_rows_none fs sn : picked_rows fs None sn = phys_rows fs sn.
Proof.
  unfold picked_rows, phys_rows. f_equal. generalize (snap_mrows fs sn). intros l.
  induction l as [|m l IH]; [done|]. rewrite filter_cons, decide_True by done. by rewrite IH.
Qed.
Lemma man_rows_bind fs ms : man_rows fs ms = ms ≫= (fun m => file_rows fs (mr_path m)).
Proof. done. Qed.
Lemma files_rows fs mf sn flt :
  fset_files (fset_at fs mf (sn_idx sn)) ≫= (fun df => pick_rows flt df (file_rows fs (df_path df)))
  = filter_rows flt (picked_rows fs mf sn).
Proof.
  unfold picked_rows, snap_mrows. rewrite <-(picked_filter fs mf (sn_idx sn) 1). cbn.
  generalize (picked fs mf (sn_idx sn) 1). intros l.
  induction l as [|[[i p] ms] l IH].
  - by destruct flt.
  - unfold picked_files in *. rewrite !bind_cons, bind_app, IH. cbn [fst snd].
    rewrite man_rows_app.
    assert (Hf : ∀ a b, filter_rows flt (a ++ b) = filter_rows flt a ++ filter_rows flt b).
    { intros. destruct flt; cbn; [by rewrite filter_app|done]. }
    rewrite Hf. f_equal. clear IH. induction ms as [|m ms IHm]; [by destruct flt|].
    rewrite fmap_cons, bind_cons, IHm, man_rows_cons, Hf. by f_equal; destruct flt.
Qed.

Definition read_names (s : schema) (fields : option (list string)) : list string :=
  default (s_names s) fields.
Lemma selected_names s flt fields sid ref b :
  selected_fields s (ReadOpts flt fields sid ref b) = read_names s fields.
Proof. unfold selected_fields, read_names. cbn. by rewrite phys_names. Qed.

Lemma run_read_run E flt fields v ref b s h w p m :
  winv s w → wf_handle s w h → stored (w_fs w) p m → wf_meta s (w_fs w) m →
  ∃ r, run_read E flt fields v ref b (h, w) = ((sync p m h, w), r)
  ∧ match snap_of m (h_branch h) v with
    | None => r = Err (EUser UVersionNotFound)
    | Some sn =>
        match man_filter s flt with
        | Err e => r = Err e
        | Ok mf =>
            (∀ n, n ∈ read_names s fields → n ∈ s_names s) →
            let rows := filter_rows flt (picked_rows (w_fs w) mf sn) in
            ∃ ts lrows, r = Ok ts
              ∧ resolve_rows (records_in (w_fs w)) (s_recs s) rows = Some lrows
              ∧ (if ref then tsel (read_names s fields) rows = Ok (concat ts)
                 else tsel (read_order s (read_names s fields)) lrows = Ok (concat ts)
                      ∧ Forall (fun t => length t ≤ batch_size b) ts)
        end
    end.
Proof.
  intros Hi Hh Hst Hm. destruct (sync_spec s w p m h Hst Hm Hh) as (Hh0&Hm0&Hf0&Hb0&Hmax).
  unfold run_read. erewrite bind_run; [|by apply reload_run]. rewrite get_handle_bind, lift_bind.
  set (h0 := sync p m h) in *.
  set (sid := match v with None => Ok None | Some v => rmap Some (version_to_snapshot_id h0 v) end).
  assert (Hsid : match sid with
    | Err e => e = EUser UVersionNotFound ∧ snap_of m (h_branch h) v = None
    | Ok i => get_snapshot h0 i = of_opt (EUser UVersionNotFound) (snap_of m (h_branch h) v)
    end).
  { unfold sid, snap_of, version_id, get_snapshot, version_to_snapshot_id, lookup_reference, head_of.
    rewrite Hm0, Hb0. destruct v as [[i|n]|]; cbn.
    - done.
    - destruct (md_refs m !! n); cbn; done.
    - case_decide; cbn; [done|]. by destruct (md_refs m !! h_branch h). }
  destruct sid as [sid'|e] eqn:Hs; clear Hs.
  2:{ destruct Hsid as [-> ->]. eexists. split; done. }
  erewrite bind_run'; [|by apply (data_files_run s); rewrite Hm0]. rewrite Hsid.
  destruct (snap_of m (h_branch h) v) as [sn|] eqn:Hsn; [|by eexists].
  cbn [of_opt]. destruct (man_filter s flt) as [mf|e] eqn:Hmf; [|by eexists]. cbn [rmap].
  assert (Hwf : wf_snap s (w_fs w) sn) by by eapply snap_of_wf.
  rewrite Hm0, (wm_schema _ _ _ Hm).
  set (o := ReadOpts flt fields sid' ref b).
  set (fset := fset_at (w_fs w) mf (sn_idx sn)).
  pose proof (readonly_read_files E s o (fset_files fset) w) as Hro.
  destruct (read_files E s o (fset_files fset) w) as [w1 r] eqn:Hrd. cbn in Hro. subst w1.
  exists r. split; [by apply liftM_run|]. intros Hsel. cbv zeta.
  pose proof (files_rows (w_fs w) mf sn flt) as Hrows. fold fset in Hrows.
  set (rows := filter_rows flt (picked_rows (w_fs w) mf sn)) in *.
  assert (Hlist : Forall (listed s w) (fset_files fset)) by (apply fset_listed; apply Hwf).
  destruct (content_some s (w_fs w) sn Hwf) as [l Hl].
  destruct (resolve_rows_sub _ _ _ _ rows Hl) as [lrows Hlr].
  { intros r' Hr'. assert (Hin : r' ∈ picked_rows (w_fs w) mf sn).
    { unfold rows in Hr'. destruct flt; [|done]. by apply elem_of_list_filter in Hr' as [_ ?]. }
    unfold picked_rows in Hin. rewrite man_rows_bind in Hin. apply elem_of_list_bind in Hin as (m'&Hr1&[_ Hm']%elem_of_list_filter).
    unfold phys_rows. rewrite man_rows_bind. apply elem_of_list_bind. eauto. }
  destruct (read_files_spec E s o (fset_files fset) w (fun df => file_rows (w_fs w) (df_path df)) lrows)
    as (ts&Hts&Hout&Hbatch).
  - apply Hi.
  - unfold o. rewrite selected_names. done.
  - intros df Hdf. eapply Forall_forall in Hlist; [|exact Hdf]. destruct Hlist as (Hbm&_&m'&Hm'&Hp&_). split.
    + rewrite Hp. by apply wf_mrow_readable.
    + unfold mask_ok. by rewrite Hbm.
  - change (ro_filter o) with flt. by rewrite Hrows.
  - rewrite Hrd in Hts. injection Hts as ->. exists ts, lrows. split; [done|]. split; [done|].
    change (ro_filter o) with flt in Hout. rewrite Hrows in Hout. unfold o in Hout. rewrite selected_names in Hout.
    cbn [ro_ref] in Hout.
    destruct ref.
    + done.
    + split; [done|]. apply Hbatch; [|done]. intros df Hdf. eapply Forall_forall in Hlist; [|exact Hdf]. apply Hlist.
Qed.

Lemma read_order_all s : read_order s (s_names s) = out_names s.
Proof. done. Qed.

(** Full reads. *)
Definition snap_rows (s : schema) (fs : fsys) (sn : snapshot) (rows : list row) : Prop :=
  ∃ l, content s fs sn = Some l ∧ tsel (out_names s) l = Ok rows.
Lemma snap_rows_fun s fs sn r1 r2 : snap_rows s fs sn r1 → snap_rows s fs sn r2 → r1 = r2.
Proof. intros (l1&?&?) (l2&?&?). congruence. Qed.
Lemma snap_rows_keeps s fs fs' sn rows :
  keeps fs fs' → wf_snap s fs sn → snap_rows s fs sn rows → snap_rows s fs' sn rows.
Proof. intros Hk Hw (l&Hl&Hr). exists l. split; [|done]. by rewrite (content_keeps s fs fs'). Qed.
Lemma content_names s fs sn l :
  wf_snap s fs sn → content s fs sn = Some l → Forall (fun r => r.*1 = s_names s) l.
Proof.
  intros Hw. apply resolve_names. eapply Forall_impl.
  - apply man_rows_conform. by apply wf_snap_mrows.
  - intros r. apply conforms_names.
Qed.
Lemma snap_rows_some s fs sn : wf_snap s fs sn → ∃ rows, snap_rows s fs sn rows.
Proof.
  intros Hw. destruct (content_some s fs sn Hw) as [l Hl].
  destruct (tsel_total (out_names s) l) as [rows Hr].
  { intros r n Hr Hn. pose proof (content_names _ _ _ _ Hw Hl) as Hnames. eapply Forall_forall in Hnames; [|exact Hr].
    rewrite Hnames. apply elem_of_app in Hn as [[_ ?]%elem_of_list_filter|[_ ?]%elem_of_list_filter]; done. }
  exists rows, l. done.
Qed.
Lemma run_read_all_run E v b s h w p m :
  winv s w → wf_handle s w h → stored (w_fs w) p m → wf_meta s (w_fs w) m →
  ∃ r, run_read_all E None None v false b (h, w) = ((sync p m h, w), r)
  ∧ match snap_of m (h_branch h) v with
    | None => r = Err (EUser UVersionNotFound)
    | Some sn => ∃ rows, r = Ok rows ∧ snap_rows s (w_fs w) sn rows
    end.
Proof.
  intros Hi Hh Hst Hm.
  destruct (run_read_run E None None v false b s h w p m Hi Hh Hst Hm) as (r&Hr&Hout).
  unfold run_read_all. erewrite bind_run'; [|exact Hr].
  destruct (snap_of m (h_branch h) v) as [sn|] eqn:Hsn.
  - cbn in Hout. destruct Hout as (ts&lrows&->&Hres&Hsel&_); [done|]. eexists. split; [done|].
    exists (concat ts). split; [done|]. exists lrows. rewrite picked_rows_none in Hres. done.
  - rewrite Hout. eexists. split; done.
Qed.
