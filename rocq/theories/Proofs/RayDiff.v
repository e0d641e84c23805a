(** Reading changes through Ray. *)
From Verif.Model Require Import System RayOps.
From Verif.Spec Require Import Logical Api Layout Changes.
From Verif.Proofs Require Import Lib World Resolve AppendSpec SchemaFacts ReadSpec Wf OpSpec Inv FileSet Ops Bodies Txn
  SysInv ReadRun Effects Observe View Calls Reads Diff Shards RayRead.

Lemma changed_app a b : changed_rows (a ++ b) = changed_rows a ++ changed_rows b.
Proof. apply bind_app. Qed.
Lemma changed_tables i t (ts : list (list row)) : changed_rows (Change i t <$> ts) = (fun r => (i, t, r)) <$> concat ts.
Proof.
  induction ts as [|x ts IH]; [done|]. rewrite fmap_cons. unfold changed_rows in *. rewrite bind_cons, IH. cbn [concat].
  by rewrite fmap_app.
Qed.
(** The changes a list of Ray datasets stands for. *)
Definition opened (cs : list ray_change) : list change :=
  cs ≫= fun c => Change (rc_snap c) (rc_type c) <$> concat (rc_data c).

Definition ray_log (E : env) (s : schema) (blocks : bool) (o : read_opts) (batch : option nat) (l : list row_bitmap) : M (list (list row)) :=
  let! ts := read_files E s o (read_tasks blocks batch (bitmap_file <$> l)) in ret (nonempty_tables ts).
Lemma ray_log_files E s blocks batch fields w bs :
  wf_schema s → (∀ n, n ∈ read_names s fields → n ∈ s_names s) → Forall (wf_bitmap s (w_fs w)) bs →
  ∃ ts l, ray_log E s blocks (ReadOpts None fields None false batch) batch bs w = (w, Ok ts)
    ∧ resolve_rows (records_in (w_fs w)) (s_recs s) (log_rows (w_fs w) bs) = Some l
    ∧ tsel (read_order s (read_names s fields)) l = Ok (concat ts).
Proof.
  intros Hs Hf Hbs. destruct (log_files E s batch fields w bs Hs Hf Hbs) as (_&l&_&Hl&_).
  destruct (tasks_read E s (ReadOpts None fields None false batch) blocks (bitmap_file <$> bs) w l) as (ts&Hts&Hsel&_).
  - done.
  - intros n. rewrite selected_names. apply Hf.
  - intros df (b&->&Hb)%elem_of_list_fmap. eapply Forall_forall in Hbs; [|exact Hb]. destruct Hbs as (rows&Hr&_&Hmask&Hn).
    assert (file_rows (w_fs w) (rb_file b) = rows) as Hfr.
    { destruct Hr as (cols&gs&Hp&->&_). unfold file_rows. by rewrite Hp. }
    cbn [df_path bitmap_file]. rewrite Hfr. split_and!; try done. unfold mask_ok. cbn. destruct (rb_all b); [done|]. auto.
  - cbn [ro_filter]. rewrite <-Hl. f_equal. unfold log_rows. clear. induction bs as [|b bs IH]; [done|].
    rewrite fmap_cons, !bind_cons, IH. done.
  - exists (nonempty_tables ts), l. unfold ray_log. cbn [ro_batch] in Hts. rewrite (bind_run _ _ _ _ _ Hts).
    split_and!; try done. rewrite nonempty_concat. rewrite selected_names in Hsel. done.
Qed.
Lemma ray_streams_files E s blocks batch fields w (bss : list (list row_bitmap)) :
  wf_schema s → (∀ n, n ∈ read_names s fields → n ∈ s_names s) → Forall (wf_bitmap s (w_fs w)) (concat bss) →
  ∃ ds l, mapM_st (ray_log E s blocks (ReadOpts None fields None false batch) batch) bss w = (w, Ok ds)
    ∧ resolve_rows (records_in (w_fs w)) (s_recs s) (log_rows (w_fs w) (concat bss)) = Some l
    ∧ tsel (read_order s (read_names s fields)) l = Ok (concat (concat ds)).
Proof.
  intros Hs Hf. induction bss as [|bs bss IH]; intros Hbs.
  { exists [], []. done. }
  cbn [concat] in Hbs. apply Forall_app in Hbs as [Hb1 Hb2].
  destruct (ray_log_files E s blocks batch fields w bs Hs Hf Hb1) as (ts&l1&H1&Hl1&Hs1).
  destruct (IH Hb2) as (ds&l2&H2&Hl2&Hs2). exists (ts :: ds), (l1 ++ l2). split_and!.
  - cbn [mapM_st]. rewrite (bind_run _ _ _ _ _ H1), (bind_run _ _ _ _ _ H2). done.
  - cbn [concat]. unfold log_rows in *. rewrite bind_app. by apply resolve_rows_app.
  - cbn [concat]. rewrite concat_app. apply rmapM_app. eauto.
Qed.

Lemma ray_changes_run E E' s n blocks h w i batch batch' :
  1 ≤ n → winv s w → wf_meta s (w_fs w) (h_meta h) →
  ∃ r r', read_changes E' h i batch' w = (w, r) ∧ ray_read_changes E n blocks h i batch w = (w, r')
    ∧ rmap (fun cs => changed_rows (opened cs)) r' = rmap changed_rows r.
Proof.
  intros Hn Hi Hm. destruct (md_snaps (h_meta h) !! i) as [sn|] eqn:Hsn.
  2:{ unfold read_changes, ray_read_changes. rewrite Hsn. eexists _, _. done. }
  pose proof (read_changes_run E' s h w i sn batch' Hi Hm Hsn) as Hc.
  destruct (wm_snaps _ _ _ Hm i sn Hsn) as (_&(_&_&_&Hlog)&_). unfold ray_read_changes. rewrite Hsn.
  destruct (sn_log sn) as [lp|]; [|by eexists _, _]. destruct Hlog as (c&Hc0&Hwf).
  destruct Hc as (c'&dels&adds&ldel&ladd&Hc'&Hrun&Hld&Hla&Hsd&Hsa). rewrite Hc0 in Hc'. injection Hc' as <-.
  unfold wf_log in Hwf. apply Forall_app in Hwf as [Hd Ha]. pose proof (wi_schema _ _ Hi) as Hs.
  rewrite (wm_schema _ _ _ Hm).
  destruct (ray_log_files E s blocks batch (Some (s_pks s)) w (cl_deleted c)) as (rd&ld'&Hrd&Hld'&Hsd'); [done| |done|].
  { intros f Hf. by apply Hs. }
  rewrite Hld in Hld'. injection Hld' as <-. change (read_names s (Some (s_pks s))) with (s_pks s) in Hsd'.
  rewrite Hsd in Hsd'. injection Hsd' as Hsd'.
  pose proof (ray_streams_concat n (cl_added c) Hn) as Hstr.
  destruct (ray_streams_files E s blocks batch None w (ray_streams n (cl_added c))) as (ra&la'&Hra&Hla'&Hsa'); [done|done|by rewrite Hstr|].
  rewrite Hstr, Hla in Hla'. injection Hla' as <-. change (read_names s None) with (s_names s) in Hsa'.
  rewrite read_order_all, Hsa in Hsa'. injection Hsa' as Hsa'.
  eexists _, (Ok ((match cl_deleted c with [] => [] | _ => [RayChange i ChDelete [rd]] end)
      ++ (match cl_added c with [] => [] | _ => [RayChange i ChAdd ra] end))).
  split; [exact Hrun|]. split.
  - erewrite bind_run; [|by unfold read_change, read_file, bind; cbn; rewrite Hc0]. cbv zeta.
    fold (ray_log E s blocks (ReadOpts None (Some (s_pks s)) None false batch) batch).
    rewrite (bind_run _ _ w w (match cl_deleted c with [] => [] | _ => [RayChange i ChDelete [rd]] end)).
    2:{ destruct (cl_deleted c) as [|b l]; [done|].
        change (bind (ray_log E s blocks (ReadOpts None (Some (s_pks s)) None false batch) batch (b :: l))
          (fun d => ret [RayChange i ChDelete [d]]) w = (w, Ok [RayChange i ChDelete [rd]])).
        by rewrite (bind_run _ _ _ _ _ Hrd). }
    rewrite (bind_run _ _ w w (match cl_added c with [] => [] | _ => [RayChange i ChAdd ra] end)); [done|].
    destruct (cl_added c) as [|b l]; [done|].
    change (bind (mapM_st (ray_log E s blocks (ReadOpts None None None false batch) batch) (ray_streams n (b :: l)))
          (fun d => ret [RayChange i ChAdd d]) w = (w, Ok [RayChange i ChAdd ra])).
    by rewrite (bind_run _ _ _ _ _ Hra).
  - cbn [rmap]. f_equal. unfold opened. rewrite bind_app, !changed_app. f_equal.
    + rewrite changed_tables, Hsd'. destruct (cl_deleted c) as [|b l].
      * cbn in Hld. injection Hld as <-. cbn in Hsd. injection Hsd as Hsd. rewrite <-Hsd', <-Hsd. done.
      * cbn [mbind list_bind rc_snap rc_type rc_data concat]. rewrite !app_nil_r. by rewrite changed_tables.
    + rewrite changed_tables, Hsa'. destruct (cl_added c) as [|b l].
      * cbn in Hla. injection Hla as <-. cbn in Hsa. injection Hsa as Hsa. rewrite <-Hsa', <-Hsa. done.
      * cbn [mbind list_bind rc_snap rc_type rc_data]. rewrite app_nil_r. by rewrite changed_tables.
Qed.

Lemma all_ok_rel {A B C} (f : A → C) (g : B → C) (rs : list (res A)) (rs' : list (res B)) :
  Forall2 (fun r r' => rmap f r = rmap g r') rs rs' →
  rmap (fmap f) (all_ok rs) = rmap (fmap g) (all_ok rs').
Proof.
  induction 1 as [|r r' rs rs' Hr _ IH]; [done|]. cbn [all_ok].
  destruct r as [a|e], r' as [b|e']; cbn in *; try done.
  - injection Hr as Hr. destruct (all_ok rs), (all_ok rs'); cbn in *; try done.
    + injection IH as IH. by rewrite Hr, IH.
  - by injection Hr as ->.
Qed.

Lemma ray_diff_run E n blocks a b batch s h w p m :
  1 ≤ n → winv s w → wf_handle s w h → stored (w_fs w) p m → wf_meta s (w_fs w) m →
  run_ray_diff E n blocks a b batch (h, w) = ((sync p m h, w),
    match named m a, named m b with
    | Some i, Some j =>
        match ordered_snapshot_ids (sync p m h) i j with
        | Ok ids => rmap (fun cs => opened (concat cs)) (all_ok ((fun k => (ray_read_changes E n blocks (sync p m h) k batch w).2) <$> ids))
        | Err e => Err e
        end
    | _, _ => Err (EUser UVersionNotFound)
    end).
Proof.
  intros Hn Hi Hh Hst Hm. destruct (sync_spec s w p m h Hst Hm Hh) as (Hh0&Hm0&Hf0&Hb0&Hmax).
  unfold run_ray_diff.
  assert (∀ r h', run_diff_ray E n blocks a b batch (h, w) = ((h', w), r) →
    bind (run_diff_ray E n blocks a b batch) (fun cs => ret (opened cs)) (h, w) = ((h', w), rmap opened r)) as Hlast.
  { intros r h' Hr. unfold bind. rewrite Hr. by destruct r. }
  set (h0 := sync p m h) in *.
  assert (run_diff_ray E n blocks a b batch (h, w) = ((h0, w),
    match named m a, named m b with
    | Some i, Some j =>
        match ordered_snapshot_ids h0 i j with
        | Ok ids => rmap (@concat ray_change) (all_ok ((fun k => (ray_read_changes E n blocks h0 k batch w).2) <$> ids))
        | Err e => Err e
        end
    | _, _ => Err (EUser UVersionNotFound)
    end)) as Hrun.
  { unfold run_diff_ray. erewrite bind_run; [|by apply reload_run]. rewrite get_handle_bind, lift_bind. fold h0.
  assert (Hv : ∀ v, version_to_snapshot_id h0 v = of_opt (EUser UVersionNotFound) (named m v)).
  { intros [i|r]; [done|]. cbn. unfold lookup_reference. rewrite Hm0. by destruct (md_refs m !! r). }
  rewrite (Hv a). destruct (named m a) as [i|]; [|done]. cbn [of_opt]. rewrite lift_bind, (Hv b).
  destruct (named m b) as [j|]; [|done]. cbn [of_opt]. rewrite lift_bind.
  destruct (ordered_snapshot_ids h0 i j) as [ids|e] eqn:Hids; [|done].
  assert (Hro : ∀ k, ray_read_changes E n blocks h0 k batch w = (w, (ray_read_changes E n blocks h0 k batch w).2)).
  { intros k. destruct (ray_changes_run E E s n blocks h0 w k batch batch Hn Hi) as (?&r&_&->&_); [by rewrite Hm0|done]. }
  pose proof (mapM_all (fun k => ray_read_changes E n blocks h0 k batch) ids w
    (fun k => (ray_read_changes E n blocks h0 k batch w).2) (fun k _ => Hro k)) as Hall.
  destruct (all_ok ((fun k => (ray_read_changes E n blocks h0 k batch w).2) <$> ids)) as [cs|e] eqn:Hcs.
  - erewrite bind_run; [|by apply liftM_run]. done.
  - erewrite bind_run'; [|by apply liftM_run]. done.
  }
  unfold opened in Hlast at 1. rewrite (Hlast _ _ Hrun). f_equal.
  destruct (named m a), (named m b); try done. destruct (ordered_snapshot_ids h0 z z0); [|done].
  by destruct (all_ok _).
Qed.
Lemma ray_diff_same σ hid E E' n blocks a b batch batch' :
  reachable σ → 1 ≤ n →
  rmap changed_rows <$> result σ hid (run_ray_diff E n blocks a b batch)
  = rmap changed_rows <$> result σ hid (run_diff E' a b batch').
Proof.
  intros Hr Hn. destruct (y_handles σ !! hid) as [h|] eqn:Hh.
  2:{ unfold result, with_handle. by rewrite Hh. }
  destruct (reachable_seen _ _ _ Hr Hh) as (s&p&m&Hseen). pose proof (sync_meta_wf _ _ _ _ _ _ Hseen) as Hm0.
  destruct Hseen as [Hs _ Hwf Hst Hm Hb]. rewrite !(result_eq _ _ _ _ Hh).
  rewrite (diff_run E' a b batch' s h (y_world σ) p m (si_world _ _ Hs)) by done.
  rewrite (ray_diff_run E n blocks a b batch s h (y_world σ) p m Hn (si_world _ _ Hs)) by done.
  cbn [snd fmap option_fmap option_map]. f_equal.
  destruct (named m a) as [i|], (named m b) as [j|]; try done.
  destruct (ordered_snapshot_ids _ i j) as [ids|]; [|done].
  pose proof (all_ok_rel (fun cs => changed_rows (opened cs)) changed_rows
    ((fun k => (ray_read_changes E n blocks (sync p m h) k batch (y_world σ)).2) <$> ids)
    ((fun k => (read_changes E' (sync p m h) k batch' (y_world σ)).2) <$> ids)) as Hrel.
  assert (∀ l, changed_rows (concat l) = concat (changed_rows <$> l)) as Hc1.
  { intros l. induction l as [|x l IH]; [done|]. cbn [concat]. rewrite changed_app, IH. done. }
  assert (∀ l, changed_rows (opened (concat l)) = concat ((fun cs => changed_rows (opened cs)) <$> l)) as Hc2.
  { intros l. induction l as [|x l IH]; [done|]. cbn [concat]. unfold opened in *. rewrite bind_app, changed_app, IH. done. }
  match type of Hrel with ?A → _ => assert A as HA end.
  { clear Hrel. induction ids as [|k ids IH]; [constructor|]. rewrite !fmap_cons. constructor; [|done].
    destruct (ray_changes_run E E' s n blocks (sync p m h) (y_world σ) k batch batch' Hn (si_world _ _ Hs)) as (r&r'&->&->&?); [by rewrite Hm0|done]. }
  specialize (Hrel HA). clear HA.
  destruct (all_ok ((fun k => (ray_read_changes E n blocks (sync p m h) k batch (y_world σ)).2) <$> ids)) as [x|e],
    (all_ok ((fun k => (read_changes E' (sync p m h) k batch' (y_world σ)).2) <$> ids)) as [y|e'];
    cbn [rmap] in *; try congruence; cbn in Hrel; try congruence.
Qed.
