(** The distributed insert and upsert. *)
From Verif.Model Require Import System RayOps.
From Verif.Spec Require Import Logical Api Pruning Keys Layout.
From Verif.Proofs Require Import Lib FalsifySound World Resolve AppendSpec SchemaFacts ReadSpec Bounds Wf OpSpec Inv FileSet Ops Bodies Txn
  SysInv ReadRun Effects Observe View Prune DeleteEffect Keys Mutations Calls Reads AnyOp Shards RayAppend.
From Verif.Proofs Require Import Merge.

(** The check for one file. *)
Lemma check_file E s w df e :
  wf_schema s → listed s w df →
  filter_matched E s (FileSet [df] ∅) e w
  = (w, Ok (negb (bool_decide (filter (fun r => matches e r = true) (file_rows (w_fs w) (df_path df)) = [])))).
Proof.
  intros Hs (Hbm&Hsl&m&Hm&Hp&_). unfold filter_matched. cbn [fset_files].
  set (o := ReadOpts (Some e) (Some (s_pks s)) None false None).
  set (rows := filter (fun r => matches e r = true) (file_rows (w_fs w) (df_path df))).
  pose proof Hm as (cols&gs&B&Hf&_&_&_&[l Hl]).
  destruct (resolve_rows_sub _ _ _ _ rows Hl) as [lrows Hlr].
  { intros r [_ Hr]%elem_of_list_filter. unfold file_rows in Hr. rewrite Hp, Hf in Hr. exact Hr. }
  assert (Hpick : [df] ≫= (fun df => pick_rows (ro_filter o) df (file_rows (w_fs w) (df_path df))) = rows).
  { cbn [mbind list_bind]. rewrite app_nil_r. unfold pick_rows. by rewrite Hbm, Hsl. }
  destruct (read_files_spec E s o [df] w (fun df => file_rows (w_fs w) (df_path df)) lrows) as (ts&Hts&Hout&_).
  - done.
  - unfold o. rewrite selected_names. intros n. cbn. apply Hs.
  - intros df' ->%elem_of_list_singleton. split.
    + rewrite Hp. by apply wf_mrow_readable.
    + unfold mask_ok. by rewrite Hbm.
  - by rewrite Hpick.
  - erewrite bind_run; [|exact Hts]. unfold ret. do 2 f_equal.
    change (ro_ref o) with false in Hout. cbv iota in Hout.
    assert (Hlen : length (concat ts) = length rows).
    { rewrite (tsel_length _ _ _ Hout). symmetry. eapply mapM_length. exact Hlr. }
    clear -Hlen. case_bool_decide as Hr; cbn.
    + rewrite Hr in Hlen. cbn in Hlen. apply not_true_iff_false. intros Hex.
      apply existsb_exists in Hex as (t&Ht%elem_of_list_In&Hne). apply elem_of_list_lookup in Ht as [i Hi].
      apply length_zero_iff_nil in Hlen. apply elem_of_list_lookup_2 in Hi.
      destruct t as [|x t]; [done|]. assert (x ∈ concat ts); [|rewrite Hlen in *; set_solver].
      apply elem_of_list_In, in_concat. exists (x :: t). split; [by apply elem_of_list_In|by left].
    + apply existsb_exists.
      destruct (concat ts) as [|x c] eqn:Hc; [destruct rows; [done|cbn in Hlen; lia]|].
      assert (Hx : x ∈ concat ts) by (rewrite Hc; set_solver).
      apply elem_of_list_In, in_concat in Hx as (t&Ht&Hxt). exists t. split; [done|]. by destruct t.
Qed.
Lemma check_files E s w dfs e :
  wf_schema s → Forall (listed s w) dfs →
  ∃ dups, mapM_st (fun df => filter_matched E s (FileSet [df] ∅) e) dfs w = (w, Ok dups)
    ∧ existsb id dups = negb (bool_decide (dfs ≫= (fun df => filter (fun r => matches e r = true) (file_rows (w_fs w) (df_path df))) = [])).
Proof.
  intros Hs Hl. induction Hl as [|df dfs Hdf _ IH]; cbn [mapM_st]; [by exists []|].
  destruct IH as (dups&Hrun&Hd). eexists. split.
  { erewrite bind_run; [|by apply check_file]. cbn beta. erewrite bind_run; [|exact Hrun]. done. }
  cbn [existsb id]. rewrite Hd, bind_cons. repeat case_bool_decide; cbn; try done.
  - rewrite H, H0 in H1. done.
  - by apply app_eq_nil in H1 as [].
  - by apply app_eq_nil in H1 as [].
  - by apply app_eq_nil in H1 as [].
Qed.
Lemma listed_rows s w mf sn e :
  Forall (listed s w) (fset_files (fset_at (w_fs w) mf (sn_idx sn))) →
  fset_files (fset_at (w_fs w) mf (sn_idx sn)) ≫= (fun df => filter (fun r => matches e r = true) (file_rows (w_fs w) (df_path df)))
  = filter_rows (Some e) (picked_rows (w_fs w) mf sn).
Proof.
  intros Hl. rewrite <-(files_rows (w_fs w) mf sn (Some e)). revert Hl.
  generalize (fset_files (fset_at (w_fs w) mf (sn_idx sn))). intros l Hl.
  induction Hl as [|df l (Hbm&Hsl&_) _ IH]; [done|]. rewrite !bind_cons, IH. f_equal. unfold pick_rows. by rewrite Hbm, Hsl.
Qed.

(** The rows each worker is given. *)
Definition written_by (n : nat) (data : list row) : list row :=
  in_worker_order n ((fun c => (c.1, [c.2])) <$> ray_shards n data).
Lemma written_by_perm n data : 1 ≤ n → written_by n data ≡ₚ data.
Proof.
  intros Hn. destruct (ray_shards_spec n data Hn) as [Hc Hlt]. unfold written_by. rewrite in_worker_order_perm.
  - rewrite <-Hc at 2. generalize (ray_shards n data). intros l. induction l as [|c l IH]; [done|].
    cbn in *. by rewrite IH.
  - intros c (c0&->&Hc0)%elem_of_list_fmap. cbn. by apply Hlt.
Qed.

(** What the body does. *)
Definition ray_insert_out (s : schema) (n : nat) (mode : insert_mode) (data : list row)
    (h : handle) (w : world) (op : option patch) (w' : world) : Prop :=
  (data = [] ∧ op = None ∧ w' = w) ∨
  (data ≠ [] ∧ ∃ sn e mf w1 dop rows aop,
    primary_key_filter (s_pks s) data = Ok (Some e)
    ∧ get_snapshot h None = Ok sn
    ∧ build_manifest_filter (fenv_of s) e = Ok mf
    ∧ let fset := fset_at (w_fs w) mf (sn_idx sn) in
      match mode with
      | MInsert => w1 = w ∧ dop = None ∧ filter_rows (Some e) (picked_rows (w_fs w) mf sn) = []
      | MUpsert => wnew w w1 ∧ (fset_files fset = [] ∧ dop = None ∧ w1 = w
                               ∨ fset_files fset ≠ [] ∧ delete_out s e w fset dop w1)
      end
    ∧ wnew w1 w'
    ∧ tsel (out_names s) (written_by n data) = Ok rows
    ∧ adds s (w_fs w') aop rows
    ∧ (∃ E fo, ray_write E fo s n data w1 = (w', Ok aop))
    ∧ op = merge_patches (match mode, fset_files fset with
                          | MUpsert, _ :: _ => [dop; aop] | _, _ => [aop] end)).
Lemma ray_insert_op_run E fo s n mode data h w :
  winv s w → wf_handle s w h →
  ∃ w' r, ray_insert_op E fo n mode data (h, w) = ((h, w'), r) ∧ wnew w w'
    ∧ match r with Ok op => ray_insert_out s n mode data h w op w' | Err _ => True end.
Proof.
  intros Hi Hh. pose proof Hh as (Hm&_&_). pose proof Hi as [Hb Hs _]. unfold ray_insert_op.
  destruct data as [|d0 d1].
  { exists w. eexists. split; [done|]. split; [apply wnew_refl|]. left. done. }
  cbv iota. assert (Hne : d0 :: d1 ≠ []) by done. revert Hne. generalize (d0 :: d1). clear d0 d1. intros data Hne.
  rewrite get_handle_bind, lift_bind. rewrite (wm_schema _ _ _ Hm).
  destruct (primary_key_filter (s_pks s) data) as [[e|]|] eqn:Hpk;
    [|exists w; eexists; split; [done|]; split; [apply wnew_refl|done]..].
  unfold bind at 1. rewrite (data_files_run s) by done.
  destruct (get_snapshot h None) as [sn|] eqn:Hsn; [|exists w; eexists; split; [done|]; split; [apply wnew_refl|done]].
  cbn [man_filter].
  destruct (build_manifest_filter (fenv_of s) e) as [mf|] eqn:Hmf;
    [|exists w; eexists; split; [done|]; split; [apply wnew_refl|done]]. cbn [rmap].
  pose proof (listed_rows s w mf sn e) as Hlr.
  set (fset := fset_at (w_fs w) mf (sn_idx sn)) in *.
  pose proof (get_snapshot_wf _ _ _ _ _ Hm Hsn) as Hwsn.
  assert (Hl : Forall (listed s w) (fset_files fset)) by (apply fset_listed; apply Hwsn).
  specialize (Hlr Hl).
  assert (Hmans : ∀ i q, fset_mans fset !! i = Some q → wf_man s (w_fs w) q).
  { intros i q. apply fset_mans_wf, Hwsn. }
  (* the final append *)
  assert (Happ : ∀ w1 ps, bounded w1 → wnew w w1 →
    ∃ w' r, bind (liftM (ray_write E fo s n data)) (fun p => ret (merge_patches (ps ++ [p]))) (h, w1) = ((h, w'), r)
     ∧ wnew w1 w' ∧ match r with
       | Ok op => ∃ rows aop, tsel (out_names s) (written_by n data) = Ok rows
            ∧ adds s (w_fs w') aop rows ∧ (∃ E fo, ray_write E fo s n data w1 = (w', Ok aop)) ∧ op = merge_patches (ps ++ [aop])
       | Err _ => True end).
  { intros w1 ps Hb1 Hw1. unfold ray_write.
    pose proof (ray_append_op_run E fo s n ((fun c => (c.1, [c.2])) <$> ray_shards n data) w1 Hs Hb1) as Ha.
    destruct (ray_append_op E fo s n ((fun c => (c.1, [c.2])) <$> ray_shards n data) w1) as [w2 r] eqn:Hap. destruct Ha as (Hw2&Hr).
    unfold bind. rewrite (liftM_run _ h w1 _ _ Hap). destruct r as [aop|].
    - exists w2. eexists. split; [done|]. split; [done|]. destruct Hr as (rows&Hrows&Haop). eauto 10.
    - exists w2. eexists. split; [done|]. done. }
  destruct mode.
  - (* insert *)
    destruct (fset_files fset) as [|df dfs] eqn:Hfiles.
    + destruct (Happ w [] Hb (wnew_refl w)) as (w'&r&Hr&Hw'&Hok). exists w', r. split; [exact Hr|]. split; [done|].
      destruct r as [op|]; [|done]. destruct Hok as (rows&aop&Hrows&Haop&Hwr&->). right. split; [done|].
      exists sn, e, mf, w, None, rows, aop. cbv zeta. fold fset. split_and!; try done.
    + rewrite <-Hfiles in Hl, Hlr |- *. rewrite <-Hfiles in Hfiles.
      destruct (check_files E s w (fset_files fset) e Hs Hl) as (dups&Hrun&Hd). rewrite Hlr in Hd.
      unfold bind at 1 2. rewrite (liftM_run _ h w _ _ Hrun).
      destruct (existsb id dups); [by exists w; eexists; split; [done|]; split; [apply wnew_refl|done]|].
      destruct (Happ w [] Hb (wnew_refl w)) as (w'&r&Hr&Hw'&Hok). exists w', r. split; [exact Hr|]. split; [done|].
      destruct r as [op|]; [|done]. destruct Hok as (rows&aop&Hrows&Haop&Hwr&->). right. split; [done|].
      exists sn, e, mf, w, None, rows, aop. cbv zeta. fold fset. split_and!; try done. by case_bool_decide.
  - (* upsert *)
    destruct (fset_files fset) as [|df dfs] eqn:Hfiles.
    + destruct (Happ w [] Hb (wnew_refl w)) as (w'&r&Hr&Hw'&Hok). exists w', r. split; [exact Hr|]. split; [done|].
      destruct r as [op|]; [|done]. destruct Hok as (rows&aop&Hrows&Haop&Hwr&->). right. split; [done|].
      exists sn, e, mf, w, None, rows, aop. cbv zeta. fold fset. rewrite Hfiles. split_and!; try done; [apply wnew_refl|by left].
    + rewrite <-Hfiles in Hl.
      pose proof (delete_op_out E fo s e fset w Hs Hb Hl Hmans) as Hd.
      destruct (delete_op E fo s e fset w) as [w1 r1] eqn:Hdo. destruct Hd as [Hw1 Hd].
      unfold bind at 1 2. rewrite (liftM_run _ h w _ _ Hdo).
      destruct r1 as [dop|]; [|by exists w1; eexists; split; [done|]; split].
      destruct (Happ w1 [dop]) as (w'&r&Hr&Hw'&Hok); [by eapply wle_bounded|done|].
      exists w', r. split; [exact Hr|]. split; [by eapply wnew_trans|].
      destruct r as [op|]; [|done]. destruct Hok as (rows&aop&Hrows&Haop&Hwr&->). right. split; [done|].
      exists sn, e, mf, w1, dop, rows, aop. cbv zeta. fold fset. rewrite Hfiles. split_and!; try done. right. split; [done|exact Hd].
Qed.
Lemma ray_insert_out_wf s n mode data h w op w' :
  winv s w → wf_handle s w h → ray_insert_out s n mode data h w op w' → wf_opatch s (w_fs w') op.
Proof.
  intros Hi Hh [(->&->&->)|(_&sn&e&mf&w1&dop&rows&aop&_&Hsn&_&Hmode&Hw'&_&Haop&_&->)]; [done|].
  pose proof Hh as (Hm&_&_). pose proof Hi as [Hb Hs _].
  pose proof (get_snapshot_wf _ _ _ _ _ Hm Hsn) as Hwsn.
  set (fset := fset_at (w_fs w) mf (sn_idx sn)) in *.
  assert (Hl : Forall (listed s w) (fset_files fset)) by (apply fset_listed; apply Hwsn).
  assert (Hmans : ∀ i q, fset_mans fset !! i = Some q → wf_man s (w_fs w) q).
  { intros i q. apply fset_mans_wf, Hwsn. }
  assert (Hd : wnew w w1 ∧ wf_opatch s (w_fs w1) dop).
  { destruct mode.
    - destruct Hmode as (->&->&_). split; [apply wnew_refl|done].
    - destruct Hmode as (Hw1&[(_&->&_)|[_ Hd]]); split; try done.
      eapply (delete_out_wf s e w fset); try done. }
  destruct Hd as [Hw1 Hd].
  assert (Hd' : wf_opatch s (w_fs w') dop).
  { eapply wf_opatch_keeps; [|exact Hd]. apply wnew_keeps; [|done]. by eapply wle_bounded. }
  assert (Ha : wf_opatch s (w_fs w') aop) by by eapply adds_wf.
  apply merge_patches_wf. destruct mode, (fset_files fset); by repeat constructor.
Qed.

(** A successful call. *)
Lemma ray_insert_done σ hid s E fo n mode data st before :
  reachable σ → schema_at σ hid = Some s → reads σ hid None before →
  result σ hid (run_ray_insert E fo n mode data) = Some (Ok (JSucceeded st)) →
  ∃ h p m h' base sn pa w1,
    seen s σ hid h p m
    ∧ fn_done s (ray_insert_op E fo n mode data) st h (y_world σ) h' (y_world (after σ hid (run_ray_insert E fo n mode data))) m base sn pa w1
    ∧ snap_rows s (w_fs (y_world σ)) base before
    ∧ layout σ hid = snap_layout (w_fs (y_world σ)) base
    ∧ (∃ h0, snap_of m (h_branch h0) None = Some base ∧ h_meta h0 = m
        ∧ ray_insert_out s n mode data h0 (y_world σ) (Some pa) w1)
    ∧ (∀ rows, snap_rows s (w_fs (y_world (after σ hid (run_ray_insert E fo n mode data)))) sn rows →
         reads (after σ hid (run_ray_insert E fo n mode data)) hid None rows)
    ∧ sn_idx sn = filter (fun x => x ∉ pa_del_idx pa) (sn_idx base) ++ pa_add_idx pa.
Proof.
  intros Hr Hsch Hb Hres. change (run_ray_insert E fo n mode data) with (transactional (ray_insert_op E fo n mode data)) in *.
  destruct (result_handle _ _ _ _ Hres) as [h Hh].
  destruct (reachable_seen _ _ _ Hr Hh) as (s'&p&m&Hseen).
  assert (s' = s) as -> by (rewrite (sn_schema _ _ _ _ _ _ Hseen) in Hsch; congruence).
  pose proof (si_world _ _ (sn_inv _ _ _ _ _ _ Hseen)) as Hi.
  assert (Hok : body_ok s (ray_insert_op E fo n mode data) (y_world σ) m).
  { intros h0 Hh0 _. destruct (ray_insert_op_run E fo s n mode data h0 _ Hi Hh0) as (w'&r&?&?&Hm).
    exists w', r. split_and!; try done. destruct r as [op|]; [|done]. by eapply ray_insert_out_wf. }
  destruct (fn_succeeded s σ hid h p m _ st Hseen Hok Hres) as (h'&q&base&sn&pa&w1&Hseen'&Hd).
  pose proof (reads_iff _ _ _ _ _ _ None before Hseen) as [Hiff _]. destruct (Hiff Hb) as (sn0&Hsn0&Hold).
  pose proof Hd as [(h0&Hh0&Hb0&Hm0&Hfn) _ _ _ Hbase Hwb Hnext _ Hk1 Hk2].
  rewrite Hbase in Hsn0. injection Hsn0 as <-.
  destruct (ray_insert_op_run E fo s n mode data h0 _ Hi Hh0) as (w'&r&Hrun&_&Hout).
  rewrite Hfn in Hrun. injection Hrun as <- <-.
  exists h, p, m, h', base, sn, pa, w1. split_and!; try done.
  - by eapply layout_eq.
  - exists h0. by rewrite Hb0.
  - intros rows Hrows. eapply fn_done_reads; [exact Hseen|exact Hseen'|exact Hd|exact Hb|done].
  - destruct Hnext as (_&_&_&Hpm&_). by apply patch_manifests_iff in Hpm as (_&Hidx&_); [|apply Hwb].
Qed.
Lemma ray_insert_shows σ hid s E fo n data st before :
  reachable σ → schema_at σ hid = Some s → plain_keys s → reads σ hid None before → 1 ≤ n →
  proper_keys (s_pks s) before → key_nonnull (s_pks s) data →
  result σ hid (run_ray_insert E fo n MInsert data) = Some (Ok (JSucceeded st)) →
  unique_keys (s_pks s) data
  ∧ (∀ y d, y ∈ before → d ∈ data → key_of (s_pks s) y ≠ key_of (s_pks s) d)
  ∧ st_rows st = Z.of_nat (length data)
  ∧ ∃ written, written ≡ₚ data
    ∧ reads (after σ hid (run_ray_insert E fo n MInsert data)) hid None (before ++ (show s <$> written)).
Proof.
  intros Hr Hsch Hpl Hb Hn Hprop Hnn Hres.
  destruct (ray_insert_done σ hid s E fo n MInsert data st before Hr Hsch Hb Hres)
    as (h&p&m&h'&base&sn&pa&w1&Hseen&Hd&Hold&_&(h0&Hbase&Hm0&Hout)&Hrd&Hidx).
  pose proof (seen_schema _ _ _ _ _ _ Hseen) as Hs.
  pose proof Hd as [_ _ _ -> _ Hwb _ _ Hk1 Hk2].
  destruct Hout as [(_&?&_)|(Hne&sn0&e&mf&w2&dop&rows&aop&Hpk&Hg&Hmf&(->&->&Hno)&Hw2&Hsel&Haop&_&Hp)]; [done|].
  apply (get_snapshot_snap_of h0 m) in Hg; [|done].
  assert (sn0 = base) as -> by congruence. cbn in Hp.
  destruct aop as [pa'|]; [|done]. injection Hp as ->. destruct Haop as (Hwp&Hdel&Hres2&Hst&Htr).
  destruct (primary_key_filter_spec (s_pks s) data e Hnn Hpk) as (Hnd&Hkf&Hev).
  assert (Hsafe : safe_filter s e) by by apply keyf_safe.
  assert (Hnan : no_nan_keys (s_pks s) before) by (intros r k Hr' Hk; by eapply Hprop).
  assert (Hnomatch : ∀ y, y ∈ before → matches e y = false).
  { apply filter_matches_nil. by rewrite <-(no_picked s (w_fs (y_world σ)) base e mf before). }
  pose proof Hsel as Heq. apply tsel_columns in Heq.
  split_and!.
  - done.
  - intros y d Hy Hdd Hk. specialize (Hnomatch y Hy). destruct (Hev y) as (bb&Hbb&Hiff).
    { intros k Hk'. by apply Hprop. }
    assert (bb = true) as -> by (apply Hiff; eauto). unfold matches in Hnomatch. by rewrite Hbb in Hnomatch.
  - cbn. rewrite Hst, Heq, fmap_length. by rewrite written_by_perm.
  - exists (written_by n data). split; [by apply written_by_perm|]. apply Hrd.
    change (show s <$> written_by n data) with (columns (out_names s) <$> written_by n data). rewrite <-Heq.
    eapply fn_done_adds; [exact Hd|done|done|exact Hres2|exact Htr].
Qed.
Lemma ray_upsert_shows σ hid s E fo n data st before :
  reachable σ → schema_at σ hid = Some s → plain_keys s → reads σ hid None before → 1 ≤ n →
  proper_keys (s_pks s) before → key_nonnull (s_pks s) data →
  result σ hid (run_ray_insert E fo n MUpsert data) = Some (Ok (JSucceeded st)) →
  unique_keys (s_pks s) data
  ∧ ∃ kept lost written, written ≡ₚ data
    ∧ reads (after σ hid (run_ray_insert E fo n MUpsert data)) hid None (kept ++ (show s <$> written))
    ∧ filter (fun y => key_of (s_pks s) y ∉ key_of (s_pks s) <$> data) before ≡ₚ kept ++ lost
    ∧ (lost = [] ↔ lossless (layout σ hid) (fun r => key_of (s_pks s) r ∈ key_of (s_pks s) <$> data)).
Proof.
  intros Hr Hsch Hpl Hb Hn Hprop Hnn Hres.
  destruct (ray_insert_done σ hid s E fo n MUpsert data st before Hr Hsch Hb Hres)
    as (h&p&m&h'&base&sn&pa&w1&Hseen&Hd&Hold&Hlay&(h0&Hbase&Hm0&Hout)&Hrd&Hidx).
  pose proof (seen_schema _ _ _ _ _ _ Hseen) as Hs.
  pose proof (wi_bounded _ _ (si_world _ _ (sn_inv _ _ _ _ _ _ Hseen))) as Hbw.
  pose proof Hd as [_ _ _ _ _ Hwb _ _ Hk1 Hk2].
  destruct Hout as [(_&?&_)|(Hne&sn0&e&mf&w2&dop&rows&aop&Hpk&Hg&Hmf&(Hw02&Hdel)&Hw2&Hsel&Haop&_&Hp)]; [done|].
  apply (get_snapshot_snap_of h0 m) in Hg; [|done].
  assert (sn0 = base) as -> by congruence. cbv beta iota zeta in Hp.
  rewrite Hlay. clear Hlay. set (w := y_world σ) in *.
  destruct (primary_key_filter_spec (s_pks s) data e Hnn Hpk) as (Hnd&Hkf&Hev).
  split; [done|].
  assert (Hsafe : safe_filter s e) by by apply keyf_safe.
  assert (Hnan : no_nan_keys (s_pks s) before) by (intros r k Hr' Hk; by eapply Hprop).
  assert (Hdec : decided e before).
  { intros r Hr'. destruct (Hev r) as (bb&Hbb&_); [by intros; apply Hprop|eauto]. }
  assert (Hflt : filter (fun y => key_of (s_pks s) y ∉ key_of (s_pks s) <$> data) before = unmatched e before).
  { apply filter_ext_in. intros y Hy. rewrite <-not_true_iff_false.
    rewrite (key_matches (s_pks s) data e y) by (try done; by intros; apply Hprop). done. }
  assert (Hll : ∀ P, P = (fun r => matches e r = true) → lossless (snap_layout (w_fs w) base) P
     ↔ lossless (snap_layout (w_fs w) base) (fun r => key_of (s_pks s) r ∈ key_of (s_pks s) <$> data)).
  { intros P ->. split; apply lossless_iff; intros man t r Hman Ht Hr';
      rewrite (key_matches (s_pks s) data e r); try done; by eapply layout_row. }
  rewrite Hflt. setoid_rewrite <-(Hll _ eq_refl).
  pose proof Hsel as Heq. apply tsel_columns in Heq.
  pose proof (written_by_perm n data Hn) as Hperm.
  assert (Hshow : show s <$> written_by n data = rows).
  { change (show s <$> written_by n data) with (columns (out_names s) <$> written_by n data). done. }
  destruct aop as [pap|].
  2:{ cbn in Haop. rewrite Haop in Hshow. destruct data; [done|]. apply Permutation_length in Hperm.
      destruct (written_by n _); [done|]. done. }
  destruct Haop as (Hwpa&Hdelp&Hres2&Hst&Htr).
  assert (Hb2 : bounded w2) by by eapply wle_bounded.
  pose proof (wnew_keeps _ _ Hbw Hw02) as Hk02. pose proof (wnew_keeps _ _ Hb2 Hw2) as Hk21.
  set (T := filter (touched e w) (fset_files (fset_at (w_fs w) mf (sn_idx base)))).
  assert (Hcase : (T = [] ∧ pa_del_idx pa = [] ∧ pa_add_idx pa = pa_add_idx pap)
    ∨ ∃ pd, delete_out s e w (fset_at (w_fs w) mf (sn_idx base)) (Some pd) w2
         ∧ pa_del_idx pa = pa_del_idx pd ∧ pa_add_idx pa = pa_add_idx pd ++ pa_add_idx pap).
  { destruct Hdel as [(Hf&->&->)|(Hf&Hdel)].
    - left. unfold T. rewrite Hf in *. injection Hp as ->. cbn. by rewrite Hdelp.
    - destruct (fset_files (fset_at (w_fs w) mf (sn_idx base))) as [|d0 ds] eqn:Hfs; [done|].
      destruct dop as [pd|]; injection Hp as ->.
      + right. exists pd. split; [done|]. cbn. by rewrite Hdelp, app_nil_r.
      + left. split; [unfold T; first [exact Hdel|rewrite <-Hfs; exact Hdel]|]. cbn. by rewrite Hdelp. }
  clear Hp. destruct Hcase as [(HT&Hdp&Hap)|(pd&Hdo&Hdp&Hap)].
  - destruct (no_hit_exact s e w mf base before Hs Hwb Hold Hsafe Hmf Hnan Hdec HT) as [Hun Hls].
    exists before, [], (written_by n data). rewrite app_nil_r, Hun, Hshow. split_and!; try done. apply Hrd.
    eapply fn_done_adds; [exact Hd|done|done| |exact Htr]. by rewrite Hap.
  - assert (Hsh : shows s (w_fs w1) (man_rows (w_fs w1) (pa_add_idx pap ≫= man_at (w_fs w1))) rows) by (apply shows_iff; eauto).
    destruct (delete_exact s e w mf base before Hs Hwb Hold Hsafe Hmf Hnan Hdec pd w2
        (w_fs (y_world (after σ hid (run_ray_insert E fo n MUpsert data)))) sn (pa_add_idx pap) rows)
      as (new&lost&H1&H2&H3); try done.
    + by eapply keeps_trans.
    + by rewrite Hidx, Hdp, Hap.
    + eapply shows_man_keeps; [exact Hk2|apply Hwpa|done].
    + exists new, lost, (written_by n data). rewrite Hshow. split_and!; try done; [by apply Hrd|apply H3..].
Qed.
