(** Reading through Ray: tasks for row ranges of files, and streams of change
    files. *)
From Verif.Model Require Import System RayOps.
From Verif.Spec Require Import Logical Api Layout.
From Verif.Proofs Require Import Lib World Resolve AppendSpec SchemaFacts ReadSpec Wf OpSpec Inv FileSet Ops Bodies Txn
  SysInv ReadRun Effects Observe View Calls Reads Diff Shards.

(** * Tasks *)
Lemma nonempty_concat (ts : list (list row)) : concat (nonempty_tables ts) = concat ts.
Proof.
  unfold nonempty_tables. induction ts as [|t ts IH]; [done|]. rewrite filter_cons.
  case_decide as Ht; cbn; [by rewrite IH|]. by subst t.
Qed.
Lemma nonempty_all (ts : list (list row)) : Forall (fun t => t ≠ []) (nonempty_tables ts).
Proof. apply Forall_forall. by intros t [? _]%elem_of_list_filter. Qed.

(** Positions of a range in order. *)
Lemma mask_slices (sel : nat → Prop) `{∀ i, Decision (sel i)} {A} (rows : list A) size k :
  length rows ≤ k * size →
  seq 0 k ≫= (fun i => snd <$> filter (fun ir => sel ir.1 ∧ in_slice (Some (i * size, ((i + 1) * size) `min` length rows)) ir.1 = true)
                       (imap pair rows))
  = snd <$> filter (fun ir => sel ir.1) (imap pair rows).
Proof.
  intros Hk.
  assert (Hg : ∀ j, seq 0 j ≫= (fun i => snd <$> filter (fun ir => sel ir.1 ∧ in_slice (Some (i * size, ((i + 1) * size) `min` length rows)) ir.1 = true)
                       (imap pair rows)) = snd <$> filter (fun ir => sel ir.1) (take (j * size) (imap pair rows))).
  { intros j. induction j as [|j IH]; [done|]. rewrite seq_S, bind_app, IH. cbn [plus].
    replace (S j * size) with (j * size + size) by lia. rewrite <-take_take_drop, filter_app, fmap_app. f_equal.
    rewrite bind_cons. cbn [mbind list_bind]. rewrite app_nil_r. f_equal.
    assert (Hpos : ∀ (l : list A) off a b, filter (fun ir => sel ir.1 ∧ in_slice (Some (a, b `min` (off + length l))) ir.1 = true)
        (imap (fun i x => (off + i, x)) l)
      = filter (fun ir => sel ir.1) (take (b - a `max` off) (drop (a - off) (imap (fun i x => (off + i, x)) l)))).
    { clear. intros l. induction l as [|x l IH]; intros off a b.
      - cbn. by rewrite drop_nil, take_nil.
      - cbn [imap]. rewrite (imap_ext _ ((fun i x => (S off + i, x))) l) by (intros; cbn; f_equal; lia).
        rewrite filter_cons.
        replace (off + length (x :: l)) with (S off + length l) by (cbn; lia).
        rewrite IH. cbn [fst]. unfold in_slice at 1.
        destruct (le_lt_dec a (off + 0)) as [Ha|Ha].
        + replace (a - off) with 0 by lia. rewrite drop_0.
          destruct (le_lt_dec b (off + 0)) as [Hb|Hb].
          * rewrite decide_False.
            2:{ intros [_ Hx]. apply andb_true_iff in Hx as [_ Hx%Nat.ltb_lt]. lia. }
            replace (b - a `max` off) with 0 by lia. replace (b - a `max` S off) with 0 by lia. done.
          * replace (b - a `max` off) with (S (b - a `max` S off)) by lia. cbn [take].
            replace (a - S off) with 0 by lia. rewrite drop_0, filter_cons. cbn [fst].
            destruct (decide (sel (off + 0))).
            -- rewrite !decide_True; try done. split; [done|]. apply andb_true_iff.
               split; [by apply Nat.leb_le|]. apply Nat.ltb_lt. lia.
            -- rewrite !decide_False; try done; tauto.
        + rewrite decide_False.
          2:{ intros [_ Hx]. apply andb_true_iff in Hx as [Hx%Nat.leb_le _]. lia. }
          replace (a - off) with (S (a - S off)) by lia. cbn [drop].
          replace (a `max` off) with (a `max` S off) by lia. done. }
    specialize (Hpos rows 0 (j * size) ((j + 1) * size)). rewrite Nat.max_0_r, Nat.sub_0_r, Nat.add_0_l in Hpos.
    replace ((j + 1) * size - j * size) with size in Hpos by nia. exact Hpos. }
  rewrite Hg. rewrite take_ge; [done|]. rewrite imap_length. done.
Qed.

(** [n] rows according to the statistics. *)
Definition counted (df : data_file) (rows : list row) : Prop := st_rows (df_stats df) = Z.of_nat (length rows).
Lemma fmap_concat_bind {A B} (f : A → list B) l : concat (f <$> l) = l ≫= f.
Proof. induction l as [|x l IH]; [done|]. cbn. by rewrite IH. Qed.
Lemma bind_ext_in {A B} (f g : A → list B) l : (∀ x, x ∈ l → f x = g x) → l ≫= f = l ≫= g.
Proof.
  induction l as [|x l IH]; intros Hfg; [done|]. cbn. rewrite Hfg by (left). f_equal. apply IH. intros. apply Hfg. by right.
Qed.
Lemma fmap_bind {A B C} (f : A → B) (g : B → list C) (l : list A) : (f <$> l) ≫= g = l ≫= (fun x => g (f x)).
Proof. induction l as [|x l IH]; [done|]. cbn. by rewrite <-IH. Qed.
Lemma task_rows blocks batch flt df rows :
  counted df rows → df_slice df = None → mask_ok flt df rows →
  read_tasks blocks batch [df] ≫= (fun t => pick_rows flt t rows) = pick_rows flt df rows.
Proof.
  intros Hc Hsl Hm. unfold read_tasks. cbn [mbind list_bind]. rewrite app_nil_r. cbv beta zeta.
  assert (Z.to_nat (st_rows (df_stats df)) = length rows) as -> by (by rewrite Hc, Nat2Z.id).
  destruct (Nat.eqb_spec (length rows) 0) as [|Hne]; [cbn; by rewrite app_nil_r|].
  destruct blocks; [|cbn; by rewrite app_nil_r].
  destruct batch as [[|b]|]; [cbn; by rewrite app_nil_r| |cbn; by rewrite app_nil_r].
  set (size := S b). destruct (ceil_div_spec (length rows) size ltac:(lia)) as [Hcd _].
  rewrite fmap_bind.
  unfold mask_ok in Hm. unfold pick_rows at 2. rewrite Hsl.
  destruct (df_bitmap df) as [bits|] eqn:Hbm.
  - destruct Hm as [-> _].
    etransitivity; [|etransitivity; [exact (mask_slices (fun i => i ∈ bits) rows size _ Hcd)|]].
    + apply bind_ext_in. intros i _. unfold pick_rows. cbn [df_bitmap df_slice with_slice]. rewrite Hbm. f_equal.
      apply filter_ext_in. intros ir _. rewrite elem_of_list_filter. tauto.
    + f_equal. apply filter_ext_in. intros ir _. rewrite elem_of_list_filter. cbn. tauto.
  - set (kept := match flt with None => rows | Some e => filter (fun r => matches e r = true) rows end).
    assert (Hk : length kept ≤ length rows) by (unfold kept; destruct flt; [apply filter_length|done]).
    rewrite <-(slices_concat kept (length rows) size _ Hk Hcd) at 1. rewrite fmap_concat_bind.
    apply bind_ext_in. intros i _. unfold pick_rows. cbn [df_bitmap df_slice with_slice]. rewrite Hbm. done.
Qed.
Lemma read_tasks_bind blocks batch dfs : read_tasks blocks batch dfs = dfs ≫= (fun df => read_tasks blocks batch [df]).
Proof. unfold read_tasks. apply bind_ext_in. intros df _. cbn. by rewrite app_nil_r. Qed.
Lemma tasks_rows blocks batch flt (rowsof : path → list row) dfs :
  (∀ df, df ∈ dfs → counted df (rowsof (df_path df)) ∧ df_slice df = None ∧ mask_ok flt df (rowsof (df_path df))) →
  read_tasks blocks batch dfs ≫= (fun t => pick_rows flt t (rowsof (df_path t)))
  = dfs ≫= (fun df => pick_rows flt df (rowsof (df_path df))).
Proof.
  intros Hd. rewrite read_tasks_bind. induction dfs as [|df dfs IH]; [done|].
  rewrite !bind_cons, bind_app. f_equal.
  - destruct (Hd df) as (Hc&Hs&Hm); [left|]. rewrite <-(task_rows blocks batch flt df _ Hc Hs Hm).
    apply bind_ext_in. intros t Ht. f_equal. f_equal. unfold read_tasks in Ht. cbn [mbind list_bind] in Ht.
    rewrite app_nil_r in Ht. destruct (Nat.eqb _ _); [by apply elem_of_list_singleton in Ht as ->|].
    destruct blocks; [|by apply elem_of_list_singleton in Ht as ->].
    destruct batch as [[|b]|]; try (by apply elem_of_list_singleton in Ht as ->).
    apply elem_of_list_fmap in Ht as (i&->&_). done.
  - apply IH. intros. apply Hd. by right.
Qed.
(** What a task is. *)
Lemma task_of blocks batch dfs t : t ∈ read_tasks blocks batch dfs →
  ∃ df, df ∈ dfs ∧ df_path t = df_path df ∧ df_bitmap t = df_bitmap df
    ∧ (t = df ∨ ∃ a b, df_slice t = Some (a, b)).
Proof.
  unfold read_tasks. intros (df&Ht&Hdf)%elem_of_list_bind. exists df. split; [done|].
  destruct (Nat.eqb _ _); [apply elem_of_list_singleton in Ht as ->; eauto|].
  destruct blocks; [|apply elem_of_list_singleton in Ht as ->; eauto].
  destruct batch as [[|b]|]; try (apply elem_of_list_singleton in Ht as ->; eauto).
  apply elem_of_list_fmap in Ht as (i&->&_). cbn. eauto 6.
Qed.
Lemma task_bound n flt (rowsof : path → list row) dfs t :
  (∀ df, df ∈ dfs → counted df (rowsof (df_path df)) ∧ df_slice df = None) →
  1 ≤ n → t ∈ read_tasks true (Some n) dfs → length (pick_rows flt t (rowsof (df_path t))) ≤ n.
Proof.
  intros Hd Hn Ht. unfold read_tasks in Ht. apply elem_of_list_bind in Ht as (df&Ht&Hdf).
  destruct (Hd df Hdf) as [Hc Hsl].
  destruct (Nat.eqb_spec (Z.to_nat (st_rows (df_stats df))) 0) as [H0|_].
  { apply elem_of_list_singleton in Ht as ->. rewrite Hc, Nat2Z.id in H0.
    destruct (rowsof (df_path df)) as [|r rows]; [|done]. unfold pick_rows.
    destruct flt, (df_bitmap df); cbn; rewrite ?Hsl; cbn; lia. }
  destruct n as [|b]; [lia|]. apply elem_of_list_fmap in Ht as (i&->&_).
  set (size := S b). unfold pick_rows. cbn [df_bitmap df_slice with_slice df_path].
  set (kept := match flt with None => _ | Some e => _ end).
  set (hi := ((i + 1) * size) `min` _).
  assert (hi - i * size ≤ size) as Hhi by (unfold hi; nia).
  destruct (df_bitmap df) as [bits|].
  - rewrite fmap_length, <-(fmap_length fst).
    transitivity (length (seq (i * size) (hi - i * size))); [|by rewrite seq_length].
    apply submseteq_length. apply NoDup_submseteq.
    + assert (Hnd : NoDup (imap (@pair nat row) kept).*1).
      { assert ((imap (@pair nat row) kept).*1 = seq 0 (length kept)) as ->; [|apply NoDup_seq].
        apply list_eq. intros j. rewrite list_lookup_fmap, list_lookup_imap. destruct (kept !! j) eqn:Hj; cbn.
        - symmetry. apply lookup_seq. split; [lia|]. by eapply lookup_lt_Some.
        - symmetry. apply lookup_seq_ge. by apply lookup_ge_None. }
      revert Hnd. generalize (imap (@pair nat row) kept). intros l. induction l as [|[j r] l IH]; [constructor|]. cbn [fmap list_fmap fst].
      rewrite NoDup_cons. intros [Hnin Hnd]. rewrite filter_cons. case_decide; [|by apply IH]. cbn [fmap list_fmap fst]. apply NoDup_cons. split; [|by apply IH].
      intros ([j' r']&->&[_ Hin]%elem_of_list_filter)%elem_of_list_fmap. apply Hnin. by apply (elem_of_list_fmap_1 fst) in Hin.
    + intros j ([j' r]&->&[Hsel _]%elem_of_list_filter)%elem_of_list_fmap. cbn in *.
      apply elem_of_list_filter in Hsel as [Hin _]. apply andb_true_iff in Hin as [?%Nat.leb_le ?%Nat.ltb_lt].
      apply elem_of_seq. lia.
  - rewrite take_length. lia.
Qed.

(** * Reading tasks *)
Lemma length_concat_in {A} (ts : list (list A)) t : t ∈ ts → length t ≤ length (concat ts).
Proof.
  induction ts as [|u ts IH]; [by intros ?%elem_of_nil|]. intros [->|Ht]%elem_of_cons; cbn; rewrite app_length; [lia|].
  specialize (IH Ht). lia.
Qed.
Lemma read_files_bound E s o dfs w (rowsof : data_file → list row) lrows N ts :
  wf_schema s → (∀ n, n ∈ selected_fields s o → n ∈ s_names s) →
  (∀ df, df ∈ dfs → readable s (w_fs w) (df_path df) (rowsof df) ∧ mask_ok (ro_filter o) df (rowsof df)
     ∧ length (pick_rows (ro_filter o) df (rowsof df)) ≤ N) →
  resolve_rows (records_in (w_fs w)) (s_recs s)
    (dfs ≫= (fun df => pick_rows (ro_filter o) df (rowsof df))) = Some lrows →
  read_files E s o dfs w = (w, Ok ts) → Forall (fun t => length t ≤ N) ts.
Proof.
  intros Hw Hsel Hdfs Hres Hrun. unfold read_files in Hrun. apply bind_ok in Hrun as (tss&w1&Hm&[= -> <-]).
  revert lrows Hres tss Hm. induction dfs as [|df dfs IH]; intros lrows Hres tss Hm.
  { cbn in Hm. injection Hm as <-. constructor. }
  unfold resolve_rows in Hres. rewrite bind_cons in Hres. apply mapM_app_Some in Hres as (l1&l2&H1&H2&->).
  destruct (Hdfs df) as (Hrd&Hmk&Hlen); [left|].
  destruct (read_one_spec E s o df w (rowsof df) l1) as (ts1&Hts&Hs1&_); auto.
  cbn [mapM_st] in Hm. rewrite (bind_run _ _ w w ts1 Hts) in Hm. apply bind_ok in Hm as (tss'&w2&Hm2&[= -> <-]).
  cbn [concat]. apply Forall_app. split.
  - apply Forall_forall. intros t Ht. apply length_concat_in in Ht. etransitivity; [exact Ht|].
    assert (length (concat ts1) = length (pick_rows (ro_filter o) df (rowsof df))) as ->; [|done].
    destruct (ro_ref o).
    + by apply tsel_length in Hs1.
    + apply tsel_length in Hs1. rewrite Hs1. symmetry. by eapply mapM_length.
  - eapply IH; [|exact H2|exact Hm2]. intros. apply Hdfs. by right.
Qed.
Lemma tasks_read E s o blocks dfs w lrows :
  wf_schema s → (∀ n, n ∈ selected_fields s o → n ∈ s_names s) →
  (∀ df, df ∈ dfs → readable s (w_fs w) (df_path df) (file_rows (w_fs w) (df_path df))
     ∧ mask_ok (ro_filter o) df (file_rows (w_fs w) (df_path df))
     ∧ counted df (file_rows (w_fs w) (df_path df)) ∧ df_slice df = None) →
  resolve_rows (records_in (w_fs w)) (s_recs s)
    (dfs ≫= (fun df => pick_rows (ro_filter o) df (file_rows (w_fs w) (df_path df)))) = Some lrows →
  ∃ ts, read_files E s o (read_tasks blocks (ro_batch o) dfs) w = (w, Ok ts)
    ∧ (if ro_ref o
       then tsel (selected_fields s o) (dfs ≫= (fun df => pick_rows (ro_filter o) df (file_rows (w_fs w) (df_path df)))) = Ok (concat ts)
       else tsel (read_order s (selected_fields s o)) lrows = Ok (concat ts))
    ∧ (∀ n, blocks = true → ro_batch o = Some n → 1 ≤ n → Forall (fun t => length t ≤ n) ts).
Proof.
  intros Hw Hsel Hdfs Hres.
  assert (Hrows : read_tasks blocks (ro_batch o) dfs ≫= (fun t => pick_rows (ro_filter o) t (file_rows (w_fs w) (df_path t)))
    = dfs ≫= (fun df => pick_rows (ro_filter o) df (file_rows (w_fs w) (df_path df)))).
  { apply tasks_rows. intros df Hdf. destruct (Hdfs df Hdf) as (_&?&?&?). done. }
  assert (Ht : ∀ t, t ∈ read_tasks blocks (ro_batch o) dfs →
    readable s (w_fs w) (df_path t) (file_rows (w_fs w) (df_path t)) ∧ mask_ok (ro_filter o) t (file_rows (w_fs w) (df_path t))).
  { intros t (df&Hdf&Hp&Hb&_)%task_of. destruct (Hdfs df Hdf) as (?&Hmk&_). rewrite Hp. split; [done|].
    unfold mask_ok in *. by rewrite Hb. }
  destruct (read_files_spec E s o (read_tasks blocks (ro_batch o) dfs) w (fun t => file_rows (w_fs w) (df_path t)) lrows)
    as (ts&Hrun&Hs&_); try done.
  { by rewrite Hrows. }
  exists ts. split; [done|]. split; [by rewrite Hrows in Hs|].
  intros n -> Hbn Hn. eapply (read_files_bound E s o _ w (fun t => file_rows (w_fs w) (df_path t)) lrows n ts Hw Hsel);
    [|by rewrite Hrows|exact Hrun].
  intros t Hin. destruct (Ht t Hin) as [??]. split_and!; try done. rewrite Hbn in Hin.
  eapply (task_bound n (ro_filter o) (file_rows (w_fs w)) dfs t); [|done|done].
  intros df Hdf. by destruct (Hdfs df Hdf) as (_&_&?&?).
Qed.

Lemma ray_read_run E blocks flt fields v ref b s h w p m :
  winv s w → wf_handle s w h → stored (w_fs w) p m → wf_meta s (w_fs w) m →
  ∃ r, run_ray_read E blocks flt fields v ref b (h, w) = ((sync p m h, w), r)
  ∧ match snap_of m (h_branch h) v with
    | None => r = Err (EUser UVersionNotFound)
    | Some sn =>
        match man_filter s flt with
        | Err e => r = Err e
        | Ok mf =>
            (∀ n, n ∈ read_names s fields → n ∈ s_names s) →
            let rows := filter_rows flt (picked_rows (w_fs w) mf sn) in
            ∃ ts lrows, r = Ok ts
              ∧ resolve_rows (records_in (w_fs w)) (s_recs s) rows = Some lrows
              ∧ (if ref then tsel (read_names s fields) rows = Ok (concat ts)
                 else tsel (read_order s (read_names s fields)) lrows = Ok (concat ts))
              ∧ Forall (fun t => t ≠ []) ts
              ∧ (∀ n, blocks = true → b = Some n → 1 ≤ n → Forall (fun t => length t ≤ n) ts)
        end
    end.
Proof.
  intros Hi Hh Hst Hm. destruct (sync_spec s w p m h Hst Hm Hh) as (Hh0&Hm0&Hf0&Hb0&Hmax).
  unfold run_ray_read. erewrite bind_run; [|by apply reload_run]. rewrite get_handle_bind, lift_bind.
  set (h0 := sync p m h) in *.
  set (sid := match v with None => Ok None | Some v => rmap Some (version_to_snapshot_id h0 v) end).
  assert (Hsid : match sid with
    | Err e => e = EUser UVersionNotFound ∧ snap_of m (h_branch h) v = None
    | Ok i => get_snapshot h0 i = of_opt (EUser UVersionNotFound) (snap_of m (h_branch h) v)
    end).
  { unfold sid, snap_of, version_id, get_snapshot, version_to_snapshot_id, lookup_reference, head_of.
    rewrite Hm0, Hb0. destruct v as [[i|n]|]; cbn.
    - done.
    - destruct (md_refs m !! n); cbn; done.
    - case_decide; cbn; [done|]. by destruct (md_refs m !! h_branch h). }
  destruct sid as [sid'|e] eqn:Hs; clear Hs.
  2:{ destruct Hsid as [-> ->]. eexists. split; done. }
  erewrite bind_run'; [|by apply (data_files_run s); rewrite Hm0]. rewrite Hsid.
  destruct (snap_of m (h_branch h) v) as [sn|] eqn:Hsn; [|by eexists].
  cbn [of_opt]. destruct (man_filter s flt) as [mf|e] eqn:Hmf; [|by eexists]. cbn [rmap].
  assert (Hwf : wf_snap s (w_fs w) sn) by by eapply snap_of_wf.
  rewrite Hm0, (wm_schema _ _ _ Hm).
  set (o := ReadOpts flt fields sid' ref b).
  set (fset := fset_at (w_fs w) mf (sn_idx sn)).
  pose proof (readonly_read_files E s o (read_tasks blocks b (fset_files fset)) w) as Hro.
  destruct (read_files E s o (read_tasks blocks b (fset_files fset)) w) as [w1 r] eqn:Hrd. cbn in Hro. subst w1.
  erewrite bind_run'; [|by apply liftM_run].
  exists (rmap nonempty_tables r). split; [by destruct r|]. intros Hsel. cbv zeta.
  pose proof (files_rows (w_fs w) mf sn flt) as Hrows. fold fset in Hrows.
  set (rows := filter_rows flt (picked_rows (w_fs w) mf sn)) in *.
  assert (Hlist : Forall (listed s w) (fset_files fset)) by (apply fset_listed; apply Hwf).
  destruct (content_some s (w_fs w) sn Hwf) as [l Hl].
  destruct (resolve_rows_sub _ _ _ _ rows Hl) as [lrows Hlr].
  { intros r' Hr'. assert (Hin : r' ∈ picked_rows (w_fs w) mf sn).
    { unfold rows in Hr'. destruct flt; [|done]. by apply elem_of_list_filter in Hr' as [_ ?]. }
    unfold picked_rows in Hin. rewrite man_rows_bind in Hin. apply elem_of_list_bind in Hin as (m'&Hr1&[_ Hm']%elem_of_list_filter).
    unfold phys_rows. rewrite man_rows_bind. apply elem_of_list_bind. eauto. }
  destruct (tasks_read E s o blocks (fset_files fset) w lrows) as (ts&Hts&Hsels&Hb).
  - apply Hi.
  - intros n. unfold o. rewrite selected_names. apply Hsel.
  - intros df Hdf. eapply Forall_forall in Hlist; [|exact Hdf]. pose proof (listed_rows _ _ _ Hlist) as Hcnt.
    destruct Hlist as (Hbm&Hsl&m'&Hm'&Hp'&_). rewrite Hp'. split_and!; try done.
    + by apply wf_mrow_readable.
    + unfold mask_ok. by rewrite Hbm.
    + rewrite <-Hp'. exact Hcnt.
  - cbn [ro_filter o]. by rewrite Hrows.
  - cbn [ro_batch o] in Hts. rewrite Hrd in Hts. injection Hts as ->. exists (nonempty_tables ts), lrows. cbn [rmap].
    split_and!; try done.
    + rewrite nonempty_concat. unfold o in Hsels. rewrite selected_names in Hsels. cbn [ro_ref ro_filter] in Hsels.
      rewrite Hrows in Hsels. exact Hsels.
    + apply nonempty_all.
    + intros n Hbl Hbn Hn. specialize (Hb n Hbl Hbn Hn). rewrite Forall_forall in Hb |- *.
      intros t [_ Ht]%elem_of_list_filter. by apply Hb.
Qed.

Lemma ray_read_same σ hid s E E' blocks flt fields v ref b b' :
  reachable σ → schema_at σ hid = Some s → (∀ n, n ∈ read_names s fields → n ∈ s_names s) →
  (fun r => rmap (@concat row) r) <$> result σ hid (run_ray_read E blocks flt fields v ref b)
  = result σ hid (run_read_all E' flt fields v ref b').
Proof.
  intros Hr Hs Hf. unfold schema_at in Hs. apply fmap_Some in Hs as (h&Hh&_Hs).
  destruct (reachable_seen _ _ _ Hr Hh) as (s'&p&m&Hseen). pose proof Hseen as [Hsi _ Hwf Hst Hm Hsch].
  assert (s' = s) as -> by (rewrite _Hs; symmetry; apply Hwf).
  pose proof (si_world _ _ Hsi) as Hi.
  destruct (ray_read_run E blocks flt fields v ref b s h _ p m Hi Hwf Hst Hm) as (r&Hrun&Hcase).
  destruct (run_read_run E' flt fields v ref b' s h _ p m Hi Hwf Hst Hm) as (r'&Hrun'&Hcase').
  rewrite result_read_all, !(result_eq _ _ _ _ Hh), Hrun, Hrun'. cbn [snd fmap option_fmap option_map]. f_equal.
  destruct (snap_of m (h_branch h) v) as [sn|]; [|by rewrite Hcase, Hcase'].
  destruct (man_filter s flt) as [mf|e]; [|by rewrite Hcase, Hcase'].
  destruct (Hcase Hf) as (ts&lrows&->&Hl&Hsel&_). destruct (Hcase' Hf) as (ts'&lrows'&->&Hl'&Hsel').
  cbn [rmap]. f_equal. rewrite Hl in Hl'. injection Hl' as <-. destruct ref.
  - rewrite Hsel in Hsel'. by injection Hsel'.
  - destruct Hsel' as [Hsel' _]. rewrite Hsel in Hsel'. by injection Hsel'.
Qed.
Lemma ray_read_blocks σ hid s E blocks flt fields v ref b ts :
  reachable σ → schema_at σ hid = Some s → (∀ n, n ∈ read_names s fields → n ∈ s_names s) →
  result σ hid (run_ray_read E blocks flt fields v ref b) = Some (Ok ts) →
  Forall (fun t => t ≠ []) ts
  ∧ (∀ n, blocks = true → b = Some n → 1 ≤ n → Forall (fun t => length t ≤ n) ts).
Proof.
  intros Hr Hs Hf Hres. unfold schema_at in Hs. apply fmap_Some in Hs as (h&Hh&_Hs).
  destruct (reachable_seen _ _ _ Hr Hh) as (s'&p&m&Hseen). pose proof Hseen as [Hsi _ Hwf Hst Hm Hsch].
  assert (s' = s) as -> by (rewrite _Hs; symmetry; apply Hwf).
  pose proof (si_world _ _ Hsi) as Hi.
  destruct (ray_read_run E blocks flt fields v ref b s h _ p m Hi Hwf Hst Hm) as (r&Hrun&Hcase).
  rewrite (result_eq _ _ _ _ Hh), Hrun in Hres. cbn in Hres. injection Hres as ->.
  destruct (snap_of m (h_branch h) v) as [sn|]; [|done].
  destruct (man_filter s flt) as [mf|e]; [|done].
  destruct (Hcase Hf) as (ts'&lrows&[= <-]&Hl&Hsel&?&?). done.
Qed.

(** The row ranges of the tasks of one file. *)
Lemma task_ranges df b :
  1 ≤ b → (0 < st_rows (df_stats df))%Z →
  concat ((fun t => match df_slice t with Some (x, y) => seq x (y - x) | None => [] end) <$> read_tasks true (Some b) [df])
  = seq 0 (Z.to_nat (st_rows (df_stats df))).
Proof.
  intros Hb Hn. unfold read_tasks. cbn [mbind list_bind]. rewrite app_nil_r. cbv zeta.
  set (n := Z.to_nat (st_rows (df_stats df))). destruct (Nat.eqb_spec n 0); [lia|]. destruct b as [|b]; [lia|].
  rewrite <-list_fmap_compose. unfold compose. cbn [with_slice df_slice].
  pose proof (ceil_div_spec n (S b) ltac:(lia)) as [Hc _].
  rewrite <-(slices_concat (seq 0 n) n (S b) (ceil_div n (S b))) by (rewrite ?seq_length; lia).
  f_equal. apply list_fmap_ext. intros _ i _. unfold slice_of.
  apply list_eq. intros j.
  destruct (decide (i * S b + j < n ∧ j < ((i + 1) * S b) `min` n - i * S b)) as [[H1 H2]|H3].
  - rewrite lookup_take by lia. rewrite lookup_drop, !lookup_seq_lt by lia. f_equal.
  - rewrite lookup_seq_ge by lia. symmetry. apply lookup_ge_None. rewrite take_length, drop_length, seq_length. lia.
Qed.
(** The fields asked for are fields of the schema. *)
Lemma known_fields s fields :
  (∀ ns n, fields = Some ns → n ∈ ns → n ∈ s_names s) → ∀ n, n ∈ read_names s fields → n ∈ s_names s.
Proof. intros Hf n Hn. destruct fields as [ns|]; [by eapply Hf|done]. Qed.
Lemma ray_read_local σ hid s E E' blocks flt fields v ref b b' :
  reachable σ → schema_at σ hid = Some s → (∀ ns n, fields = Some ns → n ∈ ns → n ∈ s_names s) →
  (fun r => rmap (@concat row) r) <$> result σ hid (run_ray_read E blocks flt fields v ref b)
  = result σ hid (run_read_all E' flt fields v ref b').
Proof. intros Hr Hs Hf. by eapply ray_read_same, known_fields. Qed.
Lemma ray_read_sizes σ hid s E blocks flt fields v ref b ts :
  reachable σ → schema_at σ hid = Some s → (∀ ns n, fields = Some ns → n ∈ ns → n ∈ s_names s) →
  result σ hid (run_ray_read E blocks flt fields v ref b) = Some (Ok ts) →
  Forall (fun t => t ≠ []) ts
  ∧ (∀ n, blocks = true → b = Some n → 1 ≤ n → Forall (fun t => length t ≤ n) ts).
Proof. intros Hr Hs Hf. by eapply ray_read_blocks, known_fields. Qed.
