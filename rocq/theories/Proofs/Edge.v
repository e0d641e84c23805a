(** How the change log and the row count of a snapshot relate its rows to those
    of its parent. *)
From Verif.Model Require Import System.
From Verif.Spec Require Import Logical Pruning Keys Layout Changes Orderly.
From Verif.Proofs Require Import Shards Merge RayAppend RayInsert RayDelete RayEffects RayAccounts.
From Verif.Spec Require Merging.
From Verif.Proofs Require Import Lib FalsifySound World Resolve AppendSpec SchemaFacts ReadSpec Bounds Wf OpSpec
  Inv FileSet Ops Bodies Txn SysInv ReadRun Effects Observe View Prune Keys DeleteEffect Mutations Calls Durable Evolve History Serial Diff Orderly.

(** * Rows of bitmaps *)
Lemma readable_rows s fs p rows : readable s fs p rows → file_rows fs p = rows.
Proof. intros (cols&gs&Hp&->&_). unfold file_rows. by rewrite Hp. Qed.
Lemma bitmap_rows_keeps s fs fs' b : wf_bitmap s fs b → keeps fs fs' → bitmap_rows fs' b = bitmap_rows fs b.
Proof.
  intros (rows&Hr&_) Hk. unfold bitmap_rows. rewrite (readable_rows _ _ _ _ Hr).
  by rewrite (readable_rows s fs' _ rows) by (by eapply readable_keeps).
Qed.
Lemma log_rows_keeps s fs fs' bs : Forall (wf_bitmap s fs) bs → keeps fs fs' → log_rows fs' bs = log_rows fs bs.
Proof.
  intros Hbs Hk. induction Hbs as [|b bs Hb _ IH]; [done|]. unfold log_rows in *. rewrite !bind_cons, IH.
  by rewrite (bitmap_rows_keeps s fs fs').
Qed.
Lemma added_rows fs ms : log_rows fs (added_bitmap <$> ms) = man_rows fs ms.
Proof.
  induction ms as [|m ms IH]; [done|]. unfold log_rows in *. rewrite fmap_cons, bind_cons, man_rows_cons, IH. done.
Qed.
Lemma kept_pos_in e w df i : i ∈ kept_pos e w df ↔ ∃ r, drows w df !! i = Some r ∧ matches (EUn FnNot e) r = true.
Proof.
  unfold kept_pos. rewrite elem_of_list_fmap. split.
  - intros ([j r]&->&[Hm Hin]%elem_of_list_filter). apply elem_of_lookup_imap in Hin as (k&x&[= -> ->]&Hl). eauto.
  - intros (r&Hr&Hm). exists (i, r). split; [done|]. apply elem_of_list_filter. split; [done|].
    apply elem_of_lookup_imap. eauto.
Qed.
Definition dropped (e : filter_expr) (rows : list row) : list row :=
  filter (fun r => matches (EUn FnNot e) r ≠ true) rows.
Lemma deleted_rows s e w df :
  listed s w df → bitmap_rows (w_fs w) (build_bitmap df (kept_pos e w df)) = dropped e (drows w df).
Proof.
  intros Hl. pose proof (listed_rows _ _ _ Hl) as Hst. unfold bitmap_rows. rewrite build_bitmap_file.
  fold (drows w df). unfold build_bitmap. case_decide as Hk.
  - unfold pick_rows. cbn. symmetry. apply filter_every. intros r Hr Hm. apply elem_of_list_lookup in Hr as [i Hi].
    assert (i ∈ kept_pos e w df) as Hin by (apply kept_pos_in; eauto). rewrite Hk in Hin. by apply elem_of_nil in Hin.
  - unfold pick_rows, dropped. cbn. rewrite Hst, Nat2Z.id.
    rewrite <-(filter_imap_snd (fun r => matches (EUn FnNot e) r ≠ true) (drows w df) pair) by done. f_equal.
    apply filter_ext_in. intros [i r] Hin. apply elem_of_lookup_imap in Hin as (k&x&[= -> ->]&Hl'). cbn.
    rewrite !elem_of_list_filter, elem_of_seq, kept_pos_in. pose proof (lookup_lt_Some _ _ _ Hl') as Hlt. split.
    + intros (_&Hn&_) Hm. apply Hn. eauto.
    + intros Hn. split_and!; [done| |lia|lia]. intros (r'&Hr'&Hm). apply Hn. rewrite Hl' in Hr'. by injection Hr' as ->.
Qed.
Lemma dropped_app e a b : dropped e (a ++ b) = dropped e a ++ dropped e b.
Proof. apply filter_app. Qed.
Lemma dropped_length e rows :
  length (dropped e rows) + length (filter (fun r => matches (EUn FnNot e) r = true) rows) = length rows.
Proof.
  rewrite (filter_split (fun r => matches (EUn FnNot e) r = true) rows) at 3. rewrite app_length. unfold dropped. lia.
Qed.
Lemma log_deleted s e w dfs :
  Forall (listed s w) dfs →
  log_rows (w_fs w) ((fun df => build_bitmap df (kept_pos e w df)) <$> dfs) = dropped e (dfs ≫= drows w).
Proof.
  induction 1 as [|df dfs Hdf _ IH]; [done|]. unfold log_rows in *.
  rewrite fmap_cons, !bind_cons, dropped_app, IH. by rewrite (deleted_rows s).
Qed.
Lemma drop_count_rows e w D :
  drop_count e w D = Z.of_nat (length (dropped e (filter (touched e w) D ≫= drows w))).
Proof.
  induction D as [|df D IH]; [done|]. rewrite drop_count_cons, filter_cons, IH. pose proof (dropped_length e (drows w df)) as Hd.
  change (filter (λ r, matches (EUn FnNot e) r = true) (drows w df)) with (kept e w df) in Hd. case_decide as Ht.
  - rewrite bind_cons, dropped_app, app_length. lia.
  - unfold touched in Ht. apply dec_stable in Ht. lia.
Qed.

(** * A deletion *)
Lemma delete_edge s e w mf base pd w1 fs' sn extra xs old :
  wf_snap s (w_fs w) base →
  delete_out s e w (fset_at (w_fs w) mf (sn_idx base)) (Some pd) w1 →
  keeps (w_fs w) (w_fs w1) → keeps (w_fs w1) fs' →
  sn_idx sn = filter (fun x => x ∉ pa_del_idx pd) (sn_idx base) ++ pa_add_idx pd ++ extra →
  shows s fs' (man_rows fs' (extra ≫= man_at fs')) xs →
  snap_rows s (w_fs w) base old →
  ∃ kept del lost bs, old ≡ₚ kept ++ del ++ lost ∧ snap_rows s fs' sn (kept ++ xs)
    ∧ pa_log pd = Some (ChangeLog bs []) ∧ shows s fs' (log_rows fs' bs) del
    ∧ st_rows (pa_stats pd) = (- Z.of_nat (length del))%Z
    ∧ (wf_schema s → safe_filter s e → build_manifest_filter (fenv_of s) e = Ok mf → no_nan_keys (s_pks s) old →
       decided e old → lossless (snap_layout (w_fs w) base) (fun r => matches e r = true) → lost = []).
Proof.
  intros Hb Hd Hk1 Hk2 Hidx Hx Hold.
  destruct (delete_view s e w mf base pd w1 fs' sn extra xs old Hb Hd Hk1 Hk2 Hidx Hx Hold)
    as (am&sm&ya&ys&yh&yk&Hshape&Hmiss&_&_&_&Hp&Hya&Hys&Hyh&Hyk&Hnew).
  pose proof Hd as (HT&mids&mans&lkept&_&_&_&_&_&_&_&Hlog&Hst).
  set (fset := fset_at (w_fs w) mf (sn_idx base)) in *. set (T := filter (touched e w) (fset_files fset)) in *.
  set (hm := filter (hit e w mf) (snap_mrows (w_fs w) base)) in *.
  assert (Hlst : Forall (listed s w) (fset_files fset)) by (by apply fset_listed, Hb).
  assert (HlT : Forall (listed s w) T).
  { apply Forall_forall. intros df [_ Hin]%elem_of_list_filter. by eapply Forall_forall in Hlst. }
  assert (HTr : T ≫= drows w = man_rows (w_fs w) hm).
  { transitivity ((df_path <$> T) ≫= file_rows (w_fs w)).
    - clear. induction T as [|x l IH]; [done|]. rewrite fmap_cons, !bind_cons, IH. done.
    - unfold T, fset. rewrite (touched_paths e w mf base). fold hm. rewrite man_rows_bind.
      generalize hm. intros l. induction l as [|x l IH]; [done|]. by rewrite fmap_cons, !bind_cons, IH. }
  assert (Hbs : Forall (wf_bitmap s (w_fs w)) ((fun df => build_bitmap df (kept_pos e w df)) <$> T)).
  { apply Forall_fmap. eapply Forall_impl; [exact HlT|]. intros df Hdf. by apply build_bitmap_wf. }
  pose proof (log_deleted s e w T HlT) as Hrows. rewrite HTr in Hrows.
  destruct (shows_sub s (w_fs w) _ (dropped e (man_rows (w_fs w) hm)) _ Hyh) as [yd Hyd].
  { by intros r [_ ?]%elem_of_list_filter. }
  assert (Hph : yh ≡ₚ yk ++ yd).
  { destruct (Forall2_perm_l _ _ _ _ (filter_split (fun r => matches (EUn FnNot e) r = true) (man_rows (w_fs w) hm)) Hyh)
      as (y'&Hy'&Hperm). apply Forall2_app_inv_l in Hy' as (k1&k2&Hk1'&Hk2'&->).
    rewrite Hperm. by rewrite (shows_fun _ _ _ _ _ Hk1' Hyk), (shows_fun _ _ _ _ _ Hk2' Hyd). }
  set (lost := match yk with [] => ys | _ => [] end).
  exists (ya ++ match yk with [] => [] | _ => ys ++ yk end), yd, lost, ((fun df => build_bitmap df (kept_pos e w df)) <$> T).
  assert (Hperm : old ≡ₚ (ya ++ match yk with [] => [] | _ => ys ++ yk end) ++ yd ++ lost).
  { rewrite Hp, Hph. unfold lost. destruct yk as [|y yk].
    - cbn [app]. rewrite app_nil_r. by rewrite (Permutation_app_comm ys).
    - rewrite app_nil_r, <-!app_assoc. done. }
  refine (conj Hperm (conj _ (conj Hlog (conj _ (conj _ _))))).
  - by rewrite <-app_assoc.
  - rewrite (log_rows_keeps s (w_fs w) fs'); [|done|by eapply keeps_trans]. rewrite Hrows.
    apply (shows_keeps s (w_fs w)); [by eapply keeps_trans|done].
  - rewrite (proj1 Hst), drop_count_rows. fold T. rewrite HTr. f_equal. f_equal. by eapply Forall2_length.
  - intros Hs Hsafe Hmf Hnan Hdec Hll.
    destruct (delete_exact s e w mf base old Hs Hb Hold Hsafe Hmf Hnan Hdec pd w1 fs' sn extra xs Hd Hk1 Hk2 Hidx Hx)
      as (new&lost'&Hnew'&Hun&Hll'). rewrite (proj2 Hll' Hll), app_nil_r in Hun. clear Hll'.
    rewrite app_assoc in Hnew. pose proof (snap_rows_fun _ _ _ _ _ Hnew Hnew') as Heq. apply app_inv_tail in Heq.
    rewrite Heq in Hperm.
    assert (Hul : filter (fun y => matches e y = false) lost = lost).
    { apply filter_every. intros y Hy. assert (Hyy : y ∈ ys) by (unfold lost in Hy; destruct yk; [done|by apply elem_of_nil in Hy]).
      apply elem_of_list_lookup in Hyy as [i Hi]. destruct (Forall2_lookup_r _ _ _ _ _ Hys Hi) as (r&Hr&Hv).
      apply elem_of_list_lookup_2 in Hr. rewrite man_rows_bind in Hr. apply elem_of_list_bind in Hr as (m&Hr&Hm).
      assert (Hms : misses e w mf base m) by (apply Hmiss, elem_of_app; by right).
      rewrite <-(miss_row s e w mf base old Hs Hb Hold Hsafe Hmf Hnan Hdec m r Hms Hr).
      eapply vrow_matches; [done| |apply Hsafe]. destruct Hms as [Hin _]. by eapply (shown_row s (w_fs w) base old m r). }
    assert (Hun' : filter (fun y => matches e y = false) old
      ≡ₚ filter (fun y => matches e y = false) new ++ filter (fun y => matches e y = false) yd ++ lost).
    { rewrite Hperm, !filter_app, Hul. done. }
    unfold unmatched in Hun. assert (Hnn : filter (fun y => matches e y = false) new = new).
    { apply filter_every. intros y Hy. rewrite <-Hun in Hy. by apply elem_of_list_filter in Hy as [? _]. }
    rewrite Hnn in Hun'. rewrite Hun in Hun'. apply Permutation_length in Hun'. rewrite !app_length in Hun'.
    destruct lost; [done|]. cbn in Hun'. lia.
Qed.

(** * An operation *)
Lemma adds_log s lo w p rows fs' :
  wf_schema s → patch_adds s lo w p [] rows → keeps (w_fs w) fs' →
  ∃ bs, pa_log p = Some (ChangeLog [] bs) ∧ shows s fs' (log_rows fs' bs) rows
    ∧ st_rows (pa_stats p) = Z.of_nat (length rows).
Proof.
  intros Hs Hp Hk. destruct (patch_adds_rows s _ _ _ _ Hs Hp) as (_&Hsel&_&_).
  destruct Hp as (ms&rms&u&_&_&_&_&_&Hms&_&_&Hres&_&_&_&_&Hlog&_&Hst).
  exists (added_bitmap <$> ms). split; [done|]. split; [|done]. rewrite added_rows.
  rewrite (man_rows_keeps s (w_fs w) fs') by done. apply (shows_keeps s (w_fs w)); [done|]. apply shows_iff. eauto.
Qed.
(** The rows [old] of the parent, the rows of the snapshot, its change log and
    the change of its row count. *)
Definition logs (s : schema) (fs : fsys) (l : option change_log) (del add : list row) : Prop :=
  match l with
  | None => del = []
  | Some c => shows s fs (log_rows fs (cl_deleted c)) del ∧ shows s fs (log_rows fs (cl_added c)) add
  end.
Lemma Zsum_rows s fs ms : Forall (wf_mrow s fs) ms → Zsum (mr_rows <$> ms) = Z.of_nat (length (man_rows fs ms)).
Proof.
  induction 1 as [|m ms Hm _ IH]; [done|]. rewrite man_rows_cons, app_length, Nat2Z.inj_add, <-IH, fmap_cons.
  by rewrite <-(wf_mrow_rows _ _ _ Hm).
Qed.
Lemma fold_stats_rows l st : st_rows (foldl update_index_stats st l) = (st_rows st + Zsum (st_rows <$> l))%Z.
Proof.
  revert st. induction l as [|x l IH]; intros st; [cbn; lia|]. cbn [foldl]. rewrite IH, fmap_cons. unfold Zsum. cbn. lia.
Qed.
(** A patch of a distributed append. *)
Lemma ray_adds_log s fs p rows fs' :
  wf_schema s → adds s fs (Some p) rows → accounts fs p → keeps fs fs' →
  ∃ bs, pa_log p = Some (ChangeLog [] bs) ∧ shows s fs' (log_rows fs' bs) rows
    ∧ st_rows (pa_stats p) = Z.of_nat (length rows).
Proof.
  intros Hs (Hwp&_&Hres&Hst&Htr) (Hlog&_) Hk. exists (added_bitmap <$> (pa_add_idx p ≫= man_at fs)). split; [done|]. split; [|done].
  rewrite added_rows. eapply shows_keeps; [exact Hk|]. rewrite (man_rows_keeps s fs fs'); [|done|].
  - apply shows_iff. eauto.
  - apply Forall_forall. intros m (q&Hm&Hq)%elem_of_list_bind. destruct Hwp as (Hwp&_). eapply Forall_forall in Hwp; [|exact Hq].
    apply wf_man_at in Hwp as [_ Hwp]. by eapply Forall_forall in Hwp.
Qed.
(** A distributed delete that splits well. *)
Lemma drop_touched e w D : Forall2 (fun df c => c = drop_count e w [df]) D ((fun df => drop_count e w [df]) <$> D).
Proof. induction D; constructor; done. Qed.
Lemma pieces_log s e w mans fs1 dfs ps :
  Forall2 (piece s e w mans fs1) dfs ps → Forall2 (piece_log e w) dfs ps →
  omap id ps ≫= Merging.deleted_rows = (fun df => build_bitmap df (kept_pos e w df)) <$> filter (touched e w) dfs
  ∧ omap id ps ≫= Merging.added_rows = []
  ∧ Zsum (st_rows <$> (pa_stats <$> omap id ps)) = (- drop_count e w dfs)%Z
  ∧ Forall (fun p => is_Some (pa_log p)) (omap id ps).
Proof.
  intros Hp Hl. induction Hp as [|df op dfs ps Hop _ IH]; [split_and!; done || constructor|].
  inversion Hl as [|? ? ? ? Hlop Hl']; subst. destruct (IH Hl') as (H1&H2&H3&H4). clear IH. rewrite filter_cons, drop_count_cons.
  destruct op as [p|].
  - change (omap id (Some p :: ps)) with (p :: omap id ps). destruct Hop as (Ht&_). destruct Hlop as [Hlog Hst].
    rewrite decide_True by done. rewrite !bind_cons, !fmap_cons, H1, H2. unfold Merging.deleted_rows, Merging.added_rows. rewrite Hlog.
    split_and!; try done.
    + unfold Zsum in *. cbn [foldr]. rewrite H3, Hst. unfold drop_count. cbn. lia.
    + constructor; [rewrite Hlog; eauto|done].
  - change (omap id (None :: ps)) with (omap id ps). cbn in Hop. rewrite decide_False by done. split_and!; try done.
    rewrite H3. unfold touched in Hop. apply dec_stable in Hop. lia.
Qed.
Lemma ray_delete_edge E s e b m w w' base sn p w1 old :
  op_effect E s (ORayDelete e) b m w w' base sn p w1 → snap_rows s (w_fs w) base old →
  keeps_rows s (snap_layout (w_fs w) base) old (ORayDelete e) →
  ∃ kept del, old ≡ₚ kept ++ del ∧ snap_rows s (w_fs w') sn kept
    ∧ logs s (w_fs w') (pa_log p) del [] ∧ pa_log p ≠ None ∧ st_rows (pa_stats p) = (- Z.of_nat (length del))%Z.
Proof.
  intros Hd Hold (Hsafe&Hnan&Hdec&Hsep).
  destruct (ray_delete_effect _ _ _ _ _ _ _ _ _ _ _ _ Hd Hold Hsafe Hnan Hdec Hsep) as (kept&Hkept&Hperm).
  destruct (ray_delete_ran _ _ _ _ _ _ _ _ _ _ _ Hd) as (Hs&_&mf&ps&Hmf&Hps&[Hmerge Hpl]&_).
  pose proof Hd as [_ _ _ _ Hwb _ Hk1 Hk2].
  destruct (pieces_log _ _ _ _ _ _ _ Hps Hpl) as (H1&H2&H3&H4).
  set (fset := fset_at (w_fs w) mf (sn_idx base)) in *. set (T := filter (touched e w) (fset_files fset)) in *.
  set (hm := filter (hit e w mf) (snap_mrows (w_fs w) base)) in *.
  assert (Hlst : Forall (listed s w) (fset_files fset)) by (by apply fset_listed, Hwb).
  assert (HlT : Forall (listed s w) T).
  { apply Forall_forall. intros df [_ Hin]%elem_of_list_filter. by eapply Forall_forall in Hlst. }
  assert (HTr : T ≫= drows w = man_rows (w_fs w) hm).
  { transitivity ((df_path <$> T) ≫= file_rows (w_fs w)).
    - clear. induction T as [|x l IH]; [done|]. rewrite fmap_cons, !bind_cons, IH. done.
    - unfold T, fset. rewrite (touched_paths e w mf base). fold hm. rewrite man_rows_bind.
      generalize hm. intros l. induction l as [|x l IH]; [done|]. by rewrite fmap_cons, !bind_cons, IH. }
  assert (Hdrop : dropped e (man_rows (w_fs w) hm) = filter (fun r => matches e r = true) (phys_rows (w_fs w) base)).
  { unfold phys_rows. rewrite !man_rows_bind. unfold hm.
    assert (Hin : ∀ m, m ∈ snap_mrows (w_fs w) base → m ∈ snap_mrows (w_fs w) base) by done. revert Hin.
    generalize (snap_mrows (w_fs w) base) at 1 3 4. intros l Hin. induction l as [|mr l IH]; [done|].
    rewrite filter_cons, bind_cons, filter_app, <-IH by (intros; apply Hin; by right).
    assert (Hmr : mr ∈ snap_mrows (w_fs w) base) by (apply Hin; left).
    pose proof (hit_row s e w mf base old Hs Hwb Hold Hsafe Hmf Hnan Hdec mr Hmr) as Hh.
    case_decide as Hhit.
    - rewrite bind_cons, dropped_app. f_equal. apply filter_ext_in. intros r Hr.
      rewrite (row_decided s e w base old Hwb Hold Hsafe Hdec mr r) by done. by destruct (matches e r).
    - assert (filter (fun r => matches e r = true) (file_rows (w_fs w) (mr_path mr)) = []) as ->; [|done].
      apply elem_of_nil_inv. intros r [Hm Hr]%elem_of_list_filter. apply Hhit, Hh.
      eauto. }
  pose proof (log_deleted s e w T HlT) as Hrows. rewrite HTr, Hdrop in Hrows.
  assert (Hbs : Forall (wf_bitmap s (w_fs w)) ((fun df => build_bitmap df (kept_pos e w df)) <$> T)).
  { apply Forall_fmap. eapply Forall_impl; [exact HlT|]. intros df Hdf. by apply build_bitmap_wf. }
  pose proof Hold as Hsh. apply snap_rows_shows in Hsh.
  assert (Hdel : shows s (w_fs w) (filter (fun r => matches e r = true) (phys_rows (w_fs w) base))
    (filter (fun y => matches e y = true) old)).
  { apply Forall2_filter_both; [done|]. intros r y Hr Hv. unfold phys_rows in Hr. rewrite man_rows_bind in Hr.
    apply elem_of_list_bind in Hr as (mr&Hr&Hmr).
    assert (matches e y = matches e r) as ->; [|done]. eapply vrow_matches; [done| |apply Hsafe].
    by destruct (shown_row s (w_fs w) base old mr r Hwb Hold Hmr Hr) as (_&?&_). }
  exists kept, (filter (fun y => matches e y = true) old).
  pose proof (merged ps) as Hmg. rewrite <-Hmerge in Hmg. destruct Hmg as [[p0 Hp0] [_ _ _ Hcd Hca Hcl Hcs]].
  assert (Hsome : is_Some (pa_log p)).
  { apply Hcl. exists p0. split; [apply elem_of_list_omap; by exists (Some p0)|].
    eapply Forall_forall in H4; [exact H4|]. apply elem_of_list_omap. by exists (Some p0). }
  destruct Hsome as [c Hc]. rewrite Hc. unfold Merging.deleted_rows in Hcd at 1. unfold Merging.added_rows in Hca at 1.
  rewrite Hc in Hcd, Hca. cbn in Hcd, Hca. rewrite H1 in Hcd. rewrite H2 in Hca. split_and!; try done.
  - rewrite <-Hperm, (filter_split (fun y => matches e y = false) old) at 1. apply Permutation_app_head.
    erewrite filter_ext_in; [done|]. intros y _. cbn. by destruct (matches e y).
  - cbn. rewrite Hcd, Hca. split; [|constructor].
    rewrite (log_rows_keeps s (w_fs w) (w_fs w')); [|done|by eapply keeps_trans]. rewrite Hrows.
    apply (shows_keeps s (w_fs w)); [by eapply keeps_trans|done].
  - rewrite Hcs. destruct (stats_bytes (pa_stats <$> omap id ps) stats0) as (_&_&->). rewrite H3, drop_count_rows. fold T.
    rewrite HTr, Hdrop. cbn. pose proof (Forall2_length _ _ _ Hdel). lia.
Qed.
Lemma op_edge E s o b m w w' base sn p w1 old :
  wf_schema s → bounded w → op_ok s (w_fs w) o → op_effect E s o b m w w' base sn p w1 →
  snap_rows s (w_fs w) base old → splits_well s (snap_layout (w_fs w) base) old o →
  ∃ kept del lost add, old ≡ₚ kept ++ del ++ lost ∧ snap_rows s (w_fs w') sn (kept ++ add)
    ∧ logs s (w_fs w') (pa_log p) del add ∧ (pa_log p = None → ∃ paths, o = OParquet paths)
    ∧ st_rows (pa_stats p) = (Z.of_nat (length add) - Z.of_nat (length del))%Z
    ∧ (keeps_rows s (snap_layout (w_fs w) base) old o → lost = []).
Proof.
  intros Hs Hbw Hok Hd Hold Hsw. pose proof Hd as [(h0&Hb0&Hm0&Hout) Hwp Hw1 _ Hwb _ Hk1 Hk2].
  pose proof (od_idx _ _ _ _ _ _ _ _ _ _ _ Hd) as Hidx.
  assert (Hadd : ∀ rows, patch_adds s (w_next w) w1 p [] rows →
    ∃ kept del lost add, old ≡ₚ kept ++ del ++ lost ∧ snap_rows s (w_fs w') sn (kept ++ add)
    ∧ logs s (w_fs w') (pa_log p) del add ∧ (pa_log p = None → ∃ paths, o = OParquet paths)
    ∧ st_rows (pa_stats p) = (Z.of_nat (length add) - Z.of_nat (length del))%Z
    ∧ (keeps_rows s (snap_layout (w_fs w) base) old o → lost = [])).
  { intros rows Hadds. destruct (patch_adds_rows s _ _ _ _ Hs Hadds) as (Hres&Hsel&Hdel&_).
    destruct (adds_log s _ _ _ _ (w_fs w') Hs Hadds Hk2) as (bs&Hlog&Hsh&Hst).
    exists old, [], [], rows. rewrite Hlog.
    refine (conj _ (conj _ (conj (conj _ Hsh) (conj _ (conj _ _))))); try done.
    - by rewrite !app_nil_r.
    - by eapply op_done_adds.
    - constructor.
    - rewrite Hst. cbn. lia. }
  assert (Hray : ∀ rows, adds s (w_fs w1) (Some p) rows → accounts (w_fs w1) p →
    ∃ kept del lost add, old ≡ₚ kept ++ del ++ lost ∧ snap_rows s (w_fs w') sn (kept ++ add)
    ∧ logs s (w_fs w') (pa_log p) del add ∧ (pa_log p = None → ∃ paths, o = OParquet paths)
    ∧ st_rows (pa_stats p) = (Z.of_nat (length add) - Z.of_nat (length del))%Z
    ∧ (keeps_rows s (snap_layout (w_fs w) base) old o → lost = [])).
  { intros rows Hadds Hacc. destruct (ray_adds_log s _ _ _ (w_fs w') Hs Hadds Hacc Hk2) as (bs&Hlog&Hsh&Hst).
    exists old, [], [], rows. rewrite Hlog.
    refine (conj _ (conj _ (conj (conj _ Hsh) (conj _ (conj _ _))))); try done.
    - by rewrite !app_nil_r.
    - by eapply adds_effect.
    - constructor.
    - rewrite Hst. cbn. lia. }
  destruct o as [batches|mode data|e|paths|paths index_fn nbytes|n data|n sources|n mode data|e].
  - destruct Hout as (rows&_&Hadds). by eapply Hadd.
  - destruct Hout as [(_&?&_)|(Hne&sn0&e&mf&w2&dop&rows&aop&Hpk&Hg&Hmf&Hmode&Hw2&Hsel&Haop&Hp)]; [done|].
    rewrite (od_same_base _ _ _ _ _ _ _ _ _ _ _ _ _ Hd Hb0 Hm0 Hg) in Hmode, Hp. cbv beta iota zeta in Hmode, Hp.
    destruct aop as [pa|].
    2:{ destruct data; [done|]. apply tsel_ok in Hsel. rewrite Haop in Hsel. inversion Hsel. }
    destruct (patch_adds_rows s _ _ _ _ Hs Haop) as (Hres&Hsel'&Hdelp&Hwpa).
    destruct (adds_log s _ _ _ _ (w_fs w') Hs Haop Hk2) as (bsa&Hlog&Hsh&Hst).
    assert (Hone : p = merge_two patch0 pa → ∃ kept del lost add,
      old ≡ₚ kept ++ del ++ lost ∧ snap_rows s (w_fs w') sn (kept ++ add)
      ∧ logs s (w_fs w') (pa_log p) del add ∧ (pa_log p = None → ∃ paths, OInsert mode data = OParquet paths)
      ∧ st_rows (pa_stats p) = (Z.of_nat (length add) - Z.of_nat (length del))%Z
      ∧ (keeps_rows s (snap_layout (w_fs w) base) old (OInsert mode data) → lost = [])).
    { intros ->. exists old, [], [], rows. cbn [merge_two pa_log patch0 merge_logs]. rewrite Hlog.
      refine (conj _ (conj _ (conj (conj _ Hsh) (conj _ (conj _ _))))); try done.
      - by rewrite !app_nil_r.
      - eapply op_done_adds; [exact Hd|cbn; by rewrite Hdelp|done|cbn; exact Hres|done].
      - constructor.
      - cbn. rewrite Hst. lia. }
    destruct mode.
    + apply Hone. by injection Hp.
    + destruct Hmode as [Hw02 Hdel].
      assert (Hb2 : bounded w2) by by eapply wle_bounded.
      pose proof (wnew_keeps _ _ Hbw Hw02) as Hk02. pose proof (wnew_keeps _ _ Hb2 Hw2) as Hk21.
      destruct Hdel as [(Hf&->&->)|(Hf&Hdel)]; [rewrite Hf in Hp; apply Hone; by injection Hp|].
      destruct (fset_files (fset_at (w_fs w) mf (sn_idx base))) as [|d0 ds] eqn:Hfs; [done|]. clear Hf.
      destruct dop as [pd|]; [|apply Hone; by injection Hp].
      injection Hp as Hp. cbn [omap list_omap id foldl] in Hp.
      pose proof (patch_adds_shows s _ _ _ _ Hs Haop) as Hsha.
      destruct (delete_edge s e w mf base pd w2 (w_fs w') sn (pa_add_idx pa) rows old)
        as (kept&del&lost&bs&Hperm&Hnew&Hlogd&Hshd&Hstd&Hll); try done.
      * by eapply keeps_trans.
      * rewrite Hidx, Hp. cbn. by rewrite Hdelp, app_nil_r.
      * eapply shows_man_keeps; [exact Hk2|apply Hwpa|done].
      * exists kept, del, lost, rows. rewrite Hp. cbn [merge_two pa_log patch0 merge_logs]. rewrite Hlogd, Hlog.
        refine (conj Hperm (conj Hnew (conj _ (conj _ (conj _ _))))); [|done| |].
        -- cbn. by rewrite app_nil_r.
        -- cbn. rewrite Hst, Hstd. lia.
        -- intros (Hpl&Hnn&Hprop&Hlo).
           destruct (primary_key_filter_spec (s_pks s) data e Hnn Hpk) as (_&Hkf&Hev). apply Hll; try done.
           ++ by apply keyf_safe.
           ++ intros r n Hr Hn. by eapply Hprop.
           ++ intros r Hr. destruct (Hev r) as (bb&Hb&_); [by intros; apply Hprop|eauto].
           ++ revert Hlo. apply lossless_iff. intros man t r Hman Ht Hr.
              rewrite (key_matches (s_pks s) data e r); try done. by eapply layout_row.
  - destruct Hout as (sn0&mf&Hg&Hmf&Hdo).
    rewrite (od_same_base _ _ _ _ _ _ _ _ _ _ _ _ _ Hd Hb0 Hm0 Hg) in Hdo.
    destruct (delete_edge s e w mf base p w1 (w_fs w') sn [] [] old)
      as (kept&del&lost&bs&Hperm&Hnew&Hlogd&Hshd&Hstd&Hll); try done.
    + by rewrite app_nil_r.
    + constructor.
    + exists kept, del, lost, []. rewrite Hlogd.
      refine (conj Hperm (conj Hnew (conj _ (conj _ (conj _ _))))); [|done| |].
      * cbn. split; [done|constructor].
      * rewrite Hstd. cbn. lia.
      * intros (?&?&?&?). by apply Hll.
  - destruct (parquet_effect _ _ _ _ _ _ _ _ _ _ _ _ Hs Hd Hok Hold) as (input&Hin&Hsn).
    destruct Hout as (Hrecs&p'&ms&[= <-]&Hpaths&Hms&_&_&_&Hlog&Hst).
    exists old, [], [], input. rewrite Hlog. split_and!; try done.
    + by rewrite !app_nil_r.
    + eauto.
    + rewrite Hst, fold_stats_rows. cbn [stats0 st_rows].
      assert (st_rows <$> (mrow_stats <$> ms) = mr_rows <$> ms) as -> by (rewrite <-list_fmap_compose; by apply list_fmap_ext).
      rewrite (Zsum_rows s (w_fs w1)) by done. apply tsel_length in Hin.
      assert (man_rows (w_fs w1) ms = paths ≫= file_rows (w_fs w)) as ->; [|cbn; lia].
      rewrite <-Hpaths, man_rows_bind. cbn in Hok. subst paths. clear -Hok Hw1.
      induction ms as [|m ms IH]; [done|]. rewrite fmap_cons, !bind_cons.
      rewrite IH by (intros q Hq; apply Hok; by right). f_equal.
      destruct (Hok (mr_path m)) as [Hx _]; [by left|]. destruct (mr_path m) as [| |nm]; try done.
      unfold file_rows. by rewrite (wle_pext _ _ _ nm Hw1).
  - destruct Hout as (f&fid&rows&Hf&Hq&Hrows&p0&total&Hadds&->).
    destruct (patch_adds_rows s _ _ _ _ Hs Hadds) as (Hres&Hsel&Hdel&_).
    destruct (adds_log s _ _ _ _ (w_fs w') Hs Hadds Hk2) as (bs&Hlog&Hsh&Hst).
    exists old, [], [], rows. cbn [pa_log]. rewrite Hlog.
    refine (conj _ (conj _ (conj (conj _ Hsh) (conj _ (conj _ _))))); try done.
    + by rewrite !app_nil_r.
    + by eapply op_done_adds.
    + constructor.
    + cbn. rewrite Hst. lia.
  - destruct (ray_append_effect _ _ _ _ _ _ _ _ _ _ _ _ _ Hs Hbw Hd Hold) as (input&_&Hadds&_).
    destruct Hout as [fo Hrun]. eapply Hray; [exact Hadds|]. by eapply ray_append_accounts.
  - destruct (ray_append_from_effect _ _ _ _ _ _ _ _ _ _ _ _ _ Hs Hbw Hd Hold) as (input&_&Hadds&_).
    destruct Hout as [fo Hrun]. eapply Hray; [exact Hadds|]. by eapply ray_append_accounts.
  - clear Hout h0 Hb0 Hm0. destruct (ray_insert_ran _ _ _ _ _ _ _ _ _ _ _ _ _ Hd) as (h0&Hbase&Hm0&Hout).
    destruct Hout as [(_&?&_)|(Hne&sn0&e&mf&w2&dop&rows&aop&Hpk&Hg&Hmf&Hmode&Hw2&Hsel&Haop&(E'&fo&Hwr)&Hp)]; [done|].
    apply (get_snapshot_snap_of h0 m) in Hg; [|done].
    assert (sn0 = base) as -> by congruence. cbv beta iota zeta in Hmode, Hp.
    assert (Hw02 : wnew w w2).
    { destruct mode; [destruct Hmode as [-> _]; apply wnew_refl|]. by destruct Hmode as [? _]. }
    assert (Hb2 : bounded w2) by by eapply wle_bounded.
    pose proof (wnew_keeps _ _ Hbw Hw02) as Hk02. pose proof (wnew_keeps _ _ Hb2 Hw2) as Hk21.
    destruct aop as [pa|].
    2:{ exfalso. cbn in Haop. rewrite Haop in Hsel. apply tsel_length in Hsel. cbn in Hsel.
        rewrite (written_by_perm n data Hok) in Hsel. by destruct data. }
    pose proof (ray_append_accounts _ _ _ _ _ _ _ _ Hs Hb2 Hwr) as Hacc.
    destruct (ray_adds_log s _ _ _ (w_fs w') Hs Haop Hacc Hk2) as (bsa&Hlog&Hsh&Hst).
    pose proof Haop as (Hwpa&Hdelp&Hres&_&Htr).
    assert (Hone : p = merge_two patch0 pa → ∃ kept del lost add,
      old ≡ₚ kept ++ del ++ lost ∧ snap_rows s (w_fs w') sn (kept ++ add)
      ∧ logs s (w_fs w') (pa_log p) del add ∧ (pa_log p = None → ∃ paths, ORayInsert n mode data = OParquet paths)
      ∧ st_rows (pa_stats p) = (Z.of_nat (length add) - Z.of_nat (length del))%Z
      ∧ (keeps_rows s (snap_layout (w_fs w) base) old (ORayInsert n mode data) → lost = [])).
    { intros ->. exists old, [], [], rows. cbn [merge_two pa_log patch0 merge_logs]. rewrite Hlog.
      refine (conj _ (conj _ (conj (conj _ Hsh) (conj _ (conj _ _))))); try done.
      - by rewrite !app_nil_r.
      - eapply op_done_adds; [exact Hd|cbn; by rewrite Hdelp|done|cbn; exact Hres|done].
      - constructor.
      - cbn. rewrite Hst. lia. }
    destruct mode.
    + apply Hone. by injection Hp.
    + destruct Hmode as [_ Hdel].
      destruct Hdel as [(Hf&->&->)|(Hf&Hdel)]; [rewrite Hf in Hp; apply Hone; by injection Hp|].
      destruct (fset_files (fset_at (w_fs w) mf (sn_idx base))) as [|d0 ds] eqn:Hfs; [done|]. clear Hf.
      destruct dop as [pd|]; [|apply Hone; by injection Hp].
      injection Hp as Hp. cbn [omap list_omap id foldl] in Hp.
      assert (Hsha : shows s (w_fs w1) (man_rows (w_fs w1) (pa_add_idx pa ≫= man_at (w_fs w1))) rows) by (apply shows_iff; eauto).
      destruct (delete_edge s e w mf base pd w2 (w_fs w') sn (pa_add_idx pa) rows old)
        as (kept&del&lost&bs&Hperm&Hnew&Hlogd&Hshd&Hstd&Hll); try done.
      * by eapply keeps_trans.
      * rewrite Hidx, Hp. cbn. by rewrite Hdelp, app_nil_r.
      * eapply shows_man_keeps; [exact Hk2|apply Hwpa|done].
      * exists kept, del, lost, rows. rewrite Hp. cbn [merge_two pa_log patch0 merge_logs]. rewrite Hlogd, Hlog.
        refine (conj Hperm (conj Hnew (conj _ (conj _ (conj _ _))))); [|done| |].
        -- cbn. by rewrite app_nil_r.
        -- cbn. rewrite Hst, Hstd. lia.
        -- intros (Hpl&Hnn&Hprop&Hlo).
           destruct (primary_key_filter_spec (s_pks s) data e Hnn Hpk) as (_&Hkf&Hev). apply Hll; try done.
           ++ by apply keyf_safe.
           ++ intros r k Hr Hk. by eapply Hprop.
           ++ intros r Hr. destruct (Hev r) as (bb&Hb&_); [by intros; apply Hprop|eauto].
           ++ revert Hlo. apply lossless_iff. intros man t r Hman Ht Hr.
              rewrite (key_matches (s_pks s) data e r); try done. by eapply layout_row.
  - destruct (ray_delete_edge _ _ _ _ _ _ _ _ _ _ _ _ Hd Hold Hsw) as (kept&del&Hperm&Hkept&Hlog&Hnn&Hst).
    exists kept, del, [], []. rewrite !app_nil_r. by split_and!.
Qed.

Lemma ray_delete_logged E s e b m w w' base sn p w1 :
  op_effect E s (ORayDelete e) b m w w' base sn p w1 → is_Some (pa_log p).
Proof.
  intros Hd. destruct (ray_delete_ran _ _ _ _ _ _ _ _ _ _ _ Hd) as (_&_&mf&ps&_&Hps&[Hmerge Hpl]&_).
  destruct (pieces_log _ _ _ _ _ _ _ Hps Hpl) as (_&_&_&H4).
  pose proof (merged ps) as Hmg. rewrite <-Hmerge in Hmg. destruct Hmg as [[p0 Hp0] [_ _ _ _ _ Hcl _]].
  apply Hcl. exists p0. split; [apply elem_of_list_omap; by exists (Some p0)|].
  eapply Forall_forall in H4; [exact H4|]. apply elem_of_list_omap. by exists (Some p0).
Qed.
Lemma op_logged E s o b m w w' base sn p w1 :
  wf_schema s → bounded w → op_ok s (w_fs w) o → op_effect E s o b m w w' base sn p w1 →
  pa_log p = None → ∃ paths, o = OParquet paths.
Proof.
  intros Hs Hbw Hok Hd Hn. destruct (snap_rows_some s (w_fs w) base (oe_wf_base _ _ _ _ _ _ _ _ _ _ _ Hd)) as [old Hold].
  assert (Hc : (∃ e, o = ORayDelete e) ∨ splits_well s (snap_layout (w_fs w) base) old o) by (destruct o; eauto; by right).
  destruct Hc as [[e ->]|Hsw].
  - destruct (ray_delete_logged _ _ _ _ _ _ _ _ _ _ _ Hd) as [c Hc]. congruence.
  - destruct (op_edge E s o b m w w' base sn p w1 old Hs Hbw Hok Hd Hold Hsw) as (?&?&?&?&_&_&_&Hlog&_). by apply Hlog.
Qed.

(** * Histories *)
Lemma shown_phys s fs sn ys y :
  wf_snap s fs sn → snap_rows s fs sn ys → y ∈ ys →
  ∃ r, r ∈ concat (concat (snap_layout fs sn)) ∧ r.*1 = s_names s ∧ vrow s fs r y.
Proof.
  intros Hw Hys Hy. pose proof Hys as Hsh. apply snap_rows_shows in Hsh. apply elem_of_list_lookup in Hy as [i Hi].
  destruct (Forall2_lookup_r _ _ _ _ _ Hsh Hi) as (r&Hr&Hv). apply elem_of_list_lookup_2 in Hr. exists r.
  unfold phys_rows in Hr. rewrite man_rows_bind in Hr. apply elem_of_list_bind in Hr as (m&Hr&Hm).
  split_and!; [|by eapply (shown_row s fs sn ys m r)|done].
  apply elem_of_list_bind in Hm as (q&Hm&Hq).
  apply elem_of_list_In, in_concat. exists (file_rows fs (mr_path m)). rewrite <-!elem_of_list_In. split; [|done].
  apply elem_of_list_In, in_concat. exists ((fun m => file_rows fs (mr_path m)) <$> man_at fs q). rewrite <-!elem_of_list_In.
  split; apply elem_of_list_fmap; eauto.
Qed.
Lemma careful_keeps s fs sn o old :
  wf_schema s → wf_snap s fs sn → snap_rows s fs sn old → careful_op s fs sn o → keeps_rows s (snap_layout fs sn) old o.
Proof.
  intros Hs Hw Hold. unfold careful_op. change (tables fs sn) with (snap_layout fs sn). destruct o as [|[]| | | | | |? []|]; cbn; try done.
  - intros (?&?&Hp&?). split_and!; try done. intros y n Hy Hn. destruct (shown_phys s fs sn old y Hw Hold Hy) as (r&Hr&Hnm&Hv).
    rewrite (vrow_look s fs r y n Hv Hnm); [by apply Hp|]. by apply Hs.
  - intros (Hsf&Hp&Hd&?). split_and!; try done.
    + intros y n Hy Hn. destruct (shown_phys s fs sn old y Hw Hold Hy) as (r&Hr&Hnm&Hv).
      rewrite (vrow_look s fs r y n Hv Hnm); [by apply Hp|]. by apply Hs.
    + intros y Hy. destruct (shown_phys s fs sn old y Hw Hold Hy) as (r&Hr&Hnm&Hv).
      rewrite (vrow_eval s fs r y e Hv Hnm); [by apply Hd|apply Hsf].
  - intros (?&?&Hp&?). split_and!; try done. intros y k Hy Hn. destruct (shown_phys s fs sn old y Hw Hold Hy) as (r&Hr&Hnm&Hv).
    rewrite (vrow_look s fs r y k Hv Hnm); [by apply Hp|]. by apply Hs.
  - intros (Hsf&Hp&Hd&?). split_and!; try done.
    + intros y n Hy Hn. destruct (shown_phys s fs sn old y Hw Hold Hy) as (r&Hr&Hnm&Hv).
      rewrite (vrow_look s fs r y n Hv Hnm); [by apply Hp|]. by apply Hs.
    + intros y Hy. destruct (shown_phys s fs sn old y Hw Hold Hy) as (r&Hr&Hnm&Hv).
      rewrite (vrow_eval s fs r y e Hv Hnm); [by apply Hd|apply Hsf].
Qed.
Lemma separate_splits s fs sn o old :
  wf_schema s → wf_snap s fs sn → snap_rows s fs sn old → separate_op s fs sn o → splits_well s (snap_layout fs sn) old o.
Proof.
  intros Hs Hw Hold. destruct o as [| | | | | | | |e]; try done. exact (careful_keeps s fs sn (ORayDelete e) old Hs Hw Hold).
Qed.
Lemma careful_separate s fs sn o : careful_op s fs sn o → separate_op s fs sn o.
Proof. by destruct o. Qed.
Lemma adding_separate s fs sn o : adding_op s fs sn o → separate_op s fs sn o.
Proof. by destruct o. Qed.

Definition edge (s : schema) (fs : fsys) (base sn : snapshot) (careful : Prop) : Prop :=
  ∃ old new kept del lost add, snap_rows s fs base old ∧ old ≡ₚ kept ++ del ++ lost ∧ snap_rows s fs sn new ∧ new ≡ₚ kept ++ add
    ∧ (match sn_log sn with
       | None => del = []
       | Some lp => ∃ c, fs !! lp = Some (FChange c) ∧ logs s fs (Some c) del add
       end)
    ∧ st_rows (sn_stats sn) = (st_rows (sn_stats base) + Z.of_nat (length add) - Z.of_nat (length del))%Z
    ∧ (careful → lost = []).
Definition edges (careful : Prop) (s : schema) (fs : fsys) (m : metadata) : Prop :=
  ∀ i sn, md_snaps m !! i = Some sn →
    match sn_parent sn with
    | None => snap_rows s fs sn [] ∧ st_rows (sn_stats sn) = 0%Z
    | Some j => ∃ base, md_snaps m !! j = Some base ∧ edge s fs base sn careful
    end.
Lemma edge_keeps s fs fs' base sn careful :
  keeps fs fs' → wf_snap s fs base → wf_snap s fs sn → edge s fs base sn careful → edge s fs' base sn careful.
Proof.
  intros Hk Hb Hw (old&new&kept&del&lost&add&Hold&Hp&Hnew&Hpn&Hlog&Hst&Hc). exists old, new, kept, del, lost, add.
  refine (conj _ (conj Hp (conj _ (conj Hpn (conj _ (conj Hst Hc)))))).
  - by eapply snap_rows_keeps.
  - by eapply snap_rows_keeps.
  - destruct Hw as (_&_&_&Hwl). destruct (sn_log sn) as [lp|]; [|done]. destruct Hlog as (c&Hc'&Hd&Ha).
    destruct Hwl as (c2&Hc2&Hwl). rewrite Hc' in Hc2. injection Hc2 as <-. unfold wf_log in Hwl. apply Forall_app in Hwl as [Hw1 Hw2].
    exists c. split; [by apply Hk|]. cbn.
    rewrite !(log_rows_keeps s fs fs') by done. by split; eapply shows_keeps.
Qed.
Lemma edges_history (P : schema → fsys → snapshot → op → Prop) (careful : Prop) s σ m :
  (∀ s fs sn o, careful → P s fs sn o → careful_op s fs sn o) → (∀ s fs sn o, P s fs sn o → separate_op s fs sn o) →
  orderly P init σ → sinv s σ → mof σ m → edges careful s (w_fs (y_world σ)) m.
Proof.
  intros HP HQ. apply (orderly_meta P (edges careful)); clear s σ m.
  - intros s fs fs' m Hm Hk He i sn Hi. specialize (He i sn Hi). destruct (wm_snaps _ _ _ Hm i sn Hi) as (_&Hw&Hpar).
    destruct (sn_parent sn) as [j|].
    + destruct He as (base&Hb&He). exists base. split; [done|]. destruct (wm_snaps _ _ _ Hm j base Hb) as (_&Hwb&_).
      by eapply edge_keeps.
    + destruct He as [He ?]. split; [|done]. by eapply snap_rows_keeps.
  - intros s fs t i sn Hi. cbn in Hi. apply lookup_singleton_Some in Hi as [_ <-]. cbn. split; [|done]. by exists [].
  - intros s fs m refs He. exact He.
  - intros E s o b m m1 w w' base sn p w1 Ho Hs Hb Hok Heff Hm Hhead Hbase Hpar Hlt He i sn' Hi. cbn in Hi.
    assert (Hne : ∀ j, is_Some (md_snaps m !! j) → sn_id sn ≠ j) by (intros j Hj; specialize (Hlt j Hj); lia).
    apply lookup_insert_Some in Hi as [[<- <-]|[Hni Hi]].
    + rewrite Hpar. exists base. split; [cbn; rewrite lookup_insert_ne; [done|]; apply Hne; eauto|].
      pose proof (oe_wf_base _ _ _ _ _ _ _ _ _ _ _ Heff) as Hwb.
      destruct (snap_rows_some s (w_fs w) base Hwb) as [old Hold].
      assert (Hsw : splits_well s (snap_layout (w_fs w) base) old o) by (apply separate_splits; try done; by apply HQ).
      destruct (op_edge E s o b m1 w w' base sn p w1 old Hs Hb Hok Heff Hold Hsw) as (kept&del&lost&add&Hp&Hnew&Hlog&_&Hst&Hc).
      pose proof Heff as [_ _ _ _ _ (i&t&(_&_&_&_&Hstats&Hl)) Hk1 Hk2]. pose proof (keeps_trans _ _ _ Hk1 Hk2) as Hk.
      exists old, (kept ++ add), kept, del, lost, add. refine (conj _ (conj Hp (conj Hnew (conj (reflexivity _) (conj _ (conj _ _)))))).
      * by eapply snap_rows_keeps.
      * destruct (pa_log p) as [c|], (sn_log sn) as [lp|]; try done. by exists c.
      * rewrite Hstats. cbn. rewrite Hst. lia.
      * intros Hcf. apply Hc. apply careful_keeps; try done. by eapply HP.
    + specialize (He i sn' Hi). destruct (sn_parent sn') as [j|]; [|done]. destruct He as (base'&Hb'&He). exists base'.
      split; [|done]. cbn. rewrite lookup_insert_ne; [done|]. apply Hne. eauto.
Qed.

(** The recorded number of rows. *)
Lemma edge_induction (Q : snapshot → Prop) s fs m :
  wf_meta s fs m →
  (∀ i sn, md_snaps m !! i = Some sn → sn_parent sn = None → Q sn) →
  (∀ i sn j base, md_snaps m !! i = Some sn → sn_parent sn = Some j → md_snaps m !! j = Some base → Q base → Q sn) →
  ∀ i sn, md_snaps m !! i = Some sn → Q sn.
Proof.
  intros Hm H0 HS. assert (Hgo : ∀ n i sn, (i < Z.of_nat n)%Z → md_snaps m !! i = Some sn → Q sn).
  { induction n as [|n IH]; intros k sn Hlt Hk; destruct (wm_snaps _ _ _ Hm k sn Hk) as (_&_&Hp).
    - destruct (sn_parent sn); [destruct Hp|]; lia.
    - destruct (sn_parent sn) as [j|] eqn:Hpar; [|by eapply H0].
      destruct Hp as [Hj [snj Hsnj]]. eapply (HS k sn j snj); try done. eapply (IH j); [lia|done]. }
  intros i sn Hi. eapply (Hgo (S (Z.to_nat i))); [|done]. lia.
Qed.
Lemma edges_count careful s fs m i sn rows :
  wf_meta s fs m → edges careful s fs m → md_snaps m !! i = Some sn → snap_rows s fs sn rows →
  (Z.of_nat (length rows) ≤ st_rows (sn_stats sn))%Z ∧ (careful → st_rows (sn_stats sn) = Z.of_nat (length rows)).
Proof.
  intros Hm He Hi. revert rows. pattern sn. revert i sn Hi. eapply edge_induction; [done| |].
  - intros i sn Hi Hp rows Hrows. specialize (He i sn Hi). rewrite Hp in He. destruct He as [Hnil ->].
    by rewrite (snap_rows_fun _ _ _ _ _ Hrows Hnil).
  - intros i sn j base Hi Hp Hj IH rows Hrows. specialize (He i sn Hi). rewrite Hp in He.
    destruct He as (base'&Hj'&old&new&kept&del&lost&add&Hold&Hperm&Hnew&Hpn&_&->&Hc). rewrite Hj in Hj'. injection Hj' as <-.
    rewrite (snap_rows_fun _ _ _ _ _ Hrows Hnew). destruct (IH old Hold) as [Hle Heq].
    apply Permutation_length in Hperm, Hpn. rewrite !app_length in *. split; [lia|].
    intros Hcf. rewrite (Hc Hcf) in Hperm. cbn in Hperm. rewrite Heq by done. lia.
Qed.
(** Nothing lost between parent and child. *)
Lemma edge_exact s fs base sn careful old new :
  edge s fs base sn careful → snap_rows s fs base old → snap_rows s fs sn new →
  st_rows (sn_stats base) = Z.of_nat (length old) → st_rows (sn_stats sn) = Z.of_nat (length new) →
  ∃ kept del add, old ≡ₚ kept ++ del ∧ new ≡ₚ kept ++ add
    ∧ match sn_log sn with
       | None => del = []
       | Some lp => ∃ c, fs !! lp = Some (FChange c) ∧ logs s fs (Some c) del add
       end.
Proof.
  intros (old'&new'&kept&del&lost&add&Hold'&Hp&Hnew'&Hpn&Hlog&Hst&_) Hold Hnew Hbo Hsn.
  rewrite (snap_rows_fun _ _ _ _ _ Hold' Hold) in Hp. rewrite (snap_rows_fun _ _ _ _ _ Hnew' Hnew) in Hpn.
  exists kept, del, add. split_and!; try done. pose proof (Permutation_length Hp) as Hl. pose proof (Permutation_length Hpn) as Hln.
  rewrite !app_length in *.
  assert (lost = []) as -> by (destruct lost; [done|cbn in Hl; lia]). by rewrite app_nil_r in Hp.
Qed.
