(** What distributed operations do to the rows, wherever their transaction is
    committed. *)
From Verif.Model Require Import System RayOps.
From Verif.Spec Require Import Logical Api Pruning Keys Layout Separable.
From Verif.Proofs Require Import Lib FalsifySound World Resolve AppendSpec SchemaFacts ReadSpec Bounds Wf OpSpec Inv FileSet Ops Bodies Txn
  SysInv ReadRun Effects Observe View Prune DeleteEffect Keys Mutations Calls Reads AnyOp Shards RayAppend RayInsert RayDelete.
From Verif.Proofs Require Import Merge.

Lemma sources_perm n sources :
  let k := length sources `min` n in 1 ≤ n → in_worker_order k (ray_sources k sources) ≡ₚ concat (concat sources).
Proof.
  intros k Hn. destruct (ray_sources_spec k sources) as [Hc Hlt].
  rewrite in_worker_order_perm; [by rewrite Hc|]. intros c Hin. apply Hlt; [done|].
  unfold k. destruct sources; [by apply elem_of_nil in Hin|]. cbn [length]. lia.
Qed.
Lemma adds_effect E s o b m w w' base sn p w1 old rows :
  op_effect E s o b m w w' base sn p w1 → adds s (w_fs w1) (Some p) rows → snap_rows s (w_fs w) base old →
  snap_rows s (w_fs w') sn (old ++ rows).
Proof. intros Hd (_&Hdel&Hres&_&Htr) Hold. by eapply op_done_adds. Qed.
Lemma ray_append_effect E s n data b m w w' base sn p w1 old :
  wf_schema s → bounded w → op_effect E s (ORayAppend n data) b m w w' base sn p w1 →
  snap_rows s (w_fs w) base old →
  ∃ input, tsel (out_names s) (written_by n data) = Ok input ∧ adds s (w_fs w1) (Some p) input
    ∧ snap_rows s (w_fs w') sn (old ++ input).
Proof.
  intros Hs Hb Hd Hold. destruct (oe_body _ _ _ _ _ _ _ _ _ _ _ Hd) as (h0&_&_&fo&Hrun).
  pose proof (ray_append_op_run E fo s n ((fun c => (c.1, [c.2])) <$> ray_shards n data) w Hs Hb) as Hr.
  fold (ray_write E fo s n data) in Hr. rewrite Hrun in Hr. destruct Hr as (_&rows&Hsel&Hadds).
  exists rows. split_and!; [done|done|]. by eapply adds_effect.
Qed.
Lemma ray_append_from_effect E s n sources b m w w' base sn p w1 old :
  let k := length sources `min` n in
  wf_schema s → bounded w → op_effect E s (ORayAppendFrom n sources) b m w w' base sn p w1 →
  snap_rows s (w_fs w) base old →
  ∃ input, tsel (out_names s) (in_worker_order k (ray_sources k sources)) = Ok input ∧ adds s (w_fs w1) (Some p) input
    ∧ snap_rows s (w_fs w') sn (old ++ input).
Proof.
  intros k Hs Hb Hd Hold. destruct (oe_body _ _ _ _ _ _ _ _ _ _ _ Hd) as (h0&_&_&fo&Hrun). fold k in Hrun.
  pose proof (ray_append_op_run E fo s k (ray_sources k sources) w Hs Hb) as Hr.
  rewrite Hrun in Hr. destruct Hr as (_&rows&Hsel&Hadds).
  exists rows. split_and!; [done|done|]. by eapply adds_effect.
Qed.

(** insert and upsert *)
Lemma ray_insert_ran E s n mode data b m w w' base sn p w1 :
  op_effect E s (ORayInsert n mode data) b m w w' base sn p w1 →
  ∃ h0, snap_of m (h_branch h0) None = Some base ∧ h_meta h0 = m ∧ ray_insert_out s n mode data h0 w (Some p) w1.
Proof.
  intros Hd. destruct (oe_body _ _ _ _ _ _ _ _ _ _ _ Hd) as (h0&Hb0&Hm0&Hi&Hh0&fo&Hrun).
  destruct (ray_insert_op_run E fo s n mode data h0 w Hi Hh0) as (w2&r&Hr&_&Hout).
  rewrite Hrun in Hr. injection Hr as <- <-. exists h0. rewrite Hb0. split_and!; [|done|done]. apply Hd.
Qed.
Lemma ray_insert_effect E s n data b m w w' base sn p w1 before :
  wf_schema s → plain_keys s → op_effect E s (ORayInsert n MInsert data) b m w w' base sn p w1 →
  snap_rows s (w_fs w) base before → key_nonnull (s_pks s) data → proper_keys (s_pks s) before →
  ∃ input, tsel (out_names s) (written_by n data) = Ok input ∧ snap_rows s (w_fs w') sn (before ++ input)
    ∧ unique_keys (s_pks s) data
    ∧ (∀ y d, y ∈ before → d ∈ data → key_of (s_pks s) y ≠ key_of (s_pks s) d).
Proof.
  intros Hs Hpl Hd Hold Hnn Hprop. destruct (ray_insert_ran _ _ _ _ _ _ _ _ _ _ _ _ _ Hd) as (h0&Hbase&Hm0&Hout).
  pose proof (oe_wf_base _ _ _ _ _ _ _ _ _ _ _ Hd) as Hwb.
  destruct Hout as [(_&?&_)|(Hne&sn0&e&mf&w2&dop&rows&aop&Hpk&Hg&Hmf&(->&->&Hno)&Hw2&Hsel&Haop&_&Hp)]; [done|].
  apply (get_snapshot_snap_of h0 m) in Hg; [|done].
  assert (sn0 = base) as -> by congruence. cbn in Hp.
  destruct aop as [pa'|]; [|done]. injection Hp as ->. destruct Haop as (Hwp&Hdel&Hres2&Hst&Htr).
  destruct (primary_key_filter_spec (s_pks s) data e Hnn Hpk) as (Hnd&Hkf&Hev).
  assert (Hsafe : safe_filter s e) by by apply keyf_safe.
  assert (Hnan : no_nan_keys (s_pks s) before) by (intros r k Hr' Hk; by eapply Hprop).
  assert (Hnomatch : ∀ y, y ∈ before → matches e y = false).
  { apply filter_matches_nil. by rewrite <-(no_picked s (w_fs w) base e mf before). }
  exists rows. split_and!; [done| |done|].
  - eapply op_done_adds; [exact Hd|done|done|exact Hres2|exact Htr].
  - intros y d Hy Hdd Hk. specialize (Hnomatch y Hy). destruct (Hev y) as (bb&Hbb&Hiff).
    { intros k Hk'. by apply Hprop. }
    assert (bb = true) as -> by (apply Hiff; eauto). unfold matches in Hnomatch. by rewrite Hbb in Hnomatch.
Qed.
Lemma ray_upsert_effect E s n data b m w w' base sn p w1 before :
  wf_schema s → bounded w → plain_keys s → 1 ≤ n → op_effect E s (ORayInsert n MUpsert data) b m w w' base sn p w1 →
  snap_rows s (w_fs w) base before → key_nonnull (s_pks s) data → proper_keys (s_pks s) before →
  ∃ input new lost, tsel (out_names s) (written_by n data) = Ok input ∧ snap_rows s (w_fs w') sn (new ++ input)
    ∧ unique_keys (s_pks s) data
    ∧ filter (fun y => key_of (s_pks s) y ∉ key_of (s_pks s) <$> data) before ≡ₚ new ++ lost
    ∧ (lost = [] ↔ lossless (snap_layout (w_fs w) base) (fun r => key_of (s_pks s) r ∈ key_of (s_pks s) <$> data)).
Proof.
  intros Hs Hbw Hpl Hn Hd Hold Hnn Hprop. destruct (ray_insert_ran _ _ _ _ _ _ _ _ _ _ _ _ _ Hd) as (h0&Hbase&Hm0&Hout).
  pose proof (od_idx _ _ _ _ _ _ _ _ _ _ _ Hd) as Hidx.
  pose proof Hd as [_ _ _ _ Hwb _ Hk1 Hk2].
  destruct Hout as [(_&?&_)|(Hne&sn0&e&mf&w2&dop&rows&aop&Hpk&Hg&Hmf&(Hw02&Hdel)&Hw2&Hsel&Haop&_&Hp)]; [done|].
  apply (get_snapshot_snap_of h0 m) in Hg; [|done].
  assert (sn0 = base) as -> by congruence. cbv beta iota zeta in Hp.
  destruct (primary_key_filter_spec (s_pks s) data e Hnn Hpk) as (Hnd&Hkf&Hev).
  assert (Hsafe : safe_filter s e) by by apply keyf_safe.
  assert (Hnan : no_nan_keys (s_pks s) before) by (intros r k Hr' Hk; by eapply Hprop).
  assert (Hdec : decided e before).
  { intros r Hr'. destruct (Hev r) as (bb&Hbb&_); [by intros; apply Hprop|eauto]. }
  assert (Hflt : filter (fun y => key_of (s_pks s) y ∉ key_of (s_pks s) <$> data) before = unmatched e before).
  { apply filter_ext_in. intros y Hy. rewrite <-not_true_iff_false.
    rewrite (key_matches (s_pks s) data e y) by (try done; by intros; apply Hprop). done. }
  assert (Hll : ∀ P, P = (fun r => matches e r = true) → lossless (snap_layout (w_fs w) base) P
     ↔ lossless (snap_layout (w_fs w) base) (fun r => key_of (s_pks s) r ∈ key_of (s_pks s) <$> data)).
  { intros P ->. split; apply lossless_iff; intros man t r Hman Ht Hr';
      rewrite (key_matches (s_pks s) data e r); try done; by eapply layout_row. }
  rewrite Hflt. setoid_rewrite <-(Hll _ eq_refl).
  pose proof Hsel as Heq. apply tsel_columns in Heq.
  pose proof (written_by_perm n data Hn) as Hperm.
  destruct aop as [pap|].
  2:{ cbn in Haop. rewrite Haop in Heq. destruct data; [done|]. apply Permutation_length in Hperm.
      destruct (written_by n _); [done|]. done. }
  destruct Haop as (Hwpa&Hdelp&Hres2&Hst&Htr).
  assert (Hb2 : bounded w2) by by eapply wle_bounded.
  pose proof (wnew_keeps _ _ Hbw Hw02) as Hk02. pose proof (wnew_keeps _ _ Hb2 Hw2) as Hk21.
  set (T := filter (touched e w) (fset_files (fset_at (w_fs w) mf (sn_idx base)))).
  assert (Hcase : (T = [] ∧ pa_del_idx p = [] ∧ pa_add_idx p = pa_add_idx pap)
    ∨ ∃ pd, delete_out s e w (fset_at (w_fs w) mf (sn_idx base)) (Some pd) w2
         ∧ pa_del_idx p = pa_del_idx pd ∧ pa_add_idx p = pa_add_idx pd ++ pa_add_idx pap).
  { destruct Hdel as [(Hf&->&->)|(Hf&Hdel)].
    - left. unfold T. rewrite Hf in *. injection Hp as ->. cbn. by rewrite Hdelp.
    - destruct (fset_files (fset_at (w_fs w) mf (sn_idx base))) as [|d0 ds] eqn:Hfs; [done|].
      destruct dop as [pd|]; injection Hp as ->.
      + right. exists pd. split; [done|]. cbn. by rewrite Hdelp, app_nil_r.
      + left. split; [unfold T; first [exact Hdel|rewrite <-Hfs; exact Hdel]|]. cbn. by rewrite Hdelp. }
  clear Hp. destruct Hcase as [(HT&Hdp&Hap)|(pd&Hdo&Hdp&Hap)].
  - destruct (no_hit_exact s e w mf base before Hs Hwb Hold Hsafe Hmf Hnan Hdec HT) as [Hun Hls].
    exists rows, before, []. rewrite app_nil_r, Hun. split_and!; try done.
    eapply op_done_adds; [exact Hd|done|done| |exact Htr]. by rewrite Hap.
  - assert (Hsh : shows s (w_fs w1) (man_rows (w_fs w1) (pa_add_idx pap ≫= man_at (w_fs w1))) rows) by (apply shows_iff; eauto).
    destruct (delete_exact s e w mf base before Hs Hwb Hold Hsafe Hmf Hnan Hdec pd w2 (w_fs w') sn (pa_add_idx pap) rows)
      as (new&lost&H1&H2&H3); try done.
    + by eapply keeps_trans.
    + by rewrite Hidx, Hdp, Hap.
    + eapply shows_man_keeps; [exact Hk2|apply Hwpa|done].
    + exists rows, new, lost. split_and!; try done; apply H3.
Qed.

(** delete *)
Lemma ray_delete_ran E s e b m w w' base sn p w1 :
  op_effect E s (ORayDelete e) b m w w' base sn p w1 →
  wf_schema s ∧ bounded w ∧ ∃ mf ps, build_manifest_filter (fenv_of s) e = Ok mf
    ∧ Forall2 (piece s e w (fset_mans (fset_at (w_fs w) mf (sn_idx base))) (w_fs w1)) (fset_files (fset_at (w_fs w) mf (sn_idx base))) ps
    ∧ (Some p = merge_patches ps ∧ Forall2 (piece_log e w) (fset_files (fset_at (w_fs w) mf (sn_idx base))) ps)
    ∧ sn_idx sn = filter (fun x => x ∉ omap id ps ≫= pa_del_idx) (sn_idx base) ++ (omap id ps ≫= pa_add_idx).
Proof.
  intros Hd. destruct (oe_body _ _ _ _ _ _ _ _ _ _ _ Hd) as (h0&Hb0&Hm0&Hi&Hh0&fo&Hrun).
  change (op_body E fo (ORayDelete e)) with (ray_delete_body E fo e) in Hrun.
  destruct (ray_delete_body_run E fo s e h0 w Hi Hh0) as (w2&r&Hr&_&Hout).
  rewrite Hrun in Hr. injection Hr as <- <-. destruct Hout as (sn0&mf&ps&Hg&Hmf&Hps&[Hpl _]&Hmerge).
  rewrite (od_same_base _ _ _ _ _ _ _ _ _ _ _ _ _ Hd Hb0 Hm0 Hg) in Hps, Hpl.
  split; [apply Hi|]. split; [apply Hi|]. exists mf, ps. split_and!; try done.
  pose proof (merged ps) as Hmg. rewrite <-Hmerge in Hmg. destruct Hmg as [_ Hcat].
  pose proof (od_idx _ _ _ _ _ _ _ _ _ _ _ Hd) as Hidx.
  destruct Hcat as [Hadd _ Hdel _ _ _ _]. by rewrite Hadd, Hdel in Hidx.
Qed.
Lemma ray_delete_effect E s e b m w w' base sn p w1 before :
  op_effect E s (ORayDelete e) b m w w' base sn p w1 → snap_rows s (w_fs w) base before →
  safe_filter s e → no_nan_keys (s_pks s) before → decided e before →
  separable (snap_layout (w_fs w) base) (fun r => matches e r = true) →
  ∃ rows, snap_rows s (w_fs w') sn rows ∧ filter (fun r => matches e r = false) before ≡ₚ rows.
Proof.
  intros Hd Hold Hsafe Hnan Hdec Hsep. destruct (ray_delete_ran _ _ _ _ _ _ _ _ _ _ _ Hd) as (Hs&_&mf&ps&Hmf&Hps&_&Hidx).
  eapply (ray_delete_exact s e w mf base before Hs); try done; apply Hd.
Qed.
(** All rows left were there before. *)
Lemma shown_sub s fs rs (old : list row) : (∀ r, r ∈ rs → ∃ y, y ∈ old ∧ vrow s fs r y) → ∃ ys, shows s fs rs ys ∧ ∀ y, y ∈ ys → y ∈ old.
Proof.
  induction rs as [|r rs IH]; intros H.
  - exists []. split; [constructor|]. by intros y ?%elem_of_nil.
  - destruct (H r ltac:(left)) as (y&Hy&Hv). destruct IH as (ys&Hys&Hsub); [intros; apply H; by right|].
    exists (y :: ys). split; [by constructor|]. intros y' [->|?]%elem_of_cons; auto.
Qed.
Lemma readd_in e w base q m r :
  q ∈ sn_idx base → m ∈ man_at (w_fs w) q → r ∈ readd_file e w q m → r ∈ man_rows (w_fs w) (snap_mrows (w_fs w) base).
Proof.
  intros Hq Hm. unfold readd_file. destruct (left_in e w (mr_path m)) as [|r0 rs] eqn:Hl; [by intros ?%elem_of_nil|].
  assert (Hin : ∀ m', m' ∈ man_at (w_fs w) q → ∀ r', r' ∈ file_rows (w_fs w) (mr_path m') →
     r' ∈ man_rows (w_fs w) (snap_mrows (w_fs w) base)).
  { intros m' Hm' r' Hr'. rewrite man_rows_bind. apply elem_of_list_bind. exists m'. split; [done|].
    apply elem_of_list_bind. eauto. }
  rewrite elem_of_app. intros [Hr|Hr].
  - rewrite man_rows_bind in Hr. apply elem_of_list_bind in Hr as (m'&Hr&[_ Hm']%elem_of_list_filter). eauto.
  - rewrite <-Hl in Hr. apply elem_of_list_filter in Hr as [_ Hr]. eauto.
Qed.
Lemma ray_delete_sub E s e b m w w' base sn p w1 before :
  op_effect E s (ORayDelete e) b m w w' base sn p w1 → snap_rows s (w_fs w) base before →
  ∃ rows, snap_rows s (w_fs w') sn rows ∧ ∀ r, r ∈ rows → r ∈ before.
Proof.
  intros Hd Hold. destruct (ray_delete_ran _ _ _ _ _ _ _ _ _ _ _ Hd) as (Hs&_&mf&ps&Hmf&Hps&_&Hidx).
  set (dels := omap id ps ≫= pa_del_idx) in *. pose proof Hd as [_ _ _ _ Hwb _ Hk1 Hk2].
  apply snap_rows_shows in Hold. unfold phys_rows in Hold.
  assert (Hshown : ∀ r, r ∈ man_rows (w_fs w) (snap_mrows (w_fs w) base) → ∃ y, y ∈ before ∧ vrow s (w_fs w) r y).
  { intros r Hr. apply elem_of_list_lookup in Hr as [i Hi]. destruct (Forall2_lookup_l _ _ _ _ _ Hold Hi) as (y&Hy&Hv).
    exists y. split; [by eapply elem_of_list_lookup_2|done]. }
  destruct (shown_sub s (w_fs w) (man_rows (w_fs w) (filter (fun x => x ∉ dels) (sn_idx base) ≫= man_at (w_fs w))) before) as (ya&Ha&Hasub).
  { intros r Hr. apply Hshown. rewrite man_rows_bind in *. apply elem_of_list_bind in Hr as (m'&Hr&Hm').
    apply elem_of_list_bind. exists m'. split; [done|]. apply elem_of_list_bind in Hm' as (q&Hm'&[_ Hq]%elem_of_list_filter).
    apply elem_of_list_bind. eauto. }
  destruct (shown_sub s (w_fs w) (sn_idx base ≫= (fun q => filter (hit e w mf) (man_at (w_fs w) q) ≫= readd_file e w q)) before)
    as (yb&Hb&Hbsub).
  { intros r (q&Hr&Hq)%elem_of_list_bind. apply elem_of_list_bind in Hr as (m'&Hr&[_ Hm']%elem_of_list_filter).
    apply Hshown. by eapply readd_in. }
  exists (ya ++ yb). split; [|intros r [?|?]%elem_of_app; auto].
  assert (Hk : keeps (w_fs w) (w_fs w')) by (by eapply keeps_trans).
  apply snap_rows_shows. unfold phys_rows, snap_mrows. rewrite Hidx, bind_app, man_rows_app. apply Forall2_app.
  - assert (Hwf : Forall (wf_man s (w_fs w)) (filter (fun x => x ∉ dels) (sn_idx base))).
    { apply Forall_forall. intros q [_ Hq]%elem_of_list_filter. destruct Hwb as (_&Hall&_). by eapply Forall_forall in Hall. }
    rewrite (bind_man_keeps s (w_fs w) (w_fs w')) by done. rewrite (man_rows_keeps s (w_fs w) (w_fs w')); [|done|].
    + by eapply shows_keeps.
    + apply Forall_forall. intros m' (q&Hm&Hq)%elem_of_list_bind. eapply Forall_forall in Hwf; [|exact Hq].
      apply wf_man_at in Hwf as [_ Hwf]. by eapply Forall_forall in Hwf.
  - apply (pieces_rows s e w (fset_mans (fset_at (w_fs w) mf (sn_idx base)))) with (fs1 := w_fs w1) (dfs := fset_files (fset_at (w_fs w) mf (sn_idx base)));
      [|exact Hk1|exact Hk2|exact Hps|].
    + intros i q. apply fset_mans_wf, Hwb.
    + by rewrite readded_files.
Qed.
