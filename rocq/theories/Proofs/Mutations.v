(** delete, insert and upsert: what they do to the rows of their branch. *)
From Verif.Model Require Import System.
From Verif.Spec Require Import Logical Pruning Keys Layout.
From Verif.Proofs Require Import Lib World Resolve AppendSpec SchemaFacts ReadSpec Wf OpSpec
  Inv FileSet Ops Bodies Txn ReadRun Effects View Prune Keys DeleteEffect.

Lemma od_same_base E s o b m w w' base sn p w1 h0 sn0 :
  op_effect E s o b m w w' base sn p w1 →
  h_branch h0 = b → h_meta h0 = m → get_snapshot h0 None = Ok sn0 → sn0 = base.
Proof.
  intros Hd Hb Hm Hg. apply (get_snapshot_snap_of h0 m) in Hg; [|done].
  rewrite Hb, (oe_base _ _ _ _ _ _ _ _ _ _ _ Hd) in Hg. by injection Hg.
Qed.
Lemma od_idx E s o b m w w' base sn p w1 :
  op_effect E s o b m w w' base sn p w1 →
  sn_idx sn = filter (fun x => x ∉ pa_del_idx p) (sn_idx base) ++ pa_add_idx p.
Proof.
  intros [_ _ _ _ Hwb (i&t&Hn) _ _]. eapply next_idx; [|exact Hn]. apply Hwb.
Qed.

(** * delete *)
Lemma delete_effect E s e b m w w' base sn p w1 old :
  wf_schema s → op_effect E s (ODelete e) b m w w' base sn p w1 →
  snap_rows s (w_fs w) base old →
  safe_filter s e → no_nan_keys (s_pks s) old → decided e old →
  ∃ new lost, snap_rows s (w_fs w') sn new
    ∧ filter (fun y => matches e y = false) old ≡ₚ new ++ lost
    ∧ (lost = [] ↔ lossless (snap_layout (w_fs w) base) (fun r => matches e r = true)).
Proof.
  intros Hs Hd Hold Hsafe Hnan Hdec. pose proof (od_idx _ _ _ _ _ _ _ _ _ _ _ Hd) as Hidx.
  pose proof Hd as [(h0&Hb0&Hm0&(sn0&mf&Hg&Hmf&Hout)) _ _ _ Hwb _ Hk1 Hk2].
  rewrite (od_same_base _ _ _ _ _ _ _ _ _ _ _ _ _ Hd Hb0 Hm0 Hg) in Hout.
  destruct (delete_exact s e w mf base old Hs Hwb Hold Hsafe Hmf Hnan Hdec p w1 (w_fs w') sn [] []) as (new&lost&H1&H2&H3);
    try done.
  - by rewrite app_nil_r.
  - constructor.
  - rewrite app_nil_r in H1. eauto.
Qed.
Lemma delete_effect_sub E s e b m w w' base sn p w1 old :
  op_effect E s (ODelete e) b m w w' base sn p w1 →
  snap_rows s (w_fs w) base old →
  ∃ new, snap_rows s (w_fs w') sn new ∧ new ⊆+ old.
Proof.
  intros Hd Hold. pose proof (od_idx _ _ _ _ _ _ _ _ _ _ _ Hd) as Hidx.
  pose proof Hd as [(h0&Hb0&Hm0&(sn0&mf&Hg&Hmf&Hout)) _ _ _ Hwb _ Hk1 Hk2].
  rewrite (od_same_base _ _ _ _ _ _ _ _ _ _ _ _ _ Hd Hb0 Hm0 Hg) in Hout.
  destruct (delete_sub s e w mf base p w1 (w_fs w') sn [] [] old) as (new&H1&H2); try done.
  - by rewrite app_nil_r.
  - constructor.
  - rewrite app_nil_r in H1. eauto.
Qed.

(** * Appending the input of insert and upsert *)
Lemma patch_adds_shows s lo w p rows :
  wf_schema s → patch_adds s lo w p [] rows →
  shows s (w_fs w) (man_rows (w_fs w) (pa_add_idx p ≫= man_at (w_fs w))) rows.
Proof. intros Hs Hp. destruct (patch_adds_rows s lo w p rows Hs Hp) as (H1&H2&_). apply shows_iff. eauto. Qed.
Lemma shows_man_keeps s fs fs' l ys :
  keeps fs fs' → Forall (wf_man s fs) l → shows s fs (man_rows fs (l ≫= man_at fs)) ys →
  shows s fs' (man_rows fs' (l ≫= man_at fs')) ys.
Proof.
  intros Hk Hl (x&Hx&Hy)%shows_iff. apply shows_iff. exists x. split; [|done]. by eapply resolve_man_keeps.
Qed.

(** filter_matched: some row of the listed files satisfies the filter. *)
Lemma filter_matched_run E s w mf sn e :
  wf_schema s → wf_snap s (w_fs w) sn →
  filter_matched E s (fset_at (w_fs w) mf (sn_idx sn)) e w
  = (w, Ok (negb (bool_decide (filter_rows (Some e) (picked_rows (w_fs w) mf sn) = [])))).
Proof.
  intros Hs Hw. unfold filter_matched.
  set (o := ReadOpts (Some e) (Some (s_pks s)) None false None).
  set (fset := fset_at (w_fs w) mf (sn_idx sn)).
  pose proof (files_rows (w_fs w) mf sn (Some e)) as Hrows. fold fset in Hrows.
  set (rows := filter_rows (Some e) (picked_rows (w_fs w) mf sn)) in *.
  assert (Hlist : Forall (listed s w) (fset_files fset)) by (apply fset_listed; apply Hw).
  destruct (content_some s (w_fs w) sn Hw) as [l Hl].
  destruct (resolve_rows_sub _ _ _ _ rows Hl) as [lrows Hlr].
  { intros r' Hr'. assert (Hin : r' ∈ picked_rows (w_fs w) mf sn).
    { unfold rows in Hr'. by apply elem_of_list_filter in Hr' as [_ ?]. }
    unfold picked_rows in Hin. rewrite man_rows_bind in Hin. apply elem_of_list_bind in Hin as (m'&Hr1&[_ Hm']%elem_of_list_filter).
    unfold phys_rows. rewrite man_rows_bind. apply elem_of_list_bind. eauto. }
  destruct (read_files_spec E s o (fset_files fset) w (fun df => file_rows (w_fs w) (df_path df)) lrows)
    as (ts&Hts&Hout&_).
  - done.
  - unfold o. rewrite selected_names. intros n. cbn. apply Hs.
  - intros df Hdf. eapply Forall_forall in Hlist; [|exact Hdf]. destruct Hlist as (Hbm&_&m'&Hm'&Hp&_). split.
    + rewrite Hp. by apply wf_mrow_readable.
    + unfold mask_ok. by rewrite Hbm.
  - change (ro_filter o) with (Some e). by rewrite Hrows.
  - erewrite bind_run; [|exact Hts]. unfold ret. do 2 f_equal.
    change (ro_ref o) with false in Hout. cbv iota in Hout.
    assert (Hlen : length (concat ts) = length rows).
    { rewrite (tsel_length _ _ _ Hout). symmetry. eapply mapM_length. exact Hlr. }
    clear -Hlen. case_bool_decide as Hr; cbn.
    + rewrite Hr in Hlen. cbn in Hlen. apply not_true_iff_false. intros Hex.
      apply existsb_exists in Hex as (t&Ht%elem_of_list_In&Hne). apply elem_of_list_lookup in Ht as [i Hi].
      apply length_zero_iff_nil in Hlen. apply elem_of_list_lookup_2 in Hi.
      destruct t as [|x t]; [done|]. assert (x ∈ concat ts); [|rewrite Hlen in *; set_solver].
      apply elem_of_list_In, in_concat. exists (x :: t). split; [by apply elem_of_list_In|by left].
    + apply existsb_exists.
      destruct (concat ts) as [|x c] eqn:Hc; [destruct rows; [done|cbn in Hlen; lia]|].
      assert (Hx : x ∈ concat ts) by (rewrite Hc; set_solver).
      apply elem_of_list_In, in_concat in Hx as (t&Ht&Hxt). exists t. split; [done|]. by destruct t.
Qed.
Lemma filter_matched_spec E s w mf sn e r :
  wf_schema s → wf_snap s (w_fs w) sn →
  filter_matched E s (fset_at (w_fs w) mf (sn_idx sn)) e w = (w, Ok r) →
  r = negb (bool_decide (filter_rows (Some e) (picked_rows (w_fs w) mf sn) = [])).
Proof. intros Hs Hw. rewrite filter_matched_run by done. by intros [= <-]. Qed.

Lemma no_picked s fs sn e mf ys :
  wf_schema s → wf_snap s fs sn → safe_filter s e → build_manifest_filter (fenv_of s) e = Ok mf →
  snap_rows s fs sn ys → no_nan_keys (s_pks s) ys →
  filter_rows (Some e) (picked_rows fs mf sn) = [] ↔ filter (fun y => matches e y = true) ys = [].
Proof.
  intros Hs Hw Hsafe Hmf Hys Hnan.
  pose proof (filter_pruned s fs sn e mf ys Hs Hw Hsafe Hmf Hys Hnan) as Hf.
  split; intros Hn; rewrite Hn in Hf; by inversion Hf.
Qed.
Lemma picked_none fs mf sn : fset_files (fset_at fs mf (sn_idx sn)) = [] → picked_rows fs mf sn = [].
Proof.
  intros Hf. pose proof (fset_files_filter fs mf (sn_idx sn)) as H. rewrite Hf in H. cbn in H.
  unfold picked_rows, snap_mrows. by destruct (filter _ _).
Qed.
Lemma filter_matches_nil e ys : filter (fun y => matches e y = true) ys = [] ↔ ∀ y, y ∈ ys → matches e y = false.
Proof.
  split.
  - intros Hn y Hy. apply not_true_iff_false. intros He.
    assert (y ∈ filter (fun y => matches e y = true) ys) as Hin by (by apply elem_of_list_filter).
    rewrite Hn in Hin. set_solver.
  - intros Hall. apply filter_none. intros y Hy. rewrite Hall by done. done.
Qed.

(** * insert *)
Lemma insert_effect E s data b m w w' base sn p w1 old :
  wf_schema s → plain_keys s → op_effect E s (OInsert MInsert data) b m w w' base sn p w1 →
  snap_rows s (w_fs w) base old →
  key_nonnull (s_pks s) data → proper_keys (s_pks s) old →
  ∃ input, tsel (out_names s) data = Ok input ∧ snap_rows s (w_fs w') sn (old ++ input)
    ∧ NoDup (key_of (s_pks s) <$> data)
    ∧ (∀ y d, y ∈ old → d ∈ data → key_of (s_pks s) y ≠ key_of (s_pks s) d).
Proof.
  intros Hs Hpl Hd Hold Hnn Hprop. pose proof (od_idx _ _ _ _ _ _ _ _ _ _ _ Hd) as Hidx.
  pose proof Hd as [(h0&Hb0&Hm0&Hout) Hwp _ _ Hwb _ Hk1 Hk2].
  destruct Hout as [(_&?&_)|(Hne&sn0&e&mf&w2&dop&rows&aop&Hpk&Hg&Hmf&Hmode&Hw2&Hsel&Haop&Hp)]; [done|].
  rewrite (od_same_base _ _ _ _ _ _ _ _ _ _ _ _ _ Hd Hb0 Hm0 Hg) in Hmode. cbn in Hmode.
  destruct Hmode as (->&->&Hno). cbn in Hp.
  destruct aop as [pa|]; [|done]. injection Hp as ->.
  destruct (primary_key_filter_spec (s_pks s) data e Hnn Hpk) as (Hnd&Hkf&Hev).
  assert (Hsafe : safe_filter s e) by by apply keyf_safe.
  assert (Hnan : no_nan_keys (s_pks s) old) by (intros r n Hr Hn; by eapply Hprop).
  assert (Hnomatch : ∀ y, y ∈ old → matches e y = false).
  { apply filter_matches_nil. rewrite <-(no_picked s (w_fs w) base e mf old) by done.
    destruct Hno as [Hno|Hno].
    - rewrite (picked_none _ _ _ Hno). done.
    - apply (filter_matched_spec E s w mf base e false Hs Hwb) in Hno.
      by case_bool_decide. }
  destruct (patch_adds_rows s _ _ _ _ Hs Haop) as (Hres&Hsel'&Hdel&_).
  exists rows. split_and!; try done.
  - eapply op_done_adds; [exact Hd| |done| |exact Hsel'].
    + cbn. by rewrite Hdel.
    + exact Hres.
  - intros y d Hy Hdd Heq. specialize (Hnomatch y Hy). destruct (Hev y) as (bb&Hb&Hiff).
    { intros n Hn. by apply Hprop. }
    assert (bb = true) as -> by (apply Hiff; eauto). unfold matches in Hnomatch. by rewrite Hb in Hnomatch.
Qed.

(** * upsert *)
Lemma key_matches pks data e y :
  key_nonnull pks data → primary_key_filter pks data = Ok (Some e) →
  (∀ n, n ∈ pks → row_look y n ≠ None ∧ row_look y n ≠ Some SNaN) →
  matches e y = true ↔ key_of pks y ∈ key_of pks <$> data.
Proof.
  intros Hnn Hpk Hy. destruct (primary_key_filter_spec pks data e Hnn Hpk) as (_&_&Hev).
  destruct (Hev y Hy) as (b&Hb&Hiff). unfold matches. rewrite Hb, elem_of_list_fmap. cbn.
  destruct b; [|split; [done|]].
  - split; [|done]. intros _. destruct (proj1 Hiff eq_refl) as (d&?&?). eauto.
  - intros (d&?&?). apply Hiff. eauto.
Qed.
Lemma layout_row s fs sn old man t r :
  wf_schema s → wf_snap s fs sn → snap_rows s fs sn old → proper_keys (s_pks s) old →
  man ∈ snap_layout fs sn → t ∈ man → r ∈ t →
  ∀ n, n ∈ s_pks s → row_look r n ≠ None ∧ row_look r n ≠ Some SNaN.
Proof.
  intros Hs Hw Hold Hprop Hman Ht Hr n Hn.
  destruct (snap_layout_in _ _ _ _ Hman Ht) as (q&m&Hq&Hm&->&_).
  assert (Hin : m ∈ snap_mrows fs sn) by (apply elem_of_list_bind; eauto).
  destruct (shown_row s fs sn old m r Hw Hold Hin Hr) as (_&Hnm&y&Hy&Hv).
  rewrite <-(vrow_look _ _ _ _ n Hv Hnm) by by apply Hs. by apply Hprop.
Qed.
Lemma lossless_iff lay P Q :
  (∀ man t r, man ∈ lay → t ∈ man → r ∈ t → P r ↔ Q r) → lossless lay P → lossless lay Q.
Proof.
  intros Hpq [(man&t&r&r'&Hman&Ht&Hr&Hr'&HP&HP')|Hall].
  - left. exists man, t, r, r'. rewrite (Hpq man t r), (Hpq man t r') in * by done. done.
  - right. intros man t t' r r' Hman Ht Ht' Hr HQ Hr'. apply (Hpq man t r) in HQ; [|done..].
    destruct (Hall man t t' r r') as (r''&Hr''&HP''); try done. exists r''. split; [done|]. by apply (Hpq man t').
Qed.
Lemma upsert_effect E s data b m w w' base sn p w1 old :
  wf_schema s → bounded w → plain_keys s → op_effect E s (OInsert MUpsert data) b m w w' base sn p w1 →
  snap_rows s (w_fs w) base old →
  key_nonnull (s_pks s) data → proper_keys (s_pks s) old →
  ∃ input new lost, tsel (out_names s) data = Ok input ∧ snap_rows s (w_fs w') sn (new ++ input)
    ∧ NoDup (key_of (s_pks s) <$> data)
    ∧ filter (fun y => key_of (s_pks s) y ∉ key_of (s_pks s) <$> data) old ≡ₚ new ++ lost
    ∧ (lost = [] ↔ lossless (snap_layout (w_fs w) base) (fun r => key_of (s_pks s) r ∈ key_of (s_pks s) <$> data)).
Proof.
  intros Hs Hbw Hpl Hd Hold Hnn Hprop. pose proof (od_idx _ _ _ _ _ _ _ _ _ _ _ Hd) as Hidx.
  pose proof Hd as [(h0&Hb0&Hm0&Hout) Hwp Hw1 _ Hwb _ Hk1 Hk2].
  destruct Hout as [(_&?&_)|(Hne&sn0&e&mf&w2&dop&rows&aop&Hpk&Hg&Hmf&Hmode&Hw2&Hsel&Haop&Hp)]; [done|].
  rewrite (od_same_base _ _ _ _ _ _ _ _ _ _ _ _ _ Hd Hb0 Hm0 Hg) in Hmode, Hp. cbv beta iota zeta in Hmode, Hp.
  destruct Hmode as [Hw02 Hdel].
  destruct (primary_key_filter_spec (s_pks s) data e Hnn Hpk) as (Hnd&Hkf&Hev).
  assert (Hsafe : safe_filter s e) by by apply keyf_safe.
  assert (Hnan : no_nan_keys (s_pks s) old) by (intros r n Hr Hn; by eapply Hprop).
  assert (Hdec : decided e old).
  { intros r Hr. destruct (Hev r) as (bb&Hb&_); [by intros; apply Hprop|eauto]. }
  assert (Hflt : filter (fun y => key_of (s_pks s) y ∉ key_of (s_pks s) <$> data) old = unmatched e old).
  { apply filter_ext_in. intros y Hy. rewrite <-not_true_iff_false.
    rewrite (key_matches (s_pks s) data e y) by (try done; by intros; apply Hprop). done. }
  assert (Hll : ∀ P, P = (fun r => matches e r = true) → lossless (snap_layout (w_fs w) base) P
     ↔ lossless (snap_layout (w_fs w) base) (fun r => key_of (s_pks s) r ∈ key_of (s_pks s) <$> data)).
  { intros P ->. split; apply lossless_iff; intros man t r Hman Ht Hr;
      rewrite (key_matches (s_pks s) data e r); try done; by eapply layout_row. }
  rewrite Hflt. setoid_rewrite <-(Hll _ eq_refl).
  destruct aop as [pa|].
  2:{ destruct data; [done|]. apply tsel_ok in Hsel. rewrite Haop in Hsel. inversion Hsel. }
  destruct (patch_adds_rows s _ _ _ _ Hs Haop) as (Hres&Hsel'&Hdelp&Hwpa).
  assert (Hb2 : bounded w2) by by eapply wle_bounded.
  pose proof (wnew_keeps _ _ Hbw Hw02) as Hk02. pose proof (wnew_keeps _ _ Hb2 Hw2) as Hk21.
  set (T := filter (touched e w) (fset_files (fset_at (w_fs w) mf (sn_idx base)))).
  assert (Hcase : (T = [] ∧ pa_del_idx p = [] ∧ pa_add_idx p = pa_add_idx pa)
    ∨ ∃ pd, delete_out s e w (fset_at (w_fs w) mf (sn_idx base)) (Some pd) w2
         ∧ pa_del_idx p = pa_del_idx pd ∧ pa_add_idx p = pa_add_idx pd ++ pa_add_idx pa).
  { destruct Hdel as [(Hf&->&->)|(Hf&Hdel)].
    - left. unfold T. rewrite Hf in *. injection Hp as ->. cbn. by rewrite Hdelp.
    - destruct (fset_files (fset_at (w_fs w) mf (sn_idx base))) as [|d0 ds] eqn:Hfs; [done|].
      destruct dop as [pd|]; injection Hp as ->.
      + right. exists pd. split; [done|]. cbn. by rewrite Hdelp, app_nil_r.
      + left. split; [unfold T; first [exact Hdel|rewrite <-Hfs; exact Hdel]|]. cbn. by rewrite Hdelp. }
  clear Hp. destruct Hcase as [(HT&Hdp&Hap)|(pd&Hdo&Hdp&Hap)].
  - destruct (no_hit_exact s e w mf base old Hs Hwb Hold Hsafe Hmf Hnan Hdec HT) as [Hun Hls].
    exists rows, old, []. rewrite app_nil_r, Hun. split_and!; try done.
    eapply op_done_adds; [exact Hd|done|done| |exact Hsel']. by rewrite Hap.
  - pose proof (patch_adds_shows s _ _ _ _ Hs Haop) as Hsh.
    destruct (delete_exact s e w mf base old Hs Hwb Hold Hsafe Hmf Hnan Hdec pd w2 (w_fs w') sn (pa_add_idx pa) rows)
      as (new&lost&H1&H2&H3); try done.
    + by eapply keeps_trans.
    + by rewrite Hidx, Hdp, Hap.
    + eapply shows_man_keeps; [exact Hk2|apply Hwpa|done].
    + exists rows, new, lost. done.
Qed.
