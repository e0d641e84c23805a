(** Reads and diffs of materialized views. *)
From Verif.Model Require Import System RayOps Refresh MvRead.
From Verif.Spec Require Import Api Changes Orderly Uniqueness Refreshing MvDiffs.
From Verif.Spec Require Import Free.
From Verif.Proofs Require Import PatchEdges.
From Verif.Proofs Require Import Lib World Resolve AppendSpec SchemaFacts ReadSpec Wf OpSpec Inv FileSet Ops Bodies SysInv ReadRun Observe Txn Calls RayRead Reads Diff Replay Orderly
  Access DeleteEffect RefreshLoop RefreshInv RefreshRun RefreshPath RefreshSource Refreshed ViewDiffs.

Lemma result_right {A} σs hid_s hs σ hid (m : H A) :
  y_handles σs !! hid_s = Some hs → result2 σs hid_s σ hid (on_right m) = result σ hid m.
Proof.
  intros Hs. unfold result2, result, with_handle, on_right. rewrite Hs. destruct (y_handles σ !! hid) as [h|]; [|done].
  by destruct (m (h, y_world σ)) as [[? ?] ?].
Qed.
Lemma result_left {A} σs hid_s σ hid h (m : H A) :
  y_handles σ !! hid = Some h → result2 σs hid_s σ hid (on_left m) = result σs hid_s m.
Proof.
  intros Hh. unfold result2, result, with_handle, on_left. rewrite Hh. destruct (y_handles σs !! hid_s) as [hs|]; [|done].
  by destruct (m (hs, y_world σs)) as [[? ?] ?].
Qed.

Lemma mv_read_local σs hid_s hs σ hid s E E' blocks flt fields v ref b b' :
  y_handles σs !! hid_s = Some hs → mv_reachable σ → schema_at σ hid = Some s →
  (∀ ns n, fields = Some ns → n ∈ ns → n ∈ s_names s) →
  (fun r => rmap (@concat row) r) <$> result2 σs hid_s σ hid (run_mv_read E blocks flt fields v ref b)
  = result σ hid (run_read_all E' flt fields v ref b').
Proof.
  intros Hhs Hr Hs Hf0. pose proof (known_fields _ _ Hf0) as Hf. unfold run_mv_read. rewrite (result_right _ _ _ _ _ _ Hhs).
  pose proof Hs as Hs'. unfold schema_at in Hs'. apply fmap_Some in Hs' as (h&Hh&_).
  destruct (mv_seen _ _ _ _ Hr Hh Hs) as (p&m&Hseen&_). pose proof Hseen as [Hsi _ Hwf Hst Hm Hsch].
  pose proof (si_world _ _ Hsi) as Hi.
  destruct (ray_read_run E blocks flt fields v ref b s h _ p m Hi Hwf Hst Hm) as (r&Hrun&Hcase).
  destruct (run_read_run E' flt fields v ref b' s h _ p m Hi Hwf Hst Hm) as (r'&Hrun'&Hcase').
  rewrite result_read_all, !(result_eq _ _ _ _ Hh), Hrun, Hrun'. cbn [snd fmap option_fmap option_map]. f_equal.
  destruct (snap_of m (h_branch h) v) as [sn|]; [|by rewrite Hcase, Hcase'].
  destruct (man_filter s flt) as [mf|e]; [|by rewrite Hcase, Hcase'].
  destruct (Hcase Hf) as (ts&lrows&->&Hl&Hsel&_). destruct (Hcase' Hf) as (ts'&lrows'&->&Hl'&Hsel').
  cbn [rmap]. f_equal. rewrite Hl in Hl'. injection Hl' as <-. destruct ref.
  - rewrite Hsel in Hsel'. by injection Hsel'.
  - destruct Hsel' as [Hsel' _]. rewrite Hsel in Hsel'. by injection Hsel'.
Qed.

Section view.
Context {F : Type} (map_fn : F → row → list row) (keep_fn : F → row → bool).

Lemma mv_diff_of_view σs hid_s σ hid h E n blocks (v : view F) a b batch :
  y_handles σ !! hid = Some h →
  result2 σs hid_s σ hid (run_mv_diff map_fn keep_fn E n blocks v a b batch)
  = result σs hid_s (run_view_diff map_fn keep_fn E n blocks v a b batch).
Proof. intros Hh. unfold run_mv_diff. by rewrite (result_left _ _ _ _ _ _ Hh). Qed.

(** * Replaying *)
Lemma apply_perm pks cs a b : a ≡ₚ b → apply_changes pks a cs ≡ₚ apply_changes pks b cs.
Proof.
  unfold apply_changes. revert a b. induction cs as [|c cs IH]; intros a b Hab; cbn; [done|]. apply IH.
  unfold apply_change. destruct (ch_type c); by rewrite Hab.
Qed.
Lemma filter_shown s (K : list (list (option scalar))) (rows : list row) : wf_schema s →
  filter (fun r => key_of (s_pks s) r ∉ K) (show s <$> rows) = show s <$> filter (fun r => key_of (s_pks s) r ∉ K) rows.
Proof.
  intros Hs. induction rows as [|r rows IH]; [done|]. rewrite fmap_cons, !filter_cons, (key_show s r Hs), IH. by case_decide.
Qed.
Lemma apply_shown s (cs : list change) (rows : list row) : wf_schema s →
  apply_changes (s_pks s) (show s <$> rows) (shown_change s <$> cs) = show s <$> apply_changes (s_pks s) rows cs.
Proof.
  intros Hs. unfold apply_changes. revert rows. induction cs as [|c cs IH]; intros rows; [done|]. rewrite fmap_cons. cbn [foldl].
  rewrite <-IH. f_equal. unfold apply_change, shown_change. destruct (ch_type c) eqn:Ht; cbn [ch_type ch_data].
  - rewrite ?Ht. first [by rewrite filter_shown|by rewrite fmap_app].
  - rewrite ?Ht. first [by rewrite filter_shown|by rewrite fmap_app].
Qed.

Lemma mv_diff_leads σs hid_s hs ss ms σ hid h sm E E' n blocks (v : view F) a b batch batch' i j l cs out mv_i mv_j :
  keeping separate_op init σs → y_handles σs !! hid_s = Some hs → schema_at σs hid_s = Some ss → stored_meta (w_fs (y_world σs)) = Some ms →
  mv_reachable σ → y_handles σ !! hid = Some h → schema_at σ hid = Some sm → s_pks sm = s_pks ss →
  1 ≤ n → keeps_keys map_fn keep_fn v (s_pks ss) →
  named ms a = Some i → named ms b = Some j → path_to ms i j l →
  (∀ k sn rows, k ∈ i :: l → md_snaps ms !! k = Some sn → reads σs hid_s (Some (VId k)) rows →
     unique_keys (s_pks ss) rows ∧ st_rows (sn_stats sn) = Z.of_nat (length rows)) →
  result σs hid_s (run_diff E' a b batch') = Some (Ok cs) → served map_fn keep_fn v (added_rows (changed_rows cs)) →
  in_step map_fn keep_fn v σs hid_s σ hid sm i → in_step map_fn keep_fn v σs hid_s σ hid sm j →
  reads σ hid (Some (VId i)) mv_i → reads σ hid (Some (VId j)) mv_j →
  result2 σs hid_s σ hid (run_mv_diff map_fn keep_fn E n blocks v a b batch) = Some (Ok out) →
  apply_changes (s_pks sm) mv_i (shown_change sm <$> out) ≡ₚ mv_j.
Proof.
  intros Ho Hhs Hss Hms Hr Hh Hsm Hpks Hn Hkeep Ha Hb Hpath Hgood Hdiff Hserved (ri&mi&Hri&Hmi&Hi) (rj&mj&Hrj&Hmj&Hj) Hmvi Hmvj Hout.
  rewrite (mv_diff_of_view _ _ _ _ _ _ _ _ _ _ _ _ Hh) in Hout.
  assert (mi = mv_i) as -> by (specialize (Hmi E None); rewrite (Hmvi E None) in Hmi; congruence).
  assert (mj = mv_j) as -> by (specialize (Hmj E None); rewrite (Hmvj E None) in Hmj; congruence).
  destruct (mv_seen _ _ _ _ Hr Hh Hsm) as (p&m&Hseen&_).
  pose proof (wi_schema _ _ (si_world _ _ (sn_inv _ _ _ _ _ _ Hseen))) as Hwf.
  rewrite (apply_perm _ _ _ _ Hi), (apply_shown _ _ _ Hwf), Hj, Hpks.
  by rewrite (view_diff_replays map_fn keep_fn σs hid_s hs ss ms E E' n blocks v a b batch batch' i j l cs out ri rj).
Qed.

(** * Refreshes keep versions in step *)
Lemma refreshed_in_step σs hid_s hs ss ms σ hid h sm m E O n blocks (v : view F) target batch i j l jobs rows_j :
  let refresh := run_refresh map_fn keep_fn E O n blocks v target batch in
  let σ' := (after2 σs hid_s σ hid refresh).2 in
  keeping separate_op init σs → y_handles σs !! hid_s = Some hs → schema_at σs hid_s = Some ss → stored_meta (w_fs (y_world σs)) = Some ms →
  mv_reachable σ → y_handles σ !! hid = Some h → schema_at σ hid = Some sm → stored_meta (w_fs (y_world σ)) = Some m →
  h_meta h = m → h_branch h = MAIN → 1 ≤ n →
  s_pks sm = s_pks ss → plain_keys sm → keeps_keys map_fn keep_fn v (s_pks ss) →
  md_current m = i → (h_max h ≤ i)%Z → (∀ x r, md_refs m !! x = Some r → (rf_id r ≤ i)%Z) →
  refresh_target hs target = Some j → path_to ms i j l →
  (∀ k sn rows, k ∈ i :: l → md_snaps ms !! k = Some sn → reads σs hid_s (Some (VId k)) rows →
     unique_keys (s_pks ss) rows ∧ proper_keys (s_pks ss) rows ∧ st_rows (sn_stats sn) = Z.of_nat (length rows)) →
  in_step map_fn keep_fn v σs hid_s σ hid sm i →
  result2 σs hid_s σ hid refresh = Some (Ok jobs) → Forall (fun r => ∃ st, r = JSucceeded st) jobs →
  Z.of_nat (length jobs) = (j - i)%Z →
  (∀ m' k sn rows, stored_meta (w_fs (y_world σ')) = Some m' → (i ≤ k)%Z → md_snaps m' !! k = Some sn →
     reads σ' hid (Some (VId k)) rows → st_rows (sn_stats sn) = Z.of_nat (length rows)) →
  reads σs hid_s (Some (VId j)) rows_j →
  in_step map_fn keep_fn v σs hid_s σ' hid sm j
  ∧ ∀ k, (k ≤ i)%Z → in_step map_fn keep_fn v σs hid_s σ hid sm k → in_step map_fn keep_fn v σs hid_s σ' hid sm k.
Proof.
  intros refresh σ' Ho Hhs Hsch Hms Hr Hh Hsch' Hm Hhm Hb Hn Hpks Hpl Hkeep Hcur Hmax Hrefs Htgt Hpath Hsrc Hstep Hres Hjobs Hlen Hcnt Hrj.
  assert (JFailed ∉ jobs) as Hnf.
  { intros Hin. rewrite Forall_forall in Hjobs. by destruct (Hjobs _ Hin). }
  assert (reachable σs) as Hrs by (by apply keeping_reachable in Ho).
  destruct (refresh_done map_fn keep_fn E O n blocks v target batch σs hid_s hs ss ms σ hid h sm m jobs i j l)
    as (ps&p&q&m'&h'&[Hseen Hseen' Hafter Hb' (groups&Hg&Hch)]&Hm'); try done; [by rewrite Hhm|].
  fold refresh σ' in Hafter, Hm', Hch.
  pose proof (refreshed_id map_fn keep_fn E O n blocks v target batch σs hid_s hs ss ms σ hid h sm m m' i j l jobs
    Hrs Hhs Hsch Hms Hr Hh Hsch' Hm Hhm Hb Hn Hcur Hmax Hrefs Htgt Hpath Hres Hjobs Hm') as Hid.
  assert (Hlv : live sm (sync p m h, y_world σ) p m) by (apply synced_live; by eapply seen_live).
  destruct (sync_spec sm (y_world σ) p m h (sn_stored _ _ _ _ _ _ Hseen') (sn_meta _ _ _ _ _ _ Hseen') (sn_handle _ _ _ _ _ _ Hseen'))
    as (_&_&_&Hbr&_).
  destruct (chain_live map_fn keep_fn E O n v sm Hn _ _ _ _ Hch p m (groups_shaped _ _ _ _ _ _ _ _ Hg) Hlv) as (q'&m2&Hl2&_&Hkp&Hex).
  { cbn. congruence. }
  destruct (stored_fun _ _ _ _ _ (lv_stored _ _ _ _ Hl2) (sn_stored _ _ _ _ _ _ Hafter)) as [_ ->]. cbn [snd] in Hkp.
  assert (Hold : ∀ k rows, (k ≤ i)%Z → reads σ hid (Some (VId k)) rows → reads σ' hid (Some (VId k)) rows).
  { intros k rows Hk Hrd. apply (reads_iff _ _ _ _ _ _ _ _ Hseen') in Hrd as (sn&Hsn&Hrows).
    apply (reads_iff _ _ _ _ _ _ _ _ Hafter). exists sn. split.
    - change (md_snaps m' !! k = Some sn). rewrite (ex_old _ _ Hex) by lia. exact Hsn.
    - eapply snap_rows_keeps; [exact Hkp| |done]. exact (proj1 (proj2 (wm_snaps _ _ _ (sn_meta _ _ _ _ _ _ Hseen') k sn Hsn))). }
  split; [|by intros k Hk (rk&mk&H1&H2&H3); exists rk, mk; split_and!; auto].
  destruct Hstep as (ri&mi&Hri&Hmi&Hperm).
  destruct (refreshed map_fn keep_fn E O n blocks v target batch σs hid_s hs ss ms σ hid h sm m i j l jobs ri mi rows_j) as (new&Hnew&Hp); try done.
  - apply (reads_iff _ _ _ _ _ _ _ _ Hseen') in Hmi as (sn&Hsn&Hrows). apply (reads_iff _ _ _ _ _ _ _ _ Hseen'). exists sn. split; [|done].
    unfold snap_of, version_id, head_of. rewrite Hb, decide_True, Hcur by done. exact Hsn.
  - exists rows_j, new. split_and!; [done| |done].
    apply (reads_iff _ _ _ _ _ _ _ _ Hafter) in Hnew as (sn&Hsn&Hrows). apply (reads_iff _ _ _ _ _ _ _ _ Hafter). exists sn. split; [|done].
    unfold snap_of, version_id, head_of in Hsn. rewrite Hb', decide_True in Hsn by done. rewrite Hid in Hsn. cbn in Hsn |- *.
    unfold snap_of, version_id. cbn. by replace j with (i + Z.of_nat (length jobs))%Z by lia.
Qed.
End view.
