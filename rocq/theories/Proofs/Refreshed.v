(** Refreshing observed through handles. *)
From Verif.Model Require Import System Refresh.
From Verif.Spec Require Import Logical Pruning Keys Layout Changes Orderly Api Refreshing.
From Verif.Spec Require Import Free.
From Verif.Proofs Require Import PatchEdges.
From Verif.Proofs Require Import Lib World Resolve AppendSpec SchemaFacts ReadSpec Wf OpSpec
  Inv FileSet Ops Bodies Txn SysInv ReadRun Effects Observe View Prune Keys DeleteEffect Mutations Calls Durable Evolve History Diff
  Orderly Edge Replay AnyOp RayDiff Reads
  RefreshStep RefreshEffect RefreshLoop RefreshSource RefreshRun RefreshPath RefreshInv.

Section refreshed.
Context {F : Type} (map_fn : F → row → list row) (keep_fn : F → row → bool).
Context (E : env) (O : fopts) (n : nat) (blocks : bool) (v : view F) (target : option version) (batch : option nat).
Notation refresh := (run_refresh map_fn keep_fn E O n blocks v target batch).

Lemma after2_inv σs hid_s σ hid ss s :
  1 ≤ n → sinv ss σs → sinv s σ →
  y_world (after2 σs hid_s σ hid refresh).1 = y_world σs ∧ sinv ss (after2 σs hid_s σ hid refresh).1
  ∧ sinv s (after2 σs hid_s σ hid refresh).2 ∧ keeps (w_fs (y_world σ)) (w_fs (y_world (after2 σs hid_s σ hid refresh).2)).
Proof.
  intros Hn Hss Hs. unfold after2.
  destruct (y_handles σs !! hid_s) as [hs|] eqn:Hhs; [|split_and!; try done; by intros ? ?].
  destruct (y_handles σ !! hid) as [h|] eqn:Hh; [|split_and!; try done; by intros ? ?].
  destruct (sinv_seen ss σs hid_s hs Hss Hhs) as (ps&ms&[_ _ Hwfs Hsts Hwms _]).
  destruct (refresh ((hs, y_world σs), (h, y_world σ))) as [[la [h' w']] r] eqn:Hrun.
  destruct (run_moves map_fn keep_fn E O n blocks v s ss Hn target batch hs (y_world σs) ps ms (h, y_world σ) la (h', w') r)
    as [Hla [Hi' Hh' Hk]]; try done; [apply Hss|split; [apply Hs|by eapply si_handles]|].
  cbn [fst snd] in *. destruct (sync_spec ss (y_world σs) ps ms hs Hsts Hwms Hwfs) as (Hsync&_).
  assert (∃ hs', la = (hs', y_world σs) ∧ wf_handle ss (y_world σs) hs') as (hs'&->&Hhs') by (destruct Hla as [->| ->]; eauto).
  cbn. split; [done|]. split; [by apply sinv_set_handle|]. split; [|done].
  apply (sinv_set_handle s (Sys w' (y_handles σ) (y_txns σ))); [|done]. by apply sinv_move.
Qed.
Lemma after2_empty σs hid_s σ hid : sempty σ → (after2 σs hid_s σ hid refresh).2 = σ.
Proof. intros He. unfold after2. rewrite (se_handles _ He), lookup_empty. by destruct (y_handles σs !! hid_s). Qed.
Lemma after2_none σs hid_s σ hid : sempty σs → (after2 σs hid_s σ hid refresh).2 = σ.
Proof. intros He. unfold after2. by rewrite (se_handles _ He), lookup_empty. Qed.
End refreshed.

Lemma mv_inv σ : mv_reachable σ → sempty σ ∨ ∃ s, sinv s σ.
Proof.
  induction 1 as [|σ c _ IH Hok|F map_fn keep_fn E O n blocks v target batch σs hs σ hm _ IH Hr Hn].
  - left. apply init_empty.
  - destruct IH as [He|[s Hs]]; [by apply step_sempty|]. right. exists s. by apply step_sinv.
  - destruct IH as [He|[s Hs]]; [left; by rewrite after2_empty|].
    destruct (reachable_inv _ Hr) as [Hse|[ss Hss]]; [rewrite after2_none by done; eauto|].
    right. exists s. by eapply after2_inv.
Qed.
Lemma mv_seen σ hid h s : mv_reachable σ → y_handles σ !! hid = Some h → schema_at σ hid = Some s →
  ∃ p m, seen s σ hid h p m ∧ stored_meta (w_fs (y_world σ)) = Some m.
Proof.
  intros [He|[s' Hs]]%mv_inv Hh Hsch; [by rewrite (se_handles _ He), lookup_empty in Hh|].
  destruct (sinv_seen s' σ hid h Hs Hh) as (q&m&Hseen). exists q, m.
  assert (s' = s) as -> by (pose proof (sn_schema _ _ _ _ _ _ Hseen) as H'; congruence).
  split; [done|]. by eapply stored_meta_eq, sn_stored.
Qed.
Lemma seen_live s σ hid h p m : seen s σ hid h p m → live s (h, y_world σ) p m.
Proof. intros [Hs ? ? ? ? ?]. constructor; try done. apply Hs. Qed.

Section theorems.
Context {F : Type} (map_fn : F → row → list row) (keep_fn : F → row → bool).
Context (E : env) (O : fopts) (n : nat) (blocks : bool) (v : view F) (target : option version) (batch : option nat).
Notation refresh := (run_refresh map_fn keep_fn E O n blocks v target batch).
Notation mv_chain := (mv_chain map_fn keep_fn E O n v).

Lemma chain_ids sm gs a b js : 1 ≤ n → mv_chain gs a b js → ∀ p m q m',
  Forall shaped gs → live sm a p m → h_branch a.1 = MAIN → live sm b q m' →
  tight a.1 p m → max_snapshot_id m = md_current m → Forall (fun j => ∃ st, j = JSucceeded st) js →
  md_current m' = (md_current m + Z.of_nat (length js))%Z.
Proof.
  intros Hn. induction 1 as [a|cs gs a b c d j js Hrun Hj Hc Hch IH]; intros p m q m' Hsh Hl Hb Hl' Ht Hmax Hall.
  - destruct (stored_fun _ _ _ _ _ (lv_stored _ _ _ _ Hl) (lv_stored _ _ _ _ Hl')) as [_ <-]. cbn. lia.
  - apply Forall_cons in Hsh as [(i&dd&aa&->) Hsh]. apply Forall_cons in Hall as [[st ->] Hall]. destruct a as [h w], b as [h' w'].
    destruct (mv_step map_fn keep_fn E O n v sm i dd aa h w p m h' w' _ Hn Hl Hb Hrun Hj)
      as (q1&m1&base&base'&Hl1&Hb1&Hk&Hex&_&_&_&_&_&Hcur&Htt).
    destruct (Htt Hmax) as [Ht1 Hmax1].
    assert (live sm c q1 m1 ∧ h_branch c.1 = MAIN ∧ tight c.1 q1 m1) as (Hlc&Hbc&Htc).
    { destruct Hc as [->|[x Hx]]; [done|]. destruct (begin_live _ _ _ _ _ _ Hl1 Hb1 Hx) as (?&?&_&Hc1). split; [done|]. split; [done|].
      unfold tight. rewrite Hc1. cbn [fst]. by rewrite sync_again. }
    rewrite (IH q1 m1 q m' Hsh Hlc Hbc Hl' Htc Hmax1 Hall), (Hcur Ht). cbn [length]. lia.
Qed.

Record refreshing (σs : sys) (hid_s : nat) (hs : handle) (ss : schema) (ms : metadata)
    (σ : sys) (hid : nat) (h : handle) (sm : schema) (m : metadata) (jobs : list job) (l : list Z)
    (ps : path) (p q : path) (m' : metadata) (h' : handle) : Prop := {
  rg_source : seen ss σs hid_s hs ps ms;
  rg_view : seen sm σ hid h p m;
  rg_after : seen sm (after2 σs hid_s σ hid refresh).2 hid h' q m';
  rg_branch : h_branch h' = MAIN;
  rg_chain : ∃ groups, Forall2 (fun i cs => ray_read_changes E n blocks (sync ps ms hs) i batch (y_world σs) = (y_world σs, Ok cs)) l groups
    ∧ mv_chain (filter (fun g => g ≠ []) groups) (sync p m h, y_world σ) (h', y_world (after2 σs hid_s σ hid refresh).2) jobs }.

Lemma groups_shaped hs ws l groups :
  Forall2 (fun i cs => ray_read_changes E n blocks hs i batch ws = (ws, Ok cs)) l groups →
  Forall shaped (filter (fun g => g ≠ []) groups).
Proof.
  intros Hg. apply Forall_forall. intros g [_ Hgin]%elem_of_list_filter. apply elem_of_list_lookup in Hgin as [ix Hgin].
  destruct (Forall2_lookup_r _ _ _ _ _ Hg Hgin) as (k'&_&Hk'). destruct (changes_shape _ _ _ _ _ _ _ _ _ Hk') as (?&?&->).
  by eexists _, _, _.
Qed.
Lemma synced_live s h w p m : live s (h, w) p m → live s (sync p m h, w) p m.
Proof.
  intros [Hi Hh Hst Hm]. cbn [fst snd] in *. destruct (sync_spec s w p m h Hst Hm Hh) as (?&_). by constructor.
Qed.

Lemma refresh_done σs hid_s hs ss ms σ hid h sm m jobs i j l :
  reachable σs → y_handles σs !! hid_s = Some hs → schema_at σs hid_s = Some ss → stored_meta (w_fs (y_world σs)) = Some ms →
  mv_reachable σ → y_handles σ !! hid = Some h → schema_at σ hid = Some sm → stored_meta (w_fs (y_world σ)) = Some m →
  h_branch h = MAIN → 1 ≤ n →
  md_current (h_meta h) = i → refresh_target hs target = Some j → path_to ms i j l →
  result2 σs hid_s σ hid refresh = Some (Ok jobs) → JFailed ∉ jobs →
  ∃ ps p q m' h', refreshing σs hid_s hs ss ms σ hid h sm m jobs l ps p q m' h'
    ∧ stored_meta (w_fs (y_world (after2 σs hid_s σ hid refresh).2)) = Some m'.
Proof.
  intros Hrs Hhs Hsch Hms Hr Hh Hsch' Hm Hb Hn Hcur Htgt Hpath Hres Hjobs.
  destruct (schema_seen _ _ _ _ Hrs Hhs Hsch) as (ps&ms'&Hseen&Hms'). rewrite Hms in Hms'. injection Hms' as <-.
  destruct (mv_seen _ _ _ _ Hr Hh Hsch') as (p&m0&Hseen'&Hm'). rewrite Hm in Hm'. injection Hm' as <-.
  destruct (after2_inv map_fn keep_fn E O n blocks v target batch σs hid_s σ hid ss sm Hn (sn_inv _ _ _ _ _ _ Hseen) (sn_inv _ _ _ _ _ _ Hseen'))
    as (_&_&Hinv&_).
  unfold result2 in Hres. rewrite Hhs, Hh in Hres. injection Hres as Hres.
  destruct (refresh ((hs, y_world σs), (h, y_world σ))) as [[[hs' ws'] [h' w']] r] eqn:Hrun. cbn in Hres. subst r.
  assert (Haft : (after2 σs hid_s σ hid refresh).2 = Sys w' (<[hid := h']> (y_handles σ)) (y_txns σ)).
  { unfold after2. rewrite Hhs, Hh, Hrun. done. }
  assert (Hl : y_handles (after2 σs hid_s σ hid refresh).2 !! hid = Some h') by (rewrite Haft; apply lookup_insert).
  destruct (sinv_seen _ _ _ _ Hinv Hl) as (q&m'&Hafter).
  pose proof Hseen as [Hs1 _ Hwf1 Hst1 Hm1 _]. pose proof Hseen' as [Hs2 _ Hwf2 Hst2 Hm2 _].
  destruct (run_chain map_fn keep_fn E O n blocks v sm ss Hn target batch hs (y_world σs) ps ms h (y_world σ) p m (hs', ws') (h', w') jobs i j l)
    as (groups&Hg&Hch); try done; [by apply si_world|by apply si_world|].
  exists ps, p, q, m', h'. split; [|by eapply stored_meta_eq, sn_stored]. constructor; try done.
  - pose proof (seen_live _ _ _ _ _ _ Hseen') as Hlv. apply synced_live in Hlv.
    destruct (sync_spec sm (y_world σ) p m h Hst2 Hm2 Hwf2) as (_&_&_&Hbr&_).
    destruct (chain_live map_fn keep_fn E O n v sm Hn _ _ _ _ Hch p m (groups_shaped _ _ _ _ Hg) Hlv) as (?&?&_&?&_); [|done].
    cbn. congruence.
  - exists groups. split; [done|]. by rewrite Haft.
Qed.

Lemma refreshed σs hid_s hs ss ms σ hid h sm m i j l jobs rows_i mv rows_j :
  keeping separate_op init σs → y_handles σs !! hid_s = Some hs → schema_at σs hid_s = Some ss → stored_meta (w_fs (y_world σs)) = Some ms →
  mv_reachable σ → y_handles σ !! hid = Some h → schema_at σ hid = Some sm → stored_meta (w_fs (y_world σ)) = Some m →
  h_meta h = m → h_branch h = MAIN → 1 ≤ n →
  s_pks sm = s_pks ss → plain_keys sm → keeps_keys map_fn keep_fn v (s_pks ss) →
  md_current m = i → refresh_target hs target = Some j → path_to ms i j l →
  (∀ k sn rows, k ∈ i :: l → md_snaps ms !! k = Some sn → reads σs hid_s (Some (VId k)) rows →
     unique_keys (s_pks ss) rows ∧ proper_keys (s_pks ss) rows ∧ st_rows (sn_stats sn) = Z.of_nat (length rows)) →
  reads σs hid_s (Some (VId i)) rows_i → reads σ hid None mv → mv ≡ₚ show sm <$> view_rows map_fn keep_fn v rows_i →
  result2 σs hid_s σ hid refresh = Some (Ok jobs) → JFailed ∉ jobs →
  (∀ m' k sn rows, stored_meta (w_fs (y_world (after2 σs hid_s σ hid refresh).2)) = Some m' → (i ≤ k)%Z → md_snaps m' !! k = Some sn →
     reads (after2 σs hid_s σ hid refresh).2 hid (Some (VId k)) rows → st_rows (sn_stats sn) = Z.of_nat (length rows)) →
  reads σs hid_s (Some (VId j)) rows_j →
  ∃ new, reads (after2 σs hid_s σ hid refresh).2 hid None new ∧ new ≡ₚ show sm <$> view_rows map_fn keep_fn v rows_j.
Proof.
  intros Ho Hhs Hsch Hms Hr Hh Hsch' Hm Hhm Hb Hn Hpks Hpl Hkeep Hcur Htgt Hpath Hsrc Hri Hmv Heq Hres Hjobs Hcnt Hrj.
  destruct (refresh_done σs hid_s hs ss ms σ hid h sm m jobs i j l) as (ps&p&q&m'&h'&[Hseen Hseen' Hafter Hb' (groups&Hg&Hch)]&Hm');
    try done; [by apply keeping_reachable in Ho|by rewrite Hhm|].
  pose proof (sn_meta _ _ _ _ _ _ Hseen) as Hwm. destruct (path_steps _ _ _ _ _ _ Hwm Hpath) as [Hst Hl].
  assert (Hsm : h_meta (sync ps ms hs) = ms) by (by eapply sync_meta_wf).
  assert (He : edges False ss (w_fs (y_world σs)) ms).
  { eapply (edges_keeping separate_op False); [done|done|done|apply Hseen|]. exists ps. apply Hseen. }
  apply (reads_iff _ _ _ _ _ _ _ _ Hseen) in Hri as (sni&Hi&Hri). change (md_snaps ms !! i = Some sni) in Hi.
  apply (reads_iff _ _ _ _ _ _ _ _ Hseen) in Hrj as (snj&Hj&Hrj). change (md_snaps ms !! j = Some snj) in Hj.
  apply (reads_iff _ _ _ _ _ _ _ _ Hseen') in Hmv as (base&Hbase&Hmv).
  unfold snap_of, version_id, head_of in Hbase. rewrite Hb, decide_True in Hbase by done. cbn in Hbase.
  pose proof (sn_handle _ _ _ _ _ _ Hseen') as Hwf2. 
  destruct (sync_spec sm (y_world σ) p m h (sn_stored _ _ _ _ _ _ Hseen') (sn_meta _ _ _ _ _ _ Hseen') Hwf2) as (_&_&_&Hbr&_).
  destruct (refresh_path map_fn keep_fn E O n blocks v sm Hn ss (y_world σs) (sync ps ms hs) batch False
    (si_world _ _ (sn_inv _ _ _ _ _ _ Hseen)) ltac:(by rewrite Hsm) ltac:(by rewrite Hsm) Hpks Hpl Hkeep
    l groups i sni rows_i (sync p m h, y_world σ) (h', y_world (after2 σs hid_s σ hid refresh).2) jobs p m q m' base mv)
    as (snj'&rows_j'&base'&new&Hj'&Hrj'&Hbase'&Hnew&Hperm); try done.
  - by rewrite Hsm.
  - rewrite Hsm. intros k sn rows Hk Hsn Hrows. apply (Hsrc k sn rows Hk Hsn). apply (reads_iff _ _ _ _ _ _ _ _ Hseen). by exists sn.
  - by rewrite Hsm.
  - apply synced_live. by eapply seen_live.
  - cbn. congruence.
  - by eapply seen_live.
  - intros k sn rows Hk Hsn Hrows. eapply (Hcnt m' k sn rows); [done|lia|done|].
    apply (reads_iff _ _ _ _ _ _ _ _ Hafter). by exists sn.
  - rewrite Hsm, Hl, Hj in Hj'. injection Hj' as <-. rewrite (snap_rows_fun _ _ _ _ _ Hrj' Hrj) in Hperm.
    exists new. split; [|done]. apply (reads_iff _ _ _ _ _ _ _ _ Hafter). exists base'. split; [|done].
    unfold snap_of, version_id, head_of. by rewrite Hb', decide_True.
Qed.

Lemma refreshed_id σs hid_s hs ss ms σ hid h sm m m' i j l jobs :
  reachable σs → y_handles σs !! hid_s = Some hs → schema_at σs hid_s = Some ss → stored_meta (w_fs (y_world σs)) = Some ms →
  mv_reachable σ → y_handles σ !! hid = Some h → schema_at σ hid = Some sm → stored_meta (w_fs (y_world σ)) = Some m →
  h_meta h = m → h_branch h = MAIN → 1 ≤ n →
  md_current m = i → (h_max h ≤ i)%Z → (∀ x r, md_refs m !! x = Some r → (rf_id r ≤ i)%Z) →
  refresh_target hs target = Some j → path_to ms i j l →
  result2 σs hid_s σ hid refresh = Some (Ok jobs) → Forall (fun r => ∃ st, r = JSucceeded st) jobs →
  stored_meta (w_fs (y_world (after2 σs hid_s σ hid refresh).2)) = Some m' →
  md_current m' = (i + Z.of_nat (length jobs))%Z.
Proof.
  intros Hrs Hhs Hsch Hms Hr Hh Hsch' Hm Hhm Hb Hn Hcur Hmax Hrefs Htgt Hpath Hres Hjobs Hm'.
  assert (JFailed ∉ jobs) as Hnf.
  { intros Hin. rewrite Forall_forall in Hjobs. by destruct (Hjobs _ Hin). }
  destruct (refresh_done σs hid_s hs ss ms σ hid h sm m jobs i j l) as (ps&p&q&m2&h'&[Hseen Hseen' Hafter Hb' (groups&Hg&Hch)]&Hm2);
    try done; [by rewrite Hhm|]. rewrite Hm' in Hm2. injection Hm2 as <-.
  pose proof (seen_live _ _ _ _ _ _ Hseen') as Hlv. apply synced_live in Hlv.
  destruct (sync_spec sm (y_world σ) p m h (sn_stored _ _ _ _ _ _ Hseen') (sn_meta _ _ _ _ _ _ Hseen') (sn_handle _ _ _ _ _ _ Hseen'))
    as (_&_&_&Hbr&Hge).
  assert (Hmc : max_snapshot_id m = md_current m) by (apply max_current; intros; rewrite Hcur; eauto).
  rewrite (chain_ids sm _ _ _ _ Hn Hch p m q m' (groups_shaped _ _ _ _ Hg) Hlv); try done.
  - by rewrite Hcur.
  - cbn. congruence.
  - by eapply seen_live.
  - unfold tight. cbn [fst]. rewrite sync_again. unfold sync in Hge |- *. case_decide; cbn in *; lia.
Qed.

Lemma refreshed_already σs hid_s hs σ hid h i j :
  reachable σs → y_handles σs !! hid_s = Some hs → mv_reachable σ → y_handles σ !! hid = Some h → h_branch h = MAIN →
  md_current (h_meta h) = i → refresh_target hs target = Some j → (j ≤ i)%Z → (j ≤ md_current (h_meta hs))%Z →
  result2 σs hid_s σ hid refresh = Some (Err (EUser UInput))
  ∧ y_world (after2 σs hid_s σ hid refresh).1 = y_world σs ∧ y_world (after2 σs hid_s σ hid refresh).2 = y_world σ.
Proof.
  intros Hrs Hhs Hr Hh Hb Hcur Htgt Hle Hlat.
  destruct (reachable_seen _ _ _ Hrs Hhs) as (ss&ps&ms&[Hs1 _ Hwf1 Hst1 Hm1 _]).
  destruct (mv_inv _ Hr) as [He|[sm Hsm]]; [by rewrite (se_handles _ He), lookup_empty in Hh|].
  destruct (sinv_seen sm σ hid h Hsm Hh) as (p&m&[Hs2 _ Hwf2 Hst2 Hm2 _]).
  destruct (sync_spec sm (y_world σ) p m h Hst2 Hm2 Hwf2) as (_&Hmm&_&Hbr&_).
  assert (Hrun : refresh ((hs, y_world σs), (h, y_world σ)) = (((sync ps ms hs, y_world σs), (sync p m h, y_world σ)), Err (EUser UInput))).
  { unfold run_refresh.
    change (bind (on_left get_handle) ?k ((hs, ?ws), ?a)) with (k hs ((hs, ws), a)). cbv beta zeta. rewrite lift_bind.
    assert (match target with
            | None => Ok (md_current (h_meta hs))
            | Some t => let? e := version_to_snapshot_id hs t in
                        if (md_current (h_meta hs) <? e)%Z then Err (EUser UVersionNotFound) else Ok e
            end = Ok j) as ->.
    { destruct target as [[z|nm]|]; cbn in Htgt |- *.
      - injection Htgt as ->. by rewrite (proj2 (Z.ltb_ge _ _) Hlat).
      - unfold lookup_reference. destruct (md_refs (h_meta hs) !! nm) as [r|]; cbn in Htgt |- *; [|done]. injection Htgt as ->.
        by rewrite (proj2 (Z.ltb_ge _ _) Hlat).
      - by injection Htgt as ->. }
    change (bind (on_right get_handle) ?k (?a, (h, ?w))) with (k h (a, (h, w))). cbv beta zeta.
    assert (Hbg : txn_begin (h, y_world σ) = ((sync p m h, y_world σ), Ok (Txn MAIN (md_current m)))).
    { rewrite (txn_begin_run p m) by done. unfold head_of. by rewrite Hb, decide_True. }
    assert (Hb' : on_right txn_begin ((hs, y_world σs), (h, y_world σ)) = (((hs, y_world σs), (sync p m h, y_world σ)), Ok (Txn MAIN (md_current m))))
      by (unfold on_right; by rewrite Hbg).
    rewrite (bind_run' _ _ _ _ _ Hb').
    rewrite (bind_run' _ _ _ _ _ (on_left_ret _ _ _ _ _ (reload_run ps ms hs (y_world σs) Hst1))).
    change (bind (on_left get_handle) ?k ((sync ps ms hs, ?ws), ?z)) with (k (sync ps ms hs) ((sync ps ms hs, ws), z)). cbv beta.
    rewrite lift_bind, Hcur. unfold ordered_snapshot_ids. rewrite (proj2 (Z.leb_le j i)) by lia. done. }
  unfold result2, after2. rewrite Hhs, Hh, Hrun. done.
Qed.
Lemma source_untouched σs hid_s σ hid :
  reachable σs → mv_reachable σ → 1 ≤ n → y_world (after2 σs hid_s σ hid refresh).1 = y_world σs.
Proof.
  intros Hrs Hr Hn. destruct (reachable_inv _ Hrs) as [He|[ss Hss]].
  { unfold after2. by rewrite (se_handles _ He), lookup_empty. }
  destruct (mv_inv _ Hr) as [He|[s Hs]].
  { unfold after2. rewrite (se_handles _ He), lookup_empty. by destruct (y_handles σs !! hid_s). }
  by eapply (after2_inv map_fn keep_fn E O n blocks v target batch σs hid_s σ hid ss s).
Qed.
End theorems.
