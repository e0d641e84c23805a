(** The materialized view after a refresh that may have stopped early. *)
From Verif.Model Require Import System Refresh.
From Verif.Spec Require Import Logical Pruning Keys Layout Changes Api Orderly Refreshing RefreshStops.
From Verif.Spec Require Import Free.
From Verif.Proofs Require Import PatchEdges.
From Verif.Proofs Require Import Lib World Resolve AppendSpec SchemaFacts ReadSpec Wf OpSpec
  Inv FileSet Ops Bodies Txn SysInv ReadRun Effects Observe View Prune Keys DeleteEffect Mutations Calls Diff Edge Replay AnyOp RayDiff Reads History Orderly
  RefreshStep RefreshEffect RefreshLoop RefreshSource RefreshRun RefreshPath RefreshInv Refreshed RefreshStop.

Section stopped.
Context {F : Type} (map_fn : F → row → list row) (keep_fn : F → row → bool).
Context (E : env) (O : fopts) (n : nat) (blocks : bool) (v : view F) (target : option version) (batch : option nat).
Notation refresh := (run_refresh map_fn keep_fn E O n blocks v target batch).
Notation mv_chain := (mv_chain map_fn keep_fn E O n v).
Notation stopped := (stopped map_fn keep_fn E O n blocks v).

Lemma run_stops ss sm hs ws ps ms h w p m la b r i j l :
  1 ≤ n → winv ss ws → wf_handle ss ws hs → stored (w_fs ws) ps ms → wf_meta ss (w_fs ws) ms →
  winv sm w → wf_handle sm w h → stored (w_fs w) p m → wf_meta sm (w_fs w) m → h_branch h = MAIN →
  refresh ((hs, ws), (h, w)) = ((la, b), r) →
  md_current (h_meta h) = i → match target with None => Some (md_current (h_meta hs)) | Some t => named (h_meta hs) t end = Some j →
  path_to ms i j l →
  stopped sm (sync ps ms hs) batch ws l [] (sync p m h, w) b r.
Proof.
  intros Hn Hi Hh Hst Hm Hi' Hh' Hst' Hm' Hbr H Hcur Htgt Hpath.
  destruct (sync_spec ss ws ps ms hs Hst Hm Hh) as (Hh0&Hm0&_).
  destruct (sync_spec sm w p m h Hst' Hm' Hh') as (Hh1&Hm1&_&Hb1&_).
  assert (Hl0 : live sm (h, w) p m) by (by constructor).
  pose proof (synced_live _ _ _ _ _ Hl0) as Hl1.
  unfold run_refresh in H.
  change (bind (on_left get_handle) ?k ((hs, ws), (h, w))) with (k hs ((hs, ws), (h, w))) in H. cbv beta zeta in H.
  rewrite lift_bind in H. destruct (match target with None => Ok _ | Some _ => _ end) as [stop|e] eqn:Hstop.
  2:{ injection H as <- <- <-. apply stopped_now; [|eauto]. exists p, m. split; [done|]. split; [done|]. split; [done|apply keeps_refl]. }
  assert (stop = j) as ->.
  { destruct target as [t|]; [|congruence]. apply rbind_ok in Hstop as (e&He&Hstop). destruct (_ <? e)%Z; [done|].
    injection Hstop as ->. destruct t as [z|nm]; cbn in He, Htgt; [congruence|].
    unfold lookup_reference in He. destruct (md_refs (h_meta hs) !! nm) as [r0|]; cbn in *; [|done]. congruence. }
  change (bind (on_right get_handle) ?k ((hs, ws), (h, w))) with (k h ((hs, ws), (h, w))) in H. cbv beta zeta in H.
  destruct (txn_begin (h, w)) as [b1 r1] eqn:Hb.
  assert (Hb' : on_right txn_begin ((hs, ws), (h, w)) = (((hs, ws), b1), r1)) by (unfold on_right; by rewrite Hb).
  assert (b1 = (sync p m h, w)) as -> by (rewrite (txn_begin_run p m) in Hb by done; by injection Hb as <- _).
  rewrite (bind_run' _ _ _ _ _ Hb') in H. destruct r1 as [x|e].
  2:{ injection H as <- <- <-. apply stopped_now; [|eauto]. exists p, m. split; [done|]. split; [done|]. split; [cbn; congruence|apply keeps_refl]. }
  rewrite (bind_run' _ _ _ _ _ (on_left_ret _ _ _ _ _ (reload_run ps ms hs ws Hst))) in H.
  change (bind (on_left get_handle) ?k ((sync ps ms hs, ws), ?z)) with (k (sync ps ms hs) ((sync ps ms hs, ws), z)) in H. cbv beta in H.
  rewrite lift_bind, Hcur in H.
  assert (Hpath' : path_to (h_meta (sync ps ms hs)) i j l) by (by rewrite Hm0).
  rewrite (ordered_ids_path ss (w_fs ws) (sync ps ms hs) ltac:(by rewrite Hm0) i j l Hpath') in H.
  change (bind (foldM_st (refresh_snapshot map_fn keep_fn E O n blocks v (sync ps ms hs) batch) (Going x [] None []) l) finish
    ((sync ps ms hs, ws), (sync p m h, w)) = ((la, b), r)) in H.
  eapply (refresh_stops map_fn keep_fn E O n blocks v sm Hn (sync ps ms hs) batch (sync ps ms hs) ws l x [] None [] (sync p m h, w) b r [] (sync p m h, w))
    in H; [exact H| | |by eapply begin_again|done|done|exact Hl1|cbn; congruence].
  - destruct Hpath as (above&below&Hc&_&->). rewrite <-Hm0 in Hc.
    apply (chain_nodup ss (w_fs ws) (sync ps ms hs) ltac:(by rewrite Hm0)) in Hc. apply NoDup_app in Hc as [Hc _]. by rewrite reverse_Permutation.
  - intros k _. destruct (ray_changes_run E E ss n blocks (sync ps ms hs) ws k batch batch Hn Hi) as (?&rc&_&Hrc&_); [by rewrite Hm0|].
    exists rc. split; [done|]. intros cs ->. destruct (changes_shape _ _ _ _ _ _ _ _ _ Hrc) as (?&?&->). apply shape_snap.
Qed.

Lemma chain_no_failure gs a b js : mv_chain gs a b js → JFailed ∉ js.
Proof. induction 1 as [|? ? ? ? ? ? ? ? ? ? ? ? IH]; set_solver. Qed.
Lemma chain_count sm gs a b js : 1 ≤ n → mv_chain gs a b js → ∀ p m q m',
  Forall shaped gs → live sm a p m → h_branch a.1 = MAIN → live sm b q m' →
  tight a.1 p m → max_snapshot_id m = md_current m →
  md_current m' = (md_current m + Z.of_nat (successes js))%Z.
Proof.
  intros Hn. induction 1 as [a|cs gs a b c d j js Hrun Hj Hc Hch IH]; intros p m q m' Hsh Hl Hb Hl' Ht Hmax.
  - destruct (stored_fun _ _ _ _ _ (lv_stored _ _ _ _ Hl) (lv_stored _ _ _ _ Hl')) as [_ <-]. cbn. lia.
  - apply Forall_cons in Hsh as [(i&dd&aa&->) Hsh]. destruct a as [h w], b as [h' w'].
    destruct (mv_step map_fn keep_fn E O n v sm i dd aa h w p m h' w' _ Hn Hl Hb Hrun Hj)
      as (q1&m1&base&base'&Hl1&Hb1&Hk&Hex&_&_&_&Hcase).
    assert (tight h' q1 m1 ∧ max_snapshot_id m1 = md_current m1
      ∧ md_current m1 = (md_current m + (if succeeded j then 1 else 0))%Z) as (Ht1&Hmax1&Hcur).
    { destruct j as [st| |]; [|done|].
      - destruct Hcase as (_&_&Hcur&Htt). destruct (Htt Hmax). split; [done|]. split; [done|]. cbn. by apply Hcur.
      - destruct Hcase as (->&->&->). split; [unfold tight; by rewrite sync_again|]. split; [done|]. cbn. lia. }
    assert (live sm c q1 m1 ∧ h_branch c.1 = MAIN ∧ tight c.1 q1 m1) as (Hlc&Hbc&Htc).
    { destruct Hc as [->|[x Hx]]; [done|]. destruct (begin_live _ _ _ _ _ _ Hl1 Hb1 Hx) as (?&?&_&Hc1). split; [done|]. split; [done|].
      unfold tight. rewrite Hc1. cbn [fst]. by rewrite sync_again. }
    rewrite (IH q1 m1 q m' Hsh Hlc Hbc Hl' Htc Hmax1), Hcur. unfold successes. rewrite filter_cons. destruct (succeeded j); cbn.
    + rewrite decide_True by done. cbn [length]. lia.
    + rewrite decide_False by done. lia.
Qed.
Lemma steps_take ms i l k : steps ms i l → steps ms i (take k l).
Proof.
  revert i k. induction l as [|x l IH]; intros i [|k] H; [done..|]. destruct H as [? ?]. split; [done|]. by apply IH.
Qed.

(** What the theorems need from a run. *)
Lemma refresh_parts σs hid_s hs ss ms σ hid h sm m i j l r :
  reachable σs → y_handles σs !! hid_s = Some hs → schema_at σs hid_s = Some ss → stored_meta (w_fs (y_world σs)) = Some ms →
  mv_reachable σ → y_handles σ !! hid = Some h → schema_at σ hid = Some sm → stored_meta (w_fs (y_world σ)) = Some m →
  h_branch h = MAIN → 1 ≤ n →
  md_current (h_meta h) = i → refresh_target hs target = Some j → path_to ms i j l →
  result2 σs hid_s σ hid refresh = Some r →
  ∃ ps p q m' h', seen ss σs hid_s hs ps ms ∧ seen sm σ hid h p m ∧ seen sm (after2 σs hid_s σ hid refresh).2 hid h' q m'
    ∧ stopped sm (sync ps ms hs) batch (y_world σs) l [] (sync p m h, y_world σ) (h', y_world (after2 σs hid_s σ hid refresh).2) r
    ∧ stored_meta (w_fs (y_world (after2 σs hid_s σ hid refresh).2)) = Some m'.
Proof.
  intros Hrs Hhs Hsch Hms Hr Hh Hsch' Hm Hb Hn Hcur Htgt Hpath Hres.
  destruct (schema_seen _ _ _ _ Hrs Hhs Hsch) as (ps&ms'&Hseen&Hms'). rewrite Hms in Hms'. injection Hms' as <-.
  destruct (mv_seen _ _ _ _ Hr Hh Hsch') as (p&m0&Hseen'&Hm'). rewrite Hm in Hm'. injection Hm' as <-.
  destruct (after2_inv map_fn keep_fn E O n blocks v target batch σs hid_s σ hid ss sm Hn (sn_inv _ _ _ _ _ _ Hseen) (sn_inv _ _ _ _ _ _ Hseen'))
    as (_&_&Hinv&_).
  unfold result2 in Hres. rewrite Hhs, Hh in Hres. injection Hres as Hres.
  destruct (refresh ((hs, y_world σs), (h, y_world σ))) as [[[hs' ws'] [h' w']] r'] eqn:Hrun. cbn in Hres. subst r'.
  assert (Haft : (after2 σs hid_s σ hid refresh).2 = Sys w' (<[hid := h']> (y_handles σ)) (y_txns σ)).
  { unfold after2. rewrite Hhs, Hh, Hrun. done. }
  assert (Hl : y_handles (after2 σs hid_s σ hid refresh).2 !! hid = Some h') by (rewrite Haft; apply lookup_insert).
  destruct (sinv_seen _ _ _ _ Hinv Hl) as (q&m'&Hafter).
  pose proof Hseen as [Hs1 _ Hwf1 Hst1 Hm1 _]. pose proof Hseen' as [Hs2 _ Hwf2 Hst2 Hm2 _].
  exists ps, p, q, m', h'. split; [done|]. split; [done|]. split; [done|]. split; [|by eapply stored_meta_eq, sn_stored].
  rewrite Haft. eapply (run_stops ss sm hs (y_world σs) ps ms h (y_world σ) p m (hs', ws') (h', w') r i j l); try done; by apply si_world.
Qed.

Lemma refresh_at_version σs hid_s hs ss ms σ hid h sm m i j l r rows_i mv :
  keeping separate_op init σs → y_handles σs !! hid_s = Some hs → schema_at σs hid_s = Some ss → stored_meta (w_fs (y_world σs)) = Some ms →
  mv_reachable σ → y_handles σ !! hid = Some h → schema_at σ hid = Some sm → stored_meta (w_fs (y_world σ)) = Some m →
  h_meta h = m → h_branch h = MAIN → 1 ≤ n →
  s_pks sm = s_pks ss → plain_keys sm → keeps_keys map_fn keep_fn v (s_pks ss) →
  md_current m = i → refresh_target hs target = Some j → path_to ms i j l →
  (∀ k sn rows, k ∈ i :: l → md_snaps ms !! k = Some sn → reads σs hid_s (Some (VId k)) rows →
     unique_keys (s_pks ss) rows ∧ proper_keys (s_pks ss) rows ∧ st_rows (sn_stats sn) = Z.of_nat (length rows)) →
  reads σs hid_s (Some (VId i)) rows_i → reads σ hid None mv → mv ≡ₚ show sm <$> view_rows map_fn keep_fn v rows_i →
  result2 σs hid_s σ hid refresh = Some r →
  (∀ m' k sn rows, stored_meta (w_fs (y_world (after2 σs hid_s σ hid refresh).2)) = Some m' → (i ≤ k)%Z → md_snaps m' !! k = Some sn →
     reads (after2 σs hid_s σ hid refresh).2 hid (Some (VId k)) rows → st_rows (sn_stats sn) = Z.of_nat (length rows)) →
  ∃ k rows_k new, k ∈ i :: l ∧ reads σs hid_s (Some (VId k)) rows_k ∧ reads (after2 σs hid_s σ hid refresh).2 hid None new
    ∧ new ≡ₚ show sm <$> view_rows map_fn keep_fn v rows_k
    ∧ (∀ jobs, r = Ok jobs → (JFailed ∉ jobs ∧ k = j) ∨ ∃ js, jobs = js ++ [JFailed] ∧ JFailed ∉ js).
Proof.
  intros Ho Hhs Hsch Hms Hr Hh Hsch' Hm Hhm Hb Hn Hpks Hpl Hkeep Hcur Htgt Hpath Hsrc Hri Hmv Heq Hres Hcnt.
  destruct (refresh_parts σs hid_s hs ss ms σ hid h sm m i j l r) as (ps&p&q&m'&h'&Hseen&Hseen'&Hafter&Hstop&Hm');
    try done; [by apply keeping_reachable in Ho|by rewrite Hhm|].
  destruct Hstop as (k&groups&js&e&Hg&Hch&(q1&m1&Hle&Hld&Hbd&Hke)&Hjs). cbn [fst snd] in *.
  destruct (stored_fun _ _ _ _ _ (lv_stored _ _ _ _ Hld) (sn_stored _ _ _ _ _ _ Hafter)) as [-> ->].
  pose proof (sn_meta _ _ _ _ _ _ Hseen) as Hwm. destruct (path_steps _ _ _ _ _ _ Hwm Hpath) as [Hst Hlast].
  assert (Hsm : h_meta (sync ps ms hs) = ms) by (by eapply sync_meta_wf).
  assert (He : edges False ss (w_fs (y_world σs)) ms).
  { eapply (edges_keeping separate_op False); [done|done|done|apply Hseen|]. exists ps. apply Hseen. }
  apply (reads_iff _ _ _ _ _ _ _ _ Hseen) in Hri as (sni&Hi&Hri). change (md_snaps ms !! i = Some sni) in Hi.
  apply (reads_iff _ _ _ _ _ _ _ _ Hseen') in Hmv as (base&Hbase&Hmv).
  unfold snap_of, version_id, head_of in Hbase. rewrite Hb, decide_True in Hbase by done. cbn in Hbase.
  pose proof (sn_handle _ _ _ _ _ _ Hseen') as Hwf2.
  destruct (sync_spec sm (y_world σ) p m h (sn_stored _ _ _ _ _ _ Hseen') (sn_meta _ _ _ _ _ _ Hseen') Hwf2) as (_&_&_&Hbr&_).
  assert (Hin : ∀ z, z ∈ i :: take k l → z ∈ i :: l).
  { intros z [->|Hz]%elem_of_cons; [left|right]. by eapply elem_of_take in Hz as (?&?%elem_of_list_lookup_2&_). }
  destruct (refresh_path map_fn keep_fn E O n blocks v sm Hn ss (y_world σs) (sync ps ms hs) batch False
    (si_world _ _ (sn_inv _ _ _ _ _ _ Hseen)) ltac:(by rewrite Hsm) ltac:(by rewrite Hsm) Hpks Hpl Hkeep
    (take k l) groups i sni rows_i (sync p m h, y_world σ) e js p m q m' base mv)
    as (snj'&rows_j'&base'&new&Hj'&Hrj'&Hbase'&Hnew&Hperm); try done.
  - rewrite Hsm. by apply steps_take.
  - rewrite Hsm. intros z sn rows Hz Hsn Hrows. apply (Hsrc z sn rows (Hin z Hz) Hsn). apply (reads_iff _ _ _ _ _ _ _ _ Hseen). by exists sn.
  - by rewrite Hsm.
  - apply synced_live. by eapply seen_live.
  - cbn. congruence.
  - intros z sn rows Hz Hsn Hrows. eapply (Hcnt m' z sn rows); [done|lia|done|].
    apply (reads_iff _ _ _ _ _ _ _ _ Hafter). exists sn. split; [done|].
    destruct (wm_snaps _ _ _ (lv_meta _ _ _ _ Hle) _ _ Hsn) as (_&Hwf&_). by eapply snap_rows_keeps.
  - rewrite Hsm in Hj'. exists (default i (last (take k l))), rows_j', new. split.
    { destruct (last (take k l)) as [z|] eqn:Hz; [|left]. cbn. apply Hin. right. apply last_Some in Hz as [l' ->]. set_solver. }
    split; [apply (reads_iff _ _ _ _ _ _ _ _ Hseen); by exists snj'|]. split.
    { apply (reads_iff _ _ _ _ _ _ _ _ Hafter). exists base'. split.
      - unfold snap_of, version_id, head_of. by rewrite Hbd, decide_True.
      - destruct (wm_snaps _ _ _ (lv_meta _ _ _ _ Hle) _ _ Hbase') as (_&Hwf&_). by eapply snap_rows_keeps. }
    split; [done|]. intros jobs ->. pose proof (chain_no_failure _ _ _ _ Hch) as Hnf. destruct Hjs as [[-> Hk]| ->].
    + left. split; [done|]. by rewrite take_ge.
    + right. by exists js.
Qed.

Lemma refresh_counts σs hid_s hs ss ms σ hid h sm m m' i j l jobs :
  reachable σs → y_handles σs !! hid_s = Some hs → schema_at σs hid_s = Some ss → stored_meta (w_fs (y_world σs)) = Some ms →
  mv_reachable σ → y_handles σ !! hid = Some h → schema_at σ hid = Some sm → stored_meta (w_fs (y_world σ)) = Some m →
  h_meta h = m → h_branch h = MAIN → 1 ≤ n →
  md_current m = i → (h_max h ≤ i)%Z → (∀ x r, md_refs m !! x = Some r → (rf_id r ≤ i)%Z) →
  refresh_target hs target = Some j → path_to ms i j l →
  result2 σs hid_s σ hid refresh = Some (Ok jobs) →
  stored_meta (w_fs (y_world (after2 σs hid_s σ hid refresh).2)) = Some m' →
  md_current m' = (i + Z.of_nat (successes jobs))%Z.
Proof.
  intros Hrs Hhs Hsch Hms Hr Hh Hsch' Hm Hhm Hb Hn Hcur Hmax Hrefs Htgt Hpath Hres Hm'.
  destruct (refresh_parts σs hid_s hs ss ms σ hid h sm m i j l (Ok jobs)) as (ps&p&q&m2&h'&Hseen&Hseen'&Hafter&Hstop&Hm2);
    try done; [by rewrite Hhm|]. rewrite Hm' in Hm2. injection Hm2 as <-.
  destruct Hstop as (k&groups&js&e&Hg&Hch&(q1&m1&Hle&Hld&Hbd&Hke)&Hjs).
  destruct (stored_fun _ _ _ _ _ (lv_stored _ _ _ _ Hld) (sn_stored _ _ _ _ _ _ Hafter)) as [-> ->].
  pose proof (seen_live _ _ _ _ _ _ Hseen') as Hlv. apply synced_live in Hlv.
  destruct (sync_spec sm (y_world σ) p m h (sn_stored _ _ _ _ _ _ Hseen') (sn_meta _ _ _ _ _ _ Hseen') (sn_handle _ _ _ _ _ _ Hseen'))
    as (_&_&_&Hbr&Hge).
  assert (Hmc : max_snapshot_id m = md_current m) by (apply max_current; intros; rewrite Hcur; eauto).
  assert (successes jobs = successes js) as ->.
  { unfold successes. destruct Hjs as [[-> _]| ->]; cbn [app]; [done|]. rewrite filter_app, app_length, filter_cons_False by done. cbn. lia. }
  rewrite (chain_count sm _ _ _ _ Hn Hch p m q m' (groups_shaped _ _ _ _ _ _ _ _ Hg) Hlv); try done.
  - by rewrite Hcur.
  - cbn. congruence.
  - unfold tight. cbn [fst]. rewrite sync_again. unfold sync in Hge |- *. case_decide; cbn in *; lia.
Qed.
End stopped.
