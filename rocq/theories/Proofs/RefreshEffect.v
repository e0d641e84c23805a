(** What a transaction of a refresh does to the materialized view. *)
From Verif.Model Require Import System Refresh.
From Verif.Spec Require Import Logical Pruning Keys Layout Changes Api Merging.
From Verif.Proofs Require Import Lib World Resolve AppendSpec SchemaFacts ReadSpec Wf OpSpec
  Inv FileSet Ops Bodies Txn SysInv ReadRun Effects Observe View Prune Keys DeleteEffect Mutations Calls Diff Edge AnyOp Shards RayAppend Reads
  Merge RefreshStep.

Lemma key_loop_some pks keys seen a r : key_filter_loop pks keys seen (Some a) = Ok r → r ≠ None.
Proof.
  revert seen a. induction keys as [|k keys IH]; intros seen a H; cbn in H; [by injection H as <-|].
  case_decide; [done|]. destruct (row_key_filter pks k); [|done]. by eapply IH.
Qed.
Lemma key_filter_none pks data : primary_key_filter pks data = Ok None → data = [].
Proof.
  unfold primary_key_filter. intros H. apply rbind_ok in H as (keys&Hk&H). apply rmapM_ok in Hk.
  destruct Hk as [|r k data keys Hr _]; [done|]. cbn in H. case_decide; [done|].
  destruct (row_key_filter pks k); [|done]. by apply key_loop_some in H.
Qed.
Lemma filter_no_keys pks (old : list row) : filter (fun y => key_of pks y ∉ key_of pks <$> @nil row) old = old.
Proof. apply filter_every. intros y _. apply not_elem_of_nil. Qed.

Section effect.
Context {F : Type} (map_fn : F → row → list row) (keep_fn : F → row → bool).
Context (E : env) (O : fopts) (n : nat) (v : view F).
Notation process := (process map_fn keep_fn).
Notation refresh_body := (refresh_body map_fn keep_fn E O n v).
Notation appends := (appends map_fn keep_fn v).

(** The keys a delete removes, if no row is lost. *)
Lemma deletes_key_filter s w base old data e :
  wf_schema s → wf_snap s (w_fs w) base → snap_rows s (w_fs w) base old → plain_keys s →
  key_nonnull (s_pks s) data → proper_keys (s_pks s) old →
  primary_key_filter (s_pks s) data = Ok (Some e) →
  safe_filter s e ∧ no_nan_keys (s_pks s) old ∧ decided e old
  ∧ filter (fun y => key_of (s_pks s) y ∉ key_of (s_pks s) <$> data) old = unmatched e old.
Proof.
  intros Hs Hb Hold Hpl Hnn Hprop Hpk.
  destruct (primary_key_filter_spec (s_pks s) data e Hnn Hpk) as (Hnd&Hkf&Hev).
  split; [by apply keyf_safe|]. split; [intros r k Hr Hk; by eapply Hprop|]. split.
  - intros r Hr. destruct (Hev r) as (bb&Hbb&_); [by intros; apply Hprop|eauto].
  - apply filter_ext_in. intros y Hy. rewrite <-not_true_iff_false.
    rewrite (Mutations.key_matches (s_pks s) data e y) by (try done; by intros; apply Hprop). done.
Qed.

Lemma refresh_none s i d a h w w' base old :
  1 ≤ n → winv s w → wf_handle s w h → get_snapshot h None = Ok base → wf_snap s (w_fs w) base →
  refresh_body (dels_of i d ++ adds_of i a) (h, w) = ((h, w'), Ok None) →
  snap_rows s (w_fs w) base old → plain_keys s → key_nonnull (s_pks s) (del_rows d) → proper_keys (s_pks s) old →
  ∃ out, process v (add_rows a) = Ok out
    ∧ filter (fun y => key_of (s_pks s) y ∉ key_of (s_pks s) <$> del_rows d) old ++ (show s <$> out) = old.
Proof.
  intros Hn Hi Hh Hg Hwb Hrun Hold Hpl Hnn Hprop. pose proof (wi_schema _ _ Hi) as Hs.
  destruct (refresh_body_out map_fn keep_fn E O n v s i d a h w w' None Hn Hi Hh Hrun)
    as (w1&dop&aop&Hw1&Hw'&_&Hd&(out&rows&Hout&Hperm&Ha)&Hm).
  pose proof (merged [dop; aop]) as Hmg. rewrite <-Hm in Hmg.
  assert (dop = None) as -> by (apply Hmg; by left). assert (aop = None) as -> by (apply Hmg; right; by left).
  cbn in Ha. subst rows. apply Permutation_nil_l in Hperm. exists out. split; [done|]. rewrite <-Hperm, app_nil_r.
  destruct Hd as [[-> _]|[_ [(Hpk&_&_)|(e&sn&mf&Hpk&Hg'&Hmf&Hdel)]]].
  - apply filter_no_keys.
  - apply key_filter_none in Hpk as ->. apply filter_no_keys.
  - rewrite Hg in Hg'. injection Hg' as <-.
    destruct (deletes_key_filter s w base old _ e Hs Hwb Hold Hpl Hnn Hprop Hpk) as (Hsafe&Hnan&Hdec&->).
    by destruct (no_hit_exact s e w mf base old Hs Hwb Hold Hsafe Hmf Hnan Hdec Hdel) as [-> _].
Qed.
Lemma adds_shows s fs op rows :
  adds s fs op rows → shows s fs (man_rows fs (default [] (pa_add_idx <$> op) ≫= man_at fs)) rows.
Proof.
  destruct op as [p|]; cbn.
  - intros (_&_&Hr&_&Ht). apply shows_iff. eauto.
  - intros ->. constructor.
Qed.
Lemma refresh_some s i d a h w w1 w' p base id t sn old :
  1 ≤ n → winv s w → wf_handle s w h → get_snapshot h None = Ok base → wf_snap s (w_fs w) base →
  refresh_body (dels_of i d ++ adds_of i a) (h, w) = ((h, w1), Ok (Some p)) →
  keeps (w_fs w) (w_fs w1) → keeps (w_fs w1) (w_fs w') → next_snap (w_fs w') p base id t sn →
  snap_rows s (w_fs w) base old → plain_keys s → key_nonnull (s_pks s) (del_rows d) → proper_keys (s_pks s) old →
  ∃ out new, process v (add_rows a) = Ok out ∧ snap_rows s (w_fs w') sn new
    ∧ (st_rows (sn_stats base) = Z.of_nat (length old) → st_rows (sn_stats sn) = Z.of_nat (length new) →
       new ≡ₚ filter (fun y => key_of (s_pks s) y ∉ key_of (s_pks s) <$> del_rows d) old ++ (show s <$> out)).
Proof.
  intros Hn Hi Hh Hg Hwb Hrun Hk1 Hk2 Hnext Hold Hpl Hnn Hprop. pose proof (wi_schema _ _ Hi) as Hs.
  destruct (refresh_body_out map_fn keep_fn E O n v s i d a h w w1 (Some p) Hn Hi Hh Hrun)
    as (w2&dop&aop&Hw2&Hw21&Hwd&Hd&(out&rows&Hout&Hperm&Ha)&Hm).
  pose proof (merged [dop; aop]) as Hmg. rewrite <-Hm in Hmg. destruct Hmg as [_ Hcc].
  assert (Hb2 : bounded w2) by (eapply wle_bounded; [apply Hi|exact Hw2]).
  assert (Hk02 : keeps (w_fs w) (w_fs w2)) by (apply wnew_keeps; [apply Hi|done]).
  assert (Hk21 : keeps (w_fs w2) (w_fs w1)) by by apply wnew_keeps.
  assert (Hidx : sn_idx sn = filter (fun x => x ∉ pa_del_idx p) (sn_idx base) ++ pa_add_idx p).
  { eapply next_idx; [|exact Hnext]. apply Hwb. }
  assert (Hsh : shows s (w_fs w') (man_rows (w_fs w') (default [] (pa_add_idx <$> aop) ≫= man_at (w_fs w'))) rows).
  { eapply shows_man_keeps; [exact Hk2| |by apply adds_shows]. pose proof (adds_wf _ _ _ _ Ha) as Hwa.
    destruct aop as [pa|]; [apply Hwa|constructor]. }
  assert (Hdela : default [] (pa_del_idx <$> aop) = []) by (destruct aop as [pa|]; [apply Ha|done]).
  assert (Hsta : default 0%Z ((fun q => st_rows (pa_stats q)) <$> aop) = Z.of_nat (length rows)).
  { destruct aop as [pa|]; [apply Ha|]. cbn in Ha. by subst rows. }
  assert (Hstats : st_rows (sn_stats sn) = (st_rows (sn_stats base) + st_rows (pa_stats p))%Z).
  { destruct Hnext as (_&_&_&_&->&_). done. }
  assert (Hcase : (dop = None ∧ aop ≠ None) ∨ ∃ pd, dop = Some pd).
  { destruct dop; [right; eauto|]. left. split; [done|]. intros ->. by cbn in Hm. }
  destruct Hcase as [[-> Hane]|[pd ->]].
  - destruct aop as [pa|]; [|done]. cbn in Hcc, Hsh, Hdela, Hsta.
    assert (Hfilt : filter (fun y => key_of (s_pks s) y ∉ key_of (s_pks s) <$> del_rows d) old = old).
    { destruct Hd as [[-> _]|[_ [(Hpk&_&_)|(e&sn0&mf&Hpk&Hg'&Hmf&Hdel)]]].
      - apply filter_no_keys.
      - apply key_filter_none in Hpk as ->. apply filter_no_keys.
      - rewrite Hg in Hg'. injection Hg' as <-.
        destruct (deletes_key_filter s w base old _ e Hs Hwb Hold Hpl Hnn Hprop Hpk) as (Hsafe&Hnan&Hdec&->).
        by destruct (no_hit_exact s e w mf base old Hs Hwb Hold Hsafe Hmf Hnan Hdec Hdel) as [-> _]. }
    assert (Hda : pa_del_idx p = []) by (rewrite (cc_del_idx _ _ Hcc); cbn; by rewrite Hdela, app_nil_r).
    assert (Haa : pa_add_idx p = pa_add_idx pa) by (rewrite (cc_add_idx _ _ Hcc); cbn; by rewrite app_nil_r).
    exists out, (old ++ rows). split; [done|]. split.
    + apply snap_rows_shows. unfold phys_rows, snap_mrows.
      assert (Hidx' : sn_idx sn = sn_idx base ++ pa_add_idx pa).
      { rewrite Hidx, Hda, Haa. f_equal. apply filter_every. intros x _. apply not_elem_of_nil. }
      rewrite Hidx', bind_app, man_rows_app. apply Forall2_app; [|done].
      assert (Hk : keeps (w_fs w) (w_fs w')) by exact (keeps_trans _ _ _ Hk1 Hk2).
      apply (snap_rows_shows s (w_fs w') base). by eapply snap_rows_keeps.
    + intros _ _. rewrite Hfilt. by apply Permutation_app_head.
  - destruct Hd as [[_ ?]|[_ [(_&?&_)|(e&sn0&mf&Hpk&Hg'&Hmf&Hdel)]]]; [done|done|].
    rewrite Hg in Hg'. injection Hg' as <-.
    destruct (deletes_key_filter s w base old _ e Hs Hwb Hold Hpl Hnn Hprop Hpk) as (Hsafe&Hnan&Hdec&->).
    destruct (delete_counted s e w mf base old Hs Hwb Hold Hsafe Hmf Hnan Hdec pd w2 (w_fs w') sn
      (default [] (pa_add_idx <$> aop)) rows) as (new&Hnew&Hcnt); try done.
    + by eapply keeps_trans.
    + rewrite Hidx, (cc_del_idx _ _ Hcc), (cc_add_idx _ _ Hcc). destruct aop as [pa|]; cbn in *.
      * by rewrite Hdela, !app_nil_r.
      * by rewrite !app_nil_r.
    + exists out, (new ++ rows). split; [done|]. split; [done|]. intros Hc1 Hc2. rewrite <-Hperm. apply Permutation_app_tail.
      symmetry. apply Hcnt. rewrite app_length in Hc2.
      assert (st_rows (pa_stats p) = (st_rows (pa_stats pd) + Z.of_nat (length rows))%Z).
      { rewrite (cc_stats _ _ Hcc), <-Hsta. destruct aop as [pa|]; cbn; lia. }
      lia.
Qed.
End effect.
