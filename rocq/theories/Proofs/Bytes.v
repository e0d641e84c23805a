(** Byte statistics of snapshots. *)
From Verif.Model Require Import System.
From Verif.Spec Require Import Logical Layout Changes Orderly.
From Verif.Proofs Require Import Shards Merge RayAppend RayInsert RayDelete RayEffects RayAccounts.
From Verif.Proofs Require Import Lib World Resolve AppendSpec SchemaFacts ReadSpec Wf OpSpec
  Inv FileSet Ops Bodies Txn SysInv ReadRun Effects Observe View Mutations Calls Durable Evolve History Serial Orderly Edge Replay.

Lemma op_bytes E s o b m w w' base sn p w1 :
  wf_schema s → bounded w →
  op_effect E s o b m w w' base sn p w1 → adding_op s (w_fs w) base o →
  pa_del_idx p = [] ∧ st_cb (pa_stats p) = Zsum (mr_cb <$> (pa_add_idx p ≫= man_at (w_fs w1)))
  ∧ st_ub (pa_stats p) = Zsum (mr_ub <$> (pa_add_idx p ≫= man_at (w_fs w1))).
Proof.
  intros Hs Hbw Hd Ho. pose proof Hd as [(h0&Hb0&Hm0&Hout) Hwp Hw1 _ Hwb _ Hk1 Hk2].
  assert (Hadd : ∀ lo q rows, patch_adds s lo w1 q [] rows →
    pa_del_idx q = [] ∧ st_cb (pa_stats q) = Zsum (mr_cb <$> (pa_add_idx q ≫= man_at (w_fs w1)))
    ∧ st_ub (pa_stats q) = Zsum (mr_ub <$> (pa_add_idx q ≫= man_at (w_fs w1)))).
  { intros lo q rows (ms&rms&u&_&Hai&_&_&Hf&_&_&_&_&_&_&_&Hdel&_&Hst&_). split; [done|].
    rewrite Hst, Hai. cbn [mbind list_bind]. rewrite app_nil_r, (man_at_some _ _ _ Hf). done. }
  destruct o as [batches|[] data|e|paths|paths index_fn nbytes|n data|n sources|n [] data|e]; try done.
  - destruct Hout as (rows&_&Hadds). by eapply Hadd.
  - destruct Hout as [(_&?&_)|(Hne&sn0&e&mf&w2&dop&rows&aop&Hpk&Hg&Hmf&Hmode&Hw2&Hsel&Haop&Hp)]; [done|].
    destruct aop as [pa|]; [|done]. injection Hp as ->. cbn. destruct (Hadd _ _ _ Haop) as (H1&H2&H3).
    unfold Zsum in *. split_and!; [done|by rewrite Z.add_0_l|by rewrite Z.add_0_l].
  - destruct Hout as (Hrecs&p'&ms&[= <-]&Hpaths&Hms&Hai&_&Hdel&Hlog&Hst). split; [done|].
    assert (pa_add_idx p ≫= man_at (w_fs w1) = ms) as ->.
    { destruct ms as [|m0 ms]; [by rewrite Hai|]. destruct Hai as (u&->&_&_&Hfsu). cbn.
      by rewrite app_nil_r, (man_at_some _ _ _ Hfsu). }
    rewrite Hst. clear. assert (Hgo : ∀ st, st_cb (foldl update_index_stats st (mrow_stats <$> ms)) = (st_cb st + Zsum (mr_cb <$> ms))%Z
      ∧ st_ub (foldl update_index_stats st (mrow_stats <$> ms)) = (st_ub st + Zsum (mr_ub <$> ms))%Z).
    { induction ms as [|m ms IH]; intros st; [cbn; lia|]. rewrite !fmap_cons. cbn [foldl].
      destruct (IH (update_index_stats st (mrow_stats m))) as [-> ->]. unfold Zsum. cbn. lia. }
    destruct (Hgo stats0) as [-> ->]. done.
  - destruct Hout as (f&fid&rows&Hf&Hq&Hrows&p0&total&Hadds&->). cbn. by eapply Hadd.
  - destruct (snap_rows_some _ _ _ Hwb) as [old Hold].
    destruct (ray_append_effect _ _ _ _ _ _ _ _ _ _ _ _ _ Hs Hbw Hd Hold) as (input&_&(_&Hdel&_)&_).
    destruct Hout as [fo Hrun]. split; [done|]. by apply (ray_append_accounts _ _ _ _ _ _ _ _ Hs Hbw Hrun).
  - destruct (snap_rows_some _ _ _ Hwb) as [old Hold].
    destruct (ray_append_from_effect _ _ _ _ _ _ _ _ _ _ _ _ _ Hs Hbw Hd Hold) as (input&_&(_&Hdel&_)&_).
    destruct Hout as [fo Hrun]. split; [done|]. by apply (ray_append_accounts _ _ _ _ _ _ _ _ Hs Hbw Hrun).
  - clear Hout h0 Hb0 Hm0. destruct (ray_insert_ran _ _ _ _ _ _ _ _ _ _ _ _ _ Hd) as (h0&Hbase&Hm0&Hout).
    destruct Hout as [(_&?&_)|(Hne&sn0&e&mf&w2&dop&rows&aop&Hpk&Hg&Hmf&Hmode&Hw2&Hsel&Haop&(E'&fo&Hwr)&Hp)]; [done|].
    destruct aop as [pa|]; [|done]. injection Hp as ->. cbn in Hmode. destruct Hmode as [-> _].
    destruct (ray_append_accounts _ _ _ _ _ _ _ _ Hs Hbw Hwr) as (_&H2&H3). destruct Haop as (_&H1&_).
    unfold Zsum in *. cbn. split_and!; [done|by rewrite Z.add_0_l|by rewrite Z.add_0_l].
Qed.
Lemma bytes_history s σ m : undisturbed adding_op init σ → sinv s σ → mof σ m →
  ∀ i sn, md_snaps m !! i = Some sn →
    st_cb (sn_stats sn) = Zsum (mr_cb <$> snap_mrows (w_fs (y_world σ)) sn)
    ∧ st_ub (sn_stats sn) = Zsum (mr_ub <$> snap_mrows (w_fs (y_world σ)) sn).
Proof.
  intros Ho Hs Hm i sn Hi. refine (undisturbed_snap adding_op (fun _ fs sn =>
    st_cb (sn_stats sn) = Zsum (mr_cb <$> snap_mrows fs sn) ∧ st_ub (sn_stats sn) = Zsum (mr_ub <$> snap_mrows fs sn)) _ _ _ s σ m i sn Ho Hs Hm Hi);
    clear s σ m Ho Hs Hm i sn Hi.
  - intros s fs fs' sn (_&Hw&_) Hk He. unfold snap_mrows. by rewrite (bind_man_keeps s fs fs').
  - done.
  - intros E s o b m1 w w' base sn p w1 Ho Hs Hb Hok Heff [Hb1 Hb2].
    destruct (op_bytes _ _ _ _ _ _ _ _ _ _ _ Hs Hb Heff Ho) as (Hdel&Hcb&Hub).
    pose proof (od_idx _ _ _ _ _ _ _ _ _ _ _ Heff) as Hidx. rewrite Hdel, filter_notin_nil in Hidx.
    pose proof Heff as [_ Hwp _ _ _ (i&t&(_&_&_&_&Hstats&Hl)) Hk1 Hk2].
    unfold snap_mrows in *. rewrite Hidx, bind_app, !fmap_app, !Zsum_app, Hstats. cbn.
    rewrite (bind_man_keeps s (w_fs w1) (w_fs w') (pa_add_idx p)) by (try done; apply Hwp). rewrite Hcb, Hub, Hb1, Hb2. done.
Qed.
Lemma bytes_exact σ m i sn :
  undisturbed adding_op init σ → stored_meta (w_fs (y_world σ)) = Some m → md_snaps m !! i = Some sn →
  st_cb (sn_stats sn) = sum_of (mr_cb <$> files_of (w_fs (y_world σ)) sn)
  ∧ st_ub (sn_stats sn) = sum_of (mr_ub <$> files_of (w_fs (y_world σ)) sn).
Proof.
  intros Ho Hm Hi. pose proof (undisturbed_reachable _ _ Ho) as Hr.
  destruct (reachable_sinv σ m Hr Hm) as (s&Hs&Hmof). by eapply bytes_history.
Qed.
