(** The change logs and statistics of distributed appends. *)
From Verif.Model Require Import System RayOps.
From Verif.Spec Require Import Logical Layout.
From Verif.Proofs Require Import Lib World Resolve AppendSpec SchemaFacts ReadSpec Wf OpSpec Inv FileSet Ops Bodies Txn
  SysInv ReadRun Effects Observe View Calls Reads AnyOp Shards Merge RayAppend.
From Verif.Spec Require Merging.

(** The patch records the files it adds. *)
Definition accounts (fs : fsys) (p : patch) : Prop :=
  let ms := pa_add_idx p ≫= man_at fs in
  pa_log p = Some (ChangeLog [] (added_bitmap <$> ms))
  ∧ st_cb (pa_stats p) = Zsum (mr_cb <$> ms) ∧ st_ub (pa_stats p) = Zsum (mr_ub <$> ms).
Lemma accounts_keeps s fs fs' p : keeps fs fs' → wf_patch s fs p → accounts fs p → accounts fs' p.
Proof. intros Hk Hp. unfold accounts. rewrite (bind_man_keeps s fs fs'); [done|done|apply Hp]. Qed.
Lemma append_accounts E fo s batches w w' p :
  bounded w → append_op E fo s batches w = (w', Ok (Some p)) → accounts (w_fs w') p.
Proof.
  intros Hb Hrun. pose proof (append_op_out E fo s batches w Hb) as Hout. rewrite Hrun in Hout.
  destruct Hout as (_&_&rows&_&ms&rms&u&_&Hai&_&_&Hf&_&_&_&_&_&_&_&_&Hlog&Hst&_).
  unfold accounts. rewrite Hai. cbn [mbind list_bind]. rewrite app_nil_r, (man_at_some _ _ _ Hf), Hst. done.
Qed.
Lemma workers_accounts E fo s (B : nat → list (list row)) l w w' ps :
  wf_schema s → bounded w → mapM_st (fun i => append_op E fo s (B i)) l w = (w', Ok ps) →
  wnew w w' ∧ Forall (fun p => wf_patch s (w_fs w') p ∧ accounts (w_fs w') p) (omap id ps).
Proof.
  intros Hs. revert w w' ps. induction l as [|i l IH]; intros w w' ps Hb Hrun; cbn [mapM_st] in Hrun.
  { injection Hrun as <- <-. split; [apply wnew_refl|constructor]. }
  pose proof (append_op_out E fo s (B i) w Hb) as Hout. unfold bind in Hrun.
  destruct (append_op E fo s (B i) w) as [w1 [op|e]] eqn:H1; destruct Hout as (Hn1&Hb1&_); [|done].
  destruct (mapM_st (fun i => append_op E fo s (B i)) l w1) as [w2 [ps'|e]] eqn:H2; [|done]. injection Hrun as <- <-.
  destruct (IH _ _ _ Hb1 H2) as (Hn2&Hf). split; [by eapply wnew_trans|].
  destruct op as [p|]; [|exact Hf]. change (omap id (Some p :: ps')) with (p :: omap id ps'). constructor; [|exact Hf].
  destruct (append_op_adds E fo s Hs (B i) w w1 (Some p) Hb H1) as (rows&_&(Hwp&_)).
  pose proof (wnew_keeps _ _ Hb1 Hn2) as Hk. split; [by eapply wf_patch_keeps|].
  eapply accounts_keeps; [exact Hk|exact Hwp|]. exact (append_accounts E fo s (B i) w w1 p Hb H1).
Qed.
Lemma stats_bytes l a :
  st_cb (foldl Merging.stats_add a l) = (st_cb a + Zsum (st_cb <$> l))%Z
  ∧ st_ub (foldl Merging.stats_add a l) = (st_ub a + Zsum (st_ub <$> l))%Z
  ∧ st_rows (foldl Merging.stats_add a l) = (st_rows a + Zsum (st_rows <$> l))%Z.
Proof.
  revert a. induction l as [|x l IH]; intros a; cbn [foldl fmap list_fmap]; unfold Zsum in *; cbn [foldr]; [lia|].
  destruct (IH (Merging.stats_add a x)) as (->&->&->). cbn. lia.
Qed.
Lemma accounts_merged fs l q :
  Merging.concatenates l q → l ≠ [] → Forall (accounts fs) l → accounts fs q.
Proof.
  intros [Hi _ _ Hd Ha Hlog Hst] Hne Hl.
  assert (Hsome : is_Some (pa_log q)).
  { apply Hlog. destruct l as [|p l]; [done|]. exists p. split; [left|]. inversion Hl as [|? ? (Hp&_) _]. rewrite Hp. eauto. }
  assert (Hsum : l ≫= Merging.deleted_rows = [] ∧ l ≫= Merging.added_rows = added_bitmap <$> ((l ≫= pa_add_idx) ≫= man_at fs)
    ∧ Zsum (st_cb <$> (pa_stats <$> l)) = Zsum (mr_cb <$> ((l ≫= pa_add_idx) ≫= man_at fs))
    ∧ Zsum (st_ub <$> (pa_stats <$> l)) = Zsum (mr_ub <$> ((l ≫= pa_add_idx) ≫= man_at fs))).
  { clear -Hl. induction Hl as [|p l (Hlog&Hcb&Hub) _ (H1&H2&H3&H4)]; [done|].
    rewrite !bind_cons, !bind_app, !fmap_app, !fmap_cons, !Zsum_app, H1, H2, <-H3, <-H4, <-Hcb, <-Hub.
    unfold Merging.deleted_rows, Merging.added_rows. rewrite Hlog. cbn. done. }
  destruct Hsum as (H1&H2&H3&H4). unfold accounts. rewrite Hi.
  destruct (pa_log q) as [[d a]|] eqn:Hq; [|by destruct Hsome].
  unfold Merging.deleted_rows in Hd at 1. unfold Merging.added_rows in Ha at 1. rewrite Hq in Hd, Ha. cbn in Hd, Ha.
  rewrite Hd, Ha, H1, H2, Hst. destruct (stats_bytes (pa_stats <$> l) stats0) as (->&->&_). rewrite H3, H4. done.
Qed.
Lemma ray_append_accounts E fo s n calls w w' p :
  wf_schema s → bounded w → ray_append_op E fo s n calls w = (w', Ok (Some p)) → accounts (w_fs w') p.
Proof.
  intros Hs Hb Hrun. unfold ray_append_op in Hrun.
  destruct (mapM_st (fun i => append_op E fo s (concat (filter (fun c => c.1 = i) calls).*2)) (seq 0 n) w) as [w1 [ps|e]] eqn:Hm;
    unfold bind in Hrun; rewrite Hm in Hrun; [|done].
  injection Hrun as <- Hp.
  destruct (workers_accounts E fo s (fun i => concat (filter (fun c => c.1 = i) calls).*2) _ _ _ _ Hs Hb Hm) as (_&Hf).
  pose proof (merged ps) as Hmg. rewrite Hp in Hmg. destruct Hmg as [[p0 Hp0] Hc]. eapply accounts_merged; [exact Hc| |].
  - intros Hnil. assert (p0 ∈ omap id ps) as Hin by (apply elem_of_list_omap; by exists (Some p0)).
    rewrite Hnil in Hin. by apply elem_of_nil in Hin.
  - eapply Forall_impl; [exact Hf|]. by intros q [_ ?].
Qed.
