(** How the change log and the row count of a patch relate the rows of the
    manifests it removes to those of the manifests it adds. *)
From Verif.Model Require Import System.
From Verif.Spec Require Import Logical Pruning Keys Layout Changes Orderly.
From Verif.Proofs Require Import Shards Merge RayAppend RayInsert RayDelete RayEffects RayAccounts.
From Verif.Spec Require Merging.
From Verif.Proofs Require Import Lib FalsifySound World Resolve AppendSpec SchemaFacts ReadSpec Bounds Wf OpSpec
  Inv FileSet Ops Bodies Txn SysInv ReadRun Effects Observe View Prune Keys DeleteEffect Mutations Calls Durable Evolve History Serial Diff Orderly Edge.

(** * Lists of rows *)
Lemma bind_submseteq {A B} (f : A → list B) l k : l ⊆+ k → l ≫= f ⊆+ k ≫= f.
Proof. intros [l' ->]%submseteq_Permutation. rewrite bind_app. by apply submseteq_inserts_r. Qed.
Lemma filter_part {A} (P : A → Prop) `{∀ x, Decision (P x)} (l : list A) : filter P l ⊆+ l.
Proof. rewrite (filter_split P l) at 2. by apply submseteq_inserts_r. Qed.
Lemma shown_part s fs (l k : list row) y :
  l ⊆+ k → shows s fs k y → ∃ yl rest, shows s fs l yl ∧ y ≡ₚ rest ++ yl.
Proof.
  intros [l' Hp]%submseteq_Permutation Hy. destruct (Forall2_perm_l _ _ _ _ Hp Hy) as (y'&Hy'&Hperm).
  apply Forall2_app_inv_l in Hy' as (a&b&Ha&Hb&->). exists a, b. split; [done|]. rewrite Hperm. apply Permutation_app_comm.
Qed.
Lemma shows_down s fs fs' l y z : keeps fs fs' → shows s fs l y → shows s fs' l z → y = z.
Proof. intros Hk Hy Hz. eapply shows_fun; [|exact Hz]. by eapply shows_keeps. Qed.
Lemma mans_shown s fs l : Forall (wf_man s fs) l → ∃ ys, shows s fs (man_rows fs (l ≫= man_at fs)) ys.
Proof.
  induction 1 as [|q l Hq _ [ys IH]]; [by exists []; constructor|].
  destruct (snap_rows_some s fs (Snapshot 0 None 0 [q] [] stats0 None)) as [xs Hxs].
  { split; [apply NoDup_singleton|]. split; [by constructor|]. split; [|done]. split; constructor. }
  apply snap_rows_shows in Hxs. unfold phys_rows, snap_mrows in Hxs. cbn [sn_idx] in Hxs.
  exists (xs ++ ys). change (q :: l) with ([q] ++ l). rewrite bind_app, man_rows_app. by apply Forall2_app.
Qed.

(** * The log of a patch is about its manifests *)
Definition sublog (fs : fsys) (p : patch) : Prop :=
  match pa_log p with
  | None => pa_del_idx p = []
  | Some c => log_rows fs (cl_deleted c) ⊆+ man_rows fs (remove_dups (pa_del_idx p) ≫= man_at fs)
              ∧ log_rows fs (cl_added c) ⊆+ man_rows fs (pa_add_idx p ≫= man_at fs)
  end.
Lemma hit_part s e w mf base dels :
  wf_snap s (w_fs w) base → (∀ q m, q ∈ sn_idx base → m ∈ man_at (w_fs w) q → hit e w mf m → q ∈ dels) →
  dropped e (man_rows (w_fs w) (filter (hit e w mf) (snap_mrows (w_fs w) base)))
  ⊆+ man_rows (w_fs w) (remove_dups dels ≫= man_at (w_fs w)).
Proof.
  intros (Hnd&_) Hd.
  assert (Hf : filter (hit e w mf) (snap_mrows (w_fs w) base)
    = filter (hit e w mf) (filter (fun q => q ∈ dels) (sn_idx base) ≫= man_at (w_fs w))).
  { unfold snap_mrows. revert Hd. generalize (sn_idx base). intros l Hd. induction l as [|q l IH]; [done|].
    rewrite bind_cons, filter_app, IH by (intros q' m Hq'; apply Hd; by right). rewrite filter_cons. case_decide as Hq.
    - by rewrite bind_cons, filter_app.
    - rewrite filter_none; [done|]. intros m Hm Hh. apply Hq. eapply Hd; [left|done..]. }
  unfold dropped. etrans; [apply filter_part|]. rewrite !man_rows_bind, Hf. apply bind_submseteq.
  etrans; [apply filter_part|]. apply bind_submseteq.
  apply NoDup_submseteq; [by apply NoDup_filter|]. intros q [Hq _]%elem_of_list_filter. by apply elem_of_remove_dups.
Qed.
Lemma touched_rows e w mf base :
  filter (touched e w) (fset_files (fset_at (w_fs w) mf (sn_idx base))) ≫= drows w
  = man_rows (w_fs w) (filter (hit e w mf) (snap_mrows (w_fs w) base)).
Proof.
  transitivity ((df_path <$> filter (touched e w) (fset_files (fset_at (w_fs w) mf (sn_idx base)))) ≫= file_rows (w_fs w)).
  - generalize (filter (touched e w) (fset_files (fset_at (w_fs w) mf (sn_idx base)))). intros l.
    induction l as [|x l IH]; [done|]. rewrite fmap_cons, !bind_cons, IH. done.
  - rewrite (touched_paths e w mf base). rewrite man_rows_bind.
    generalize (filter (hit e w mf) (snap_mrows (w_fs w) base)). intros l.
    induction l as [|x l IH]; [done|]. by rewrite fmap_cons, !bind_cons, IH.
Qed.
(** Bitmaps of the changed files, in a later file system. *)
Lemma deleted_part s e w mf base dels fs' :
  wf_snap s (w_fs w) base → keeps (w_fs w) fs' →
  (∀ q, q ∈ dels → q ∈ sn_idx base) →
  (∀ q m, q ∈ sn_idx base → m ∈ man_at (w_fs w) q → hit e w mf m → q ∈ dels) →
  log_rows fs' ((fun df => build_bitmap df (kept_pos e w df))
    <$> filter (touched e w) (fset_files (fset_at (w_fs w) mf (sn_idx base))))
  ⊆+ man_rows fs' (remove_dups dels ≫= man_at fs').
Proof.
  intros Hb Hk Hsub Hd. pose proof Hb as (_&Hwi&_).
  assert (HlT : Forall (listed s w) (filter (touched e w) (fset_files (fset_at (w_fs w) mf (sn_idx base))))).
  { apply Forall_forall. intros df [_ Hin]%elem_of_list_filter. pose proof (fset_listed s w mf _ Hwi) as Hl. eapply Forall_forall in Hl; [exact Hl|done]. }
  assert (Hwd : Forall (wf_man s (w_fs w)) (remove_dups dels)).
  { apply Forall_forall. intros q Hq. apply elem_of_remove_dups, Hsub in Hq. eapply Forall_forall in Hwi; [exact Hwi|done]. }
  rewrite (log_rows_keeps s (w_fs w) fs').
  2: { apply Forall_fmap. eapply Forall_impl; [exact HlT|]. intros df Hdf. by apply build_bitmap_wf. }
  2: done.
  rewrite (log_deleted s e w _ HlT), touched_rows.
  rewrite (bind_man_keeps s (w_fs w) fs') by done.
  rewrite (man_rows_keeps s (w_fs w) fs'); [|done|by apply snap_mrows_wf].
  by apply (hit_part s).
Qed.
Lemma adds_sublog s lo w p rows : patch_adds s lo w p [] rows → sublog (w_fs w) p.
Proof.
  intros (ms&rms&u&_&Hai&_&_&Hf&_&_&_&_&_&_&_&Hdel&Hlog&_). unfold sublog. rewrite Hlog. cbn [cl_deleted cl_added]. split; [apply submseteq_nil_l|].
  rewrite added_rows, Hai. cbn [mbind list_bind]. rewrite app_nil_r. unfold man_at. by rewrite Hf.
Qed.
Lemma accounts_sublog fs p : accounts fs p → sublog fs p.
Proof. intros [Hlog _]. unfold sublog. rewrite Hlog. cbn [cl_deleted cl_added]. split; [apply submseteq_nil_l|]. by rewrite added_rows. Qed.
Lemma sublog_one fs p : sublog fs p → sublog fs (merge_two patch0 p).
Proof. unfold sublog. cbn. by destruct (pa_log p). Qed.
Lemma delete_sublog s e w mf base pd w1 fs' :
  wf_snap s (w_fs w) base → delete_out s e w (fset_at (w_fs w) mf (sn_idx base)) (Some pd) w1 → keeps (w_fs w) fs' →
  sublog fs' pd.
Proof.
  intros Hb (HT&mids&mans&lkept&Hnd&Hin&Hf2&Hdel&_&_&_&Hlog&_) Hk. unfold sublog. rewrite Hlog. cbn [cl_deleted cl_added].
  split; [|apply submseteq_nil_l]. rewrite Hdel.
  pose proof (mans_spec e w mf base mids mans Hin Hf2) as Hspec.
  apply (deleted_part s e w mf base); try done.
  - intros q Hq. by apply Hspec.
  - intros q m Hq Hm Hh. apply Hspec. eauto.
Qed.
Lemma upsert_sublog fs pd pa :
  sublog fs pd → sublog fs pa → pa_del_idx pa = [] → (∃ bs, pa_log pd = Some (ChangeLog bs [])) →
  (∃ bs, pa_log pa = Some (ChangeLog [] bs)) → sublog fs (merge_two (merge_two patch0 pd) pa).
Proof.
  intros Hd Ha Hdel [bd Hld] [ba Hla]. unfold sublog in *. cbn [merge_two patch0 pa_del_idx pa_add_idx pa_log merge_logs app]. rewrite Hld, Hla in *.
  cbn [merge_logs cl_deleted cl_added app] in *. rewrite Hdel, !app_nil_r.
  split; [apply Hd|]. rewrite bind_app, man_rows_app. apply submseteq_inserts_l. apply Ha.
Qed.
Lemma op_sublog E s o b m w w' base sn p w1 :
  wf_schema s → bounded w → op_ok s (w_fs w) o → op_effect E s o b m w w' base sn p w1 → sublog (w_fs w1) p.
Proof.
  intros Hs Hbw Hok Hd. pose proof Hd as [(h0&Hb0&Hm0&Hout) Hwp Hw1 _ Hwb _ Hk1 Hk2].
  destruct (snap_rows_some _ _ _ Hwb) as [old Hold].
  destruct o as [batches|mode data|e|paths|paths index_fn nbytes|n data|n sources|n mode data|e].
  - destruct Hout as (rows&_&Hadds). by eapply adds_sublog.
  - destruct Hout as [(_&?&_)|(Hne&sn0&e&mf&w2&dop&rows&aop&Hpk&Hg&Hmf&Hmode&Hw2&Hsel&Haop&Hp)]; [done|].
    rewrite (od_same_base _ _ _ _ _ _ _ _ _ _ _ _ _ Hd Hb0 Hm0 Hg) in Hmode, Hp. cbv beta iota zeta in Hmode, Hp.
    destruct aop as [pa|].
    2:{ destruct data; [done|]. apply tsel_ok in Hsel. rewrite Haop in Hsel. inversion Hsel. }
    pose proof (adds_sublog _ _ _ _ _ Haop) as Hsub.
    assert (Hone : p = merge_two patch0 pa → sublog (w_fs w1) p) by (intros ->; by apply sublog_one).
    destruct mode; [apply Hone; by injection Hp|].
    destruct Hmode as [Hw02 Hdel].
    destruct Hdel as [(Hf&->&->)|(Hf&Hdel)]; [rewrite Hf in Hp; apply Hone; by injection Hp|].
    destruct (fset_files (fset_at (w_fs w) mf (sn_idx base))) as [|d0 ds] eqn:Hfs; [done|]. clear Hf.
    destruct dop as [pd|]; [|apply Hone; by injection Hp].
    injection Hp as ->. cbn [omap list_omap id foldl]. apply upsert_sublog.
    + by eapply delete_sublog.
    + done.
    + by apply (patch_adds_rows s _ _ _ _ Hs Haop).
    + destruct Hdel as (_&?&?&?&_&_&_&_&_&_&_&Hlog&_). eauto.
    + destruct Haop as (?&?&?&_&_&_&_&_&_&_&_&_&_&_&_&_&Hlog&_). eauto.
  - destruct Hout as (sn0&mf&Hg&Hmf&Hdo).
    rewrite (od_same_base _ _ _ _ _ _ _ _ _ _ _ _ _ Hd Hb0 Hm0 Hg) in Hdo. by eapply delete_sublog.
  - destruct Hout as (Hrecs&p'&ms&[= <-]&Hpaths&Hms&?&?&?&Hlog&Hst). unfold sublog. by rewrite Hlog.
  - destruct Hout as (f&fid&rows&Hf&Hq&Hrows&p0&total&Hadds&->). exact (adds_sublog _ _ _ _ _ Hadds).
  - destruct Hout as [fo Hrun]. eapply accounts_sublog, ray_append_accounts; done.
  - destruct Hout as [fo Hrun]. eapply accounts_sublog, ray_append_accounts; done.
  - clear Hout h0 Hb0 Hm0. destruct (ray_insert_ran _ _ _ _ _ _ _ _ _ _ _ _ _ Hd) as (h0&Hbase&Hm0&Hout).
    destruct Hout as [(_&?&_)|(Hne&sn0&e&mf&w2&dop&rows&aop&Hpk&Hg&Hmf&Hmode&Hw2&Hsel&Haop&(E'&fo&Hwr)&Hp)]; [done|].
    apply (get_snapshot_snap_of h0 m) in Hg; [|done].
    assert (sn0 = base) as -> by congruence. cbv beta iota zeta in Hmode, Hp.
    assert (Hw02 : wnew w w2).
    { destruct mode; [destruct Hmode as [-> _]; apply wnew_refl|]. by destruct Hmode as [? _]. }
    assert (Hb2 : bounded w2) by by eapply wle_bounded.
    destruct aop as [pa|].
    2:{ exfalso. cbn in Haop. rewrite Haop in Hsel. apply tsel_length in Hsel. cbn in Hsel.
        rewrite (written_by_perm n data Hok) in Hsel. by destruct data. }
    pose proof (ray_append_accounts _ _ _ _ _ _ _ _ Hs Hb2 Hwr) as Hacc.
    pose proof (accounts_sublog _ _ Hacc) as Hsub. pose proof Haop as (_&Hdelp&_).
    assert (Hone : p = merge_two patch0 pa → sublog (w_fs w1) p) by (intros ->; by apply sublog_one).
    destruct mode; [apply Hone; by injection Hp|].
    destruct Hmode as [_ Hdel].
    destruct Hdel as [(Hf&->&->)|(Hf&Hdel)]; [rewrite Hf in Hp; apply Hone; by injection Hp|].
    destruct (fset_files (fset_at (w_fs w) mf (sn_idx base))) as [|d0 ds] eqn:Hfs; [done|]. clear Hf.
    destruct dop as [pd|]; [|apply Hone; by injection Hp].
    injection Hp as ->. cbn [omap list_omap id foldl]. apply upsert_sublog.
    + by eapply delete_sublog.
    + done.
    + done.
    + destruct Hdel as (_&?&?&?&_&_&_&_&_&_&_&Hlog&_). eauto.
    + destruct Hacc as [Hlog _]. eauto.
  - destruct (ray_delete_ran _ _ _ _ _ _ _ _ _ _ _ Hd) as (_&_&mf&ps&Hmf&Hps&[Hmerge Hpl]&_).
    destruct (pieces_log _ _ _ _ _ _ _ Hps Hpl) as (H1&H2&_&H4).
    pose proof (merged ps) as Hmg. rewrite <-Hmerge in Hmg. destruct Hmg as [[p0 Hp0] [Hci _ Hcx Hcd Hca Hcl _]].
    assert (Hsome : is_Some (pa_log p)).
    { apply Hcl. exists p0. split; [apply elem_of_list_omap; by exists (Some p0)|].
      eapply Forall_forall in H4; [exact H4|]. apply elem_of_list_omap. by exists (Some p0). }
    destruct Hsome as [c Hc]. unfold sublog. rewrite Hc. unfold Merging.deleted_rows in Hcd at 1. unfold Merging.added_rows in Hca at 1.
    rewrite Hc in Hcd, Hca. cbn in Hcd, Hca. rewrite H1 in Hcd. rewrite H2 in Hca. rewrite Hcd, Hca.
    split; [|apply submseteq_nil_l]. rewrite Hcx.
    apply (deleted_part s e w mf base); try done.
    + intros q (df&Hdf&Ht&Hq)%(pieces_dels _ _ _ _ _ _ _ q Hps). cbn in Hq.
      apply picked_mans_inv in Hq as (x&Hx&_&<-); [|apply picked_nodup]. by apply picked_spec in Hx as (?&_).
    + intros q mr Hq Hmr [Hmt Hh]. apply (pieces_dels _ _ _ _ _ _ _ q Hps).
      destruct (picked_complete (w_fs w) mf (sn_idx base) 1 q mr Hq Hmr Hmt) as (x&Hx&<-&Hmx).
      exists (mk_df x.1.1 mr). split_and!; [|done|].
      * cbn. apply elem_of_list_bind. exists x. split; [|done]. apply elem_of_list_fmap. eauto.
      * cbn. apply picked_mans_in; [apply picked_nodup|done].
Qed.

(** * The rows removed and added by a patch *)
Definition pedge (careful : Prop) (s : schema) (fs : fsys) (p : patch) : Prop :=
  Forall (wf_man s fs) (pa_del_idx p)
  ∧ ∃ out inn kept del lost add,
      shows s fs (man_rows fs (remove_dups (pa_del_idx p) ≫= man_at fs)) out
      ∧ shows s fs (man_rows fs (pa_add_idx p ≫= man_at fs)) inn
      ∧ out ≡ₚ kept ++ del ++ lost ∧ inn ≡ₚ kept ++ add
      ∧ logs s fs (pa_log p) del add
      ∧ st_rows (pa_stats p) = (Z.of_nat (length add) - Z.of_nat (length del))%Z
      ∧ (careful → lost = []).
Lemma dups_man s fs l : Forall (wf_man s fs) l → Forall (wf_man s fs) (remove_dups l).
Proof. rewrite !Forall_forall. intros H x. rewrite elem_of_remove_dups. apply H. Qed.
Lemma pedge_keeps careful s fs fs' p : wf_patch s fs p → keeps fs fs' → pedge careful s fs p → pedge careful s fs' p.
Proof.
  intros Hw Hk (Hd&out&inn&kept&del&lost&add&Hout&Hinn&Ho&Hi&Hl&Hst&Hc). split.
  { eapply Forall_impl; [exact Hd|]. intros q Hq. by eapply wf_man_keeps. }
  exists out, inn, kept, del, lost, add. split_and!; try done.
  - eapply shows_man_keeps; [exact Hk|by apply dups_man|done].
  - eapply shows_man_keeps; [exact Hk|apply Hw|done].
  - destruct Hw as (_&_&Hwl). destruct (pa_log p) as [c|]; [|done]. cbn in *. destruct Hl as [Hl1 Hl2].
    apply Forall_app in Hwl as [Hw1 Hw2]. rewrite !(log_rows_keeps s fs fs') by done. by split; eapply shows_keeps.
Qed.
(** The manifests of a snapshot, split into those removed and the others. *)
Lemma idx_split (idx del : list path) :
  NoDup idx → (∀ x, x ∈ del → x ∈ idx) → idx ≡ₚ filter (fun x => x ∉ del) idx ++ remove_dups del.
Proof.
  intros Hnd Hsub. rewrite (filter_split (fun x => x ∉ del) idx) at 1. f_equiv.
  apply NoDup_Permutation; [by apply NoDup_filter|apply NoDup_remove_dups|].
  intros q. rewrite elem_of_list_filter, elem_of_remove_dups. split.
  - intros [Hq _]. by destruct (decide (q ∈ del)).
  - intros Hq. split; [naive_solver|by apply Hsub].
Qed.
Lemma base_split s fs base del old :
  NoDup (sn_idx base) → (∀ x, x ∈ del → x ∈ sn_idx base) → snap_rows s fs base old →
  ∃ far out, shows s fs (man_rows fs (filter (fun x => x ∉ del) (sn_idx base) ≫= man_at fs)) far
    ∧ shows s fs (man_rows fs (remove_dups del ≫= man_at fs)) out ∧ old ≡ₚ far ++ out.
Proof.
  intros Hnd Hsub Hold. apply snap_rows_shows in Hold. unfold phys_rows, snap_mrows in Hold.
  assert (Hp : man_rows fs (sn_idx base ≫= man_at fs)
    ≡ₚ man_rows fs (filter (fun x => x ∉ del) (sn_idx base) ≫= man_at fs) ++ man_rows fs (remove_dups del ≫= man_at fs)).
  { rewrite <-man_rows_app, <-bind_app, !man_rows_bind. rewrite (idx_split (sn_idx base) del) at 1 by done. done. }
  destruct (Forall2_perm_l _ _ _ _ Hp Hold) as (y'&Hy'&Hperm). apply Forall2_app_inv_l in Hy' as (a&b&Ha&Hb&->).
  exists a, b. by split_and!.
Qed.
Lemma op_pedge E s o b m w w' base sn p w1 (careful : Prop) :
  wf_schema s → bounded w → op_ok s (w_fs w) o → op_effect E s o b m w w' base sn p w1 →
  separate_op s (w_fs w) base o → (careful → careful_op s (w_fs w) base o) → pedge careful s (w_fs w1) p.
Proof.
  intros Hs Hb Hok Heff Hsep Hcar. pose proof (op_sublog _ _ _ _ _ _ _ _ _ _ _ Hs Hb Hok Heff) as Hsub.
  pose proof Heff as [_ Hwp _ _ Hwb (k&t&Hnext) Hk1 Hk2]. pose proof (keeps_trans _ _ _ Hk1 Hk2) as Hk.
  destruct (snap_rows_some _ _ _ Hwb) as [old Hold].
  assert (Hsw : splits_well s (snap_layout (w_fs w) base) old o) by (by apply separate_splits).
  destruct (op_edge E s o b m w w' base sn p w1 old Hs Hb Hok Heff Hold Hsw)
    as (kept&del&lost&add&Hp&Hnew&Hlog&Hnone&Hst&Hc).
  pose proof Hwb as (Hnd&Hwi&_). destruct (next_idx p base _ _ _ sn Hnd Hnext) as (Hidx&Hdel&_).
  assert (Hwd : Forall (wf_man s (w_fs w)) (pa_del_idx p)).
  { apply Forall_forall. intros q Hq. apply Hdel in Hq. eapply Forall_forall in Hwi; [exact Hwi|done]. }
  assert (Hwd1 : Forall (wf_man s (w_fs w1)) (pa_del_idx p)).
  { eapply Forall_impl; [exact Hwd|]. intros q Hq. by eapply wf_man_keeps. }
  assert (Hwf : Forall (wf_man s (w_fs w)) (filter (fun x => x ∉ pa_del_idx p) (sn_idx base))).
  { apply Forall_forall. intros q [_ Hq]%elem_of_list_filter. eapply Forall_forall in Hwi; [exact Hwi|done]. }
  destruct (base_split s (w_fs w) base (pa_del_idx p) old Hnd Hdel Hold) as (far&out&Hfar&Hout&Hfo).
  destruct (mans_shown s (w_fs w1) (pa_add_idx p)) as [inn Hinn]; [apply Hwp|].
  pose proof (shows_man_keeps s (w_fs w) (w_fs w1) _ _ Hk1 (dups_man _ _ _ Hwd) Hout) as Hout1.
  assert (Hni : kept ++ add = far ++ inn).
  { apply snap_rows_shows in Hnew. unfold phys_rows, snap_mrows in Hnew. rewrite Hidx, bind_app, man_rows_app in Hnew.
    eapply shows_fun; [exact Hnew|]. apply Forall2_app.
    - by eapply shows_man_keeps.
    - eapply shows_man_keeps; [exact Hk2|apply Hwp|done]. }
  assert (Hfin : ∃ kept' lost', out ≡ₚ kept' ++ del ++ lost' ∧ inn ≡ₚ kept' ++ add ∧ logs s (w_fs w1) (pa_log p) del add
    ∧ (careful → lost' = [])).
  2: { destruct Hfin as (kept'&lost'&?&?&?&?). split; [done|]. exists out, inn, kept', del, lost', add. by split_and!. }
  assert (Hcl : careful → lost = []) by (intros Hcf; apply Hc, careful_keeps; try done; by apply Hcar).
  rewrite Hfo in Hp. unfold sublog in Hsub. destruct (pa_log p) as [c|] eqn:Hpl.
  - destruct Hsub as [Hsd Hsa]. destruct Hlog as [Hld Hla].
    destruct (shown_part _ _ _ _ _ Hsd Hout1) as (del'&D&Hd'&HD). destruct (shown_part _ _ _ _ _ Hsa Hinn) as (add'&A&Ha'&HA).
    assert (Hwl : wf_log s (w_fs w1) c). { destruct Hwp as (_&_&Hwl). by rewrite Hpl in Hwl. }
    unfold wf_log in Hwl. apply Forall_app in Hwl as [Hw1 Hw2].
    rewrite (log_rows_keeps s (w_fs w1) (w_fs w')) in Hld by done. rewrite (log_rows_keeps s (w_fs w1) (w_fs w')) in Hla by done.
    pose proof (shows_down _ _ _ _ _ _ Hk2 Hd' Hld) as ->. pose proof (shows_down _ _ _ _ _ _ Hk2 Ha' Hla) as ->.
    exists A, lost.
    assert (HFA : far ++ A ≡ₚ kept).
    { apply (Permutation_app_inv_r add). rewrite Hni, HA. by rewrite app_assoc. }
    assert (HDL : D ≡ₚ A ++ lost).
    { apply (Permutation_app_inv_l far). rewrite app_assoc, HFA. apply (Permutation_app_inv_r del).
      rewrite <-app_assoc, <-HD, Hp, <-!app_assoc. f_equiv. apply Permutation_app_comm. }
    split; [|by split_and!]. rewrite HD, HDL, <-!app_assoc. f_equiv. apply Permutation_app_comm.
  - destruct (Hnone eq_refl) as [paths ->]. cbn in Hlog. subst del.
    assert (lost = []) as -> by (by apply Hc).
    rewrite Hsub in Hout. cbn in Hout. apply Forall2_nil_inv_l in Hout as ->. rewrite !app_nil_r in Hp.
    exists [], []. split_and!; try done. apply (Permutation_app_inv_l far). rewrite <-Hni, Hp. done.
Qed.
