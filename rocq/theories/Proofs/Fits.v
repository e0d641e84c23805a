(** Patches fit the snapshot they were made for. *)
From Verif.Model Require Import System RayOps.
From Verif.Spec Require Import Logical Merging.
From Verif.Proofs Require Import Lib World Resolve AppendSpec SchemaFacts ReadSpec Wf OpSpec Inv FileSet Ops Bodies Txn Merge NewPaths
  SysInv DeleteEffect RayAppend RayInsert RayDelete.

Lemma man_below s w p : bounded w → wf_man s (w_fs w) p → below (w_next w) p.
Proof. intros Hb (ms&Hp&_). by eapply Hb. Qed.
Lemma rman_below w p : bounded w → wf_rman (w_fs w) p → below (w_next w) p.
Proof. intros Hb (ms&Hp&_). by eapply Hb. Qed.
(** The manifests a patch adds are new and distinct; those it deletes belong to
    the snapshot. *)
Record fits (lo : N) (base : snapshot) (p : patch) : Prop := {
  ft_idx : ∀ q, q ∈ pa_add_idx p → ¬ below lo q;
  ft_rec : ∀ q, q ∈ pa_add_rec p → ¬ below lo q;
  ft_nd_idx : NoDup (pa_add_idx p);
  ft_nd_rec : NoDup (pa_add_rec p);
  ft_del : ∀ q, q ∈ pa_del_idx p → q ∈ sn_idx base }.
Lemma fits_manifests s w base p :
  bounded w → wf_snap s (w_fs w) base → fits (w_next w) base p →
  ∃ idx rec, patch_manifests (sn_idx base) (sn_rec base) p = Ok (idx, rec).
Proof.
  intros Hb (Hnd&Hm&[Hr Hndr]&_) [Hi Hrc Hn1 Hn2 Hd]. do 2 eexists. apply patch_manifests_iff; [done|].
  split_and!; [done|reflexivity|reflexivity| |].
  - apply NoDup_app. split_and!; [by apply NoDup_filter| |done].
    intros x [_ Hx]%elem_of_list_filter Hx'. eapply Hi; [done|]. eapply man_below; [done|]. by eapply Forall_forall in Hm.
  - apply NoDup_app. split_and!; [done| |done].
    intros x Hx Hx'. eapply Hrc; [done|]. eapply rman_below; [done|]. by eapply Forall_forall in Hr.
Qed.
Lemma patch_adds_fits s lo w p rows base : patch_adds s lo w p [] rows → fits lo base p.
Proof.
  intros (ms&rms&u&_&Hadd&Hlo&_&_&_&_&_&_&Hr&_&_&Hdel&_). constructor.
  - intros q. rewrite Hadd, elem_of_list_singleton. intros ->. by apply not_below.
  - intros q. destruct rms; [rewrite Hr; by intros ?%elem_of_nil|]. destruct Hr as (u2&Hr&?&_).
    rewrite Hr, elem_of_list_singleton. intros ->. by apply not_below.
  - rewrite Hadd. apply NoDup_singleton.
  - destruct rms; [rewrite Hr; constructor|]. destruct Hr as (u2&Hr&?&_). rewrite Hr. apply NoDup_singleton.
  - rewrite Hdel. by intros q ?%elem_of_nil.
Qed.
Lemma delete_out_fits s e w mf base p w' :
  delete_out s e w (fset_at (w_fs w) mf (sn_idx base)) (Some p) w' →
  fits (w_next w) base p ∧ (∀ q, q ∈ pa_add_idx p → below (w_next w') q) ∧ pa_add_rec p = [].
Proof.
  intros (_&mids&mans&lk&_&_&Hf&Hdel&_&Hadd&Hrec&_). split_and!; [|by destruct lk; [rewrite Hadd; intros ? ?%elem_of_nil|
    destruct Hadd as (u&ms&->&?&?&_); intros q ->%elem_of_list_singleton]|done]. constructor.
  - destruct lk; [rewrite Hadd; by intros q ?%elem_of_nil|]. destruct Hadd as (u&ms&->&?&_).
    intros q ->%elem_of_list_singleton. by apply not_below.
  - rewrite Hrec. by intros q ?%elem_of_nil.
  - destruct lk; [rewrite Hadd; constructor|]. destruct Hadd as (u&ms&->&?&_). apply NoDup_singleton.
  - rewrite Hrec. constructor.
  - rewrite Hdel. intros q [k Hq]%elem_of_list_lookup. destruct (Forall2_lookup_r _ _ _ _ _ Hf Hq) as (i&_&Hi).
    apply picked_mans_inv in Hi as (x&Hx&_&<-); [|apply picked_nodup]. apply picked_spec in Hx. apply Hx.
Qed.
Lemma fits_wider lo lo' base p : (lo ≤ lo')%N → fits lo' base p → fits lo base p.
Proof.
  intros Hle [H1 H2 ???]. constructor; try done; intros q Hq; [eapply below_le; [done|by apply H1]|eapply below_le; [done|by apply H2]].
Qed.
Lemma merge_single p : ∃ q, merge_patches [Some p] = Some q
  ∧ pa_add_idx q = pa_add_idx p ∧ pa_add_rec q = pa_add_rec p ∧ pa_del_idx q = pa_del_idx p.
Proof. eexists. split; [done|]. done. Qed.

(** * New paths *)
Lemma append_op_new E fo s batches w w' p :
  bounded w → append_op E fo s batches w = (w', Ok (Some p)) →
  new_paths (w_next w) (w_next w') (pa_add_idx p) ∧ new_paths (w_next w) (w_next w') (pa_add_rec p) ∧ pa_del_idx p = [].
Proof.
  intros Hb Hrun. pose proof (append_op_out E fo s batches w Hb) as Hout. rewrite Hrun in Hout.
  destruct Hout as (_&_&rows&_&ms&rms&u&_&Hadd&Hlo&Hhi&_&_&_&_&_&Hr&_&_&Hdel&_).
  assert (Hone : ∀ k v, (w_next w ≤ v)%N → (v < w_next w')%N → new_paths (w_next w) (w_next w') [PGen k v]).
  { intros k v H1 H2. split; [apply NoDup_singleton|]. intros q ->%elem_of_list_singleton. split; [by apply not_below|done]. }
  split_and!; [rewrite Hadd; auto| |done].
  destruct rms; [rewrite Hr; apply new_paths_nil|]. destruct Hr as (u2&->&?&?&_). auto.
Qed.
Lemma workers_new E fo s (B : nat → list (list row)) l w w' ps :
  bounded w → mapM_st (fun i => append_op E fo s (B i)) l w = (w', Ok ps) →
  (w_next w ≤ w_next w')%N
  ∧ new_paths (w_next w) (w_next w') (omap id ps ≫= pa_add_idx)
  ∧ new_paths (w_next w) (w_next w') (omap id ps ≫= pa_add_rec) ∧ omap id ps ≫= pa_del_idx = [].
Proof.
  revert w w' ps. induction l as [|i l IH]; intros w w' ps Hb Hrun; cbn [mapM_st] in Hrun.
  { injection Hrun as <- <-. split_and!; [done|apply new_paths_nil..|done]. }
  pose proof (append_op_out E fo s (B i) w Hb) as Hout. unfold bind in Hrun.
  destruct (append_op E fo s (B i) w) as [w1 [op|e]] eqn:H1; destruct Hout as (Hn1&Hb1&_).
  2:{ done. }
  destruct (mapM_st (fun i => append_op E fo s (B i)) l w1) as [w2 [ps'|e]] eqn:H2; [|done]. injection Hrun as <- <-. destruct (IH _ _ _ Hb1 H2) as (Hle&Hi&Hr&Hd).
  assert (Hle1 : (w_next w ≤ w_next w1)%N) by apply Hn1.
  split; [lia|]. destruct op as [p|].
  - destruct (append_op_new _ _ _ _ _ _ _ Hb H1) as (Hpi&Hpr&Hpd).
    change (omap id (Some p :: ps')) with (p :: omap id ps'). rewrite !bind_cons, Hpd, Hd.
    split_and!; [by eapply new_paths_app..|done].
  - change (omap id (None :: ps')) with (omap id ps'). split_and!; [..|done].
    + destruct Hi as [? Hi]. split; [done|]. intros q Hq. destruct (Hi q Hq). split; [|done]. by eapply below_le.
    + destruct Hr as [? Hr]. split; [done|]. intros q Hq. destruct (Hr q Hq). split; [|done]. by eapply below_le.
Qed.
Lemma ray_append_new E fo s n calls w w' p :
  bounded w → ray_append_op E fo s n calls w = (w', Ok (Some p)) →
  new_paths (w_next w) (w_next w') (pa_add_idx p) ∧ new_paths (w_next w) (w_next w') (pa_add_rec p) ∧ pa_del_idx p = [].
Proof.
  intros Hb Hrun. unfold ray_append_op in Hrun.
  destruct (mapM_st (fun i => append_op E fo s (concat (filter (fun c => c.1 = i) calls).*2)) (seq 0 n) w) as [w1 [ps|e]] eqn:Hm;
    unfold bind in Hrun; rewrite Hm in Hrun; [|done].
  injection Hrun as <- Hp.
  destruct (workers_new E fo s (fun i => concat (filter (fun c => c.1 = i) calls).*2) _ _ _ _ Hb Hm) as (_&Hi&Hr&Hd).
  pose proof (merged ps) as Hmg. rewrite Hp in Hmg. destruct Hmg as [_ Hc].
  by rewrite (cc_add_idx _ _ Hc), (cc_add_rec _ _ Hc), (cc_del_idx _ _ Hc).
Qed.
Lemma new_fits lo hi p base :
  new_paths lo hi (pa_add_idx p) → new_paths lo hi (pa_add_rec p) → pa_del_idx p = [] → fits lo base p.
Proof.
  intros [Hi Hi'] [Hr Hr'] Hd. constructor; try done.
  - intros q Hq. by apply Hi'.
  - intros q Hq. by apply Hr'.
  - rewrite Hd. by intros q ?%elem_of_nil.
Qed.

(** * Distributed operations *)
Lemma new_wider lo lo' hi l : (lo ≤ lo')%N → new_paths lo' hi l → new_paths lo hi l.
Proof. intros Hle [Hn Hq]. split; [done|]. intros q Hin. destruct (Hq q Hin). split; [by eapply below_le|done]. Qed.
Lemma ray_insert_fits s n mode data h w p w' base :
  winv s w → wf_handle s w h → get_snapshot h None = Ok base → ray_insert_out s n mode data h w (Some p) w' → fits (w_next w) base p.
Proof.
  intros Hi Hh Hbase Hout. pose proof Hi as [Hb Hs _].
  destruct Hout as [(_&?&_)|(_&sn&e&mf&w1&dop&rows&aop&_&Hsn&_&Hmode&Hw'&_&_&(E&fo&Hwr)&Hp)]; [done|].
  rewrite Hbase in Hsn. injection Hsn as <-. cbn zeta in *.
  assert (Hw1 : wnew w w1).
  { destruct mode; [destruct Hmode as [-> _]; apply wnew_refl|]. by destruct Hmode as [Hw1 _]. }
  assert (Hle : (w_next w ≤ w_next w1)%N) by apply Hw1.
  assert (Hb1 : bounded w1) by (by eapply wle_bounded).
  assert (Ha : ∀ pa, aop = Some pa → new_paths (w_next w1) (w_next w') (pa_add_idx pa)
     ∧ new_paths (w_next w1) (w_next w') (pa_add_rec pa) ∧ pa_del_idx pa = []).
  { intros pa ->. by eapply ray_append_new. }
  assert (Hsingle : Some p = merge_patches [aop] → fits (w_next w) base p).
  { intros Hm. destruct aop as [pa|]; [|done]. destruct (merge_single pa) as (q&Hq&H1&H2&H3).
    rewrite Hq in Hm. injection Hm as ->. destruct (Ha pa eq_refl) as (?&?&?). apply (fits_wider _ (w_next w1)); [done|].
    apply (new_fits _ (w_next w')); by rewrite ?H1, ?H2, ?H3. }
  destruct mode; [by apply Hsingle|].
  destruct (fset_files (fset_at (w_fs w) mf (sn_idx base))) as [|df dfs] eqn:Hfs; [by apply Hsingle|].
  destruct Hmode as [Hww [(?&_)|[_ Hdel]]]; [done|].
  destruct dop as [pd|]; [|by apply Hsingle].
  apply delete_out_fits in Hdel as (Hfd&Hbd&Hrd).
  destruct aop as [pa|].
  - cbn in Hp. injection Hp as ->. destruct (Ha pa eq_refl) as ([N1 N2]&[N3 N4]&Hnd).
    destruct Hfd as [F1 F2 F3 F4 F5]. constructor; cbn; rewrite ?Hrd, ?Hnd, ?app_nil_r; cbn [app].
    + intros x [Hx|Hx]%elem_of_app; [auto|]. intros Hlo. destruct (N2 x Hx) as [Hx1 _]. apply Hx1. by eapply below_mono.
    + intros x Hx Hlo. destruct (N4 x Hx) as [Hx1 _]. apply Hx1. by eapply below_mono.
    + apply NoDup_app. split_and!; try done. intros x Hx Hx'. destruct (N2 x Hx') as [Hx1 _]. apply Hx1. auto.
    + done.
    + done.
  - cbn in Hp. injection Hp as ->. destruct Hfd. constructor; cbn; done.
Qed.
Lemma ray_delete_fits E fo s e h w p w' base :
  winv s w → wf_handle s w h → get_snapshot h None = Ok base →
  ray_delete_body E fo e (h, w) = ((h, w'), Ok (Some p)) → fits (w_next w) base p.
Proof.
  intros Hi Hh Hbase Hrun. destruct (ray_delete_body_run E fo s e h w Hi Hh) as (w2&r&Hr&_&Hout).
  rewrite Hrun in Hr. injection Hr as <- <-. destruct Hout as (sn0&mf&ps&Hg&Hmf&Hps&[_ [N1 N2]]&Hmerge).
  rewrite Hbase in Hg. injection Hg as <-.
  pose proof (merged ps) as Hmg. rewrite <-Hmerge in Hmg. destruct Hmg as [_ [Hadd Hrec Hdel _ _ _ _]].
  rewrite (pieces_recs _ _ _ _ _ _ _ Hps) in Hrec. constructor; rewrite ?Hadd, ?Hrec, ?Hdel.
  - intros q Hq. by apply N2.
  - by intros q ?%elem_of_nil.
  - done.
  - constructor.
  - intros q (df&_&_&Hm)%(pieces_dels _ _ _ _ _ _ _ _ Hps).
    apply picked_mans_inv in Hm as (x&Hx&_&<-); [|apply picked_nodup]. apply picked_spec in Hx. apply Hx.
Qed.
