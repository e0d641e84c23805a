(** Histories whose edits go through up-to-date handles. *)
From Verif.Model Require Import System.
From Verif.Spec Require Import Logical Api Layout Durable Evolution.
From Verif.Proofs Require Import Lib World Resolve AppendSpec SchemaFacts ReadSpec Wf OpSpec Inv FileSet Ops Bodies Txn
  SchemaLaws SysInv ReadRun Effects Observe View Calls Reads Adds Isolation Durable Evolve.

Inductive fresh_change (c : call) (m : metadata) : metadata → Prop :=
| FcSame : fresh_change c m m
| FcAdd n r : is_Some (md_snaps m !! rf_id r) → n ≠ MAIN → md_refs m !! n = None →
    fresh_change c m (with_refs m (<[n := r]> (md_refs m)))
| FcRemove n r : md_refs m !! n = Some r →
    match rf_kind r with RTag => removes_tag n c | RBranch => removes_branch n c end →
    fresh_change c m (with_refs m (delete n (md_refs m)))
| FcCommit b base sn :
    head_of m b = Some (sn_id base) → md_snaps m !! sn_id base = Some base →
    (b ≠ MAIN → ∃ r, md_refs m !! b = Some r ∧ rf_kind r = RBranch) →
    sn_parent sn = Some (sn_id base) → (max_snapshot_id m < sn_id sn)%Z →
    fresh_change c m (with_snap m b sn).

Lemma fresh_change_crash c k m m' : fresh_change c m m' → fresh_change (CCrash c k) m m'.
Proof. intros [|n r ? ? ?|n r ? Hk|]; [constructor|by constructor|by eapply FcRemove|by eapply FcCommit]. Qed.
Lemma fresh_step σ c m m' :
  meta_change σ m c m' → stored_meta (w_fs (y_world σ)) = Some m → fresh_edits σ c → fresh_change c m m'.
Proof.
  intros Hc Hm. induction Hc as [c|hid h d n r Hh Hd Hs Hn1 Hn2 Hr|hid h d n r Hh Hd Hr|c b base sn|c k m' Hc IH]; cbn; intros Hf.
  - constructor.
  - assert (h_meta h = m) as Heq.
    { destruct d; try done; specialize (Hf h Hh); rewrite Hm in Hf; by injection Hf. }
    rewrite Heq in *. by apply FcAdd.
  - assert (h_meta h = m) as Heq.
    { destruct d; try done; specialize (Hf h Hh); rewrite Hm in Hf; by injection Hf. }
    rewrite Heq in *. eapply FcRemove; [done|]. destruct d; try done; destruct Hd as [-> ->]; done.
  - by eapply FcCommit.
  - apply fresh_change_crash. auto.
Qed.

(** * One step *)
Lemma fresh_snaps c m m' i :
  fresh_change c m m' → (i ≤ max_snapshot_id m)%Z → md_snaps m' !! i = md_snaps m !! i.
Proof.
  intros [|n r ? ? ?|n r ? Hk|b base sn ? ? ? ? ?] Hi; cbn; try done. rewrite lookup_insert_ne; [done|lia].
Qed.
Lemma fresh_snaps_some c m m' i :
  fresh_change c m m' → is_Some (md_snaps m !! i) → is_Some (md_snaps m' !! i).
Proof.
  intros [|n r ? ? ?|n r ? Hk|b base sn ? ? ? ? ?] Hi; cbn; try done. apply lookup_insert_is_Some'. eauto.
Qed.
Lemma fresh_current c m m' : fresh_change c m m' → (md_current m ≤ md_current m')%Z.
Proof.
  pose proof (max_snapshot_id_ge m) as [Hc _].
  intros [|n r ? ? ?|n r ? Hk|b base sn ? ? ? ? ?]; cbn; try done. case_decide; lia.
Qed.
Definition branch_at (m : metadata) (b : string) (i : Z) : Prop :=
  head_of m b = Some i ∧ (b ≠ MAIN → ∃ r, md_refs m !! b = Some r ∧ rf_kind r = RBranch).
Lemma fresh_branch c m m' b i :
  fresh_change c m m' → ¬ removes_branch b c → branch_at m b i → ∃ j, branch_at m' b j ∧ (i ≤ j)%Z.
Proof.
  intros Hc Hrm [Hi Hk]. pose proof (head_of_max _ _ _ Hi) as Hmax.
  destruct Hc as [|n r ? Hn Hnone|n r Hr Hkr|b' base sn ? ? Hb' ? ?].
  - exists i. by split; [|lia].
  - exists i. split; [|lia]. split.
    + rewrite <-Hi. unfold head_of. case_decide as Hb; [done|]. destruct (Hk Hb) as (r'&Hr'&_). cbn.
      destruct (decide (n = b)) as [->|]; [congruence|]. by rewrite lookup_insert_ne.
    + intros Hb. destruct (Hk Hb) as (r'&Hr'&?). exists r'. cbn. rewrite lookup_insert_ne; [done|]. intros ->. congruence.
  - assert (b ≠ MAIN → n ≠ b) as Hne.
    { intros Hb ->. destruct (Hk Hb) as (r'&Hr'&Hkr'). rewrite Hr in Hr'. injection Hr' as ->. by rewrite Hkr' in Hkr. }
    exists i. split; [|lia]. split.
    + rewrite <-Hi. unfold head_of. case_decide as Hb; [done|]. cbn. by rewrite lookup_delete_ne by auto.
    + intros Hb. destruct (Hk Hb) as (r'&Hr'&?). exists r'. cbn. by rewrite lookup_delete_ne by auto.
  - destruct (decide (b' = b)) as [->|Hne].
    + exists (sn_id sn). split; [|lia]. split; [apply head_with_snap|]. intros Hb. cbn.
      rewrite decide_False by done. rewrite lookup_insert. eauto.
    + exists i. split; [|lia]. split.
      * rewrite <-Hi. unfold head_of, with_snap. cbn. case_decide as Hb; [subst; by rewrite decide_False|].
        case_decide; [done|]. by rewrite lookup_insert_ne.
      * intros Hb. destruct (Hk Hb) as (r'&Hr'&?). exists r'. cbn. case_decide; [done|]. by rewrite lookup_insert_ne.
Qed.
Lemma fresh_tag c m m' n i :
  fresh_change c m m' → ¬ removes_tag n c → md_refs m !! n = Some (SRef i RTag) →
  md_refs m' !! n = Some (SRef i RTag) ∧ md_snaps m' !! i = md_snaps m !! i.
Proof.
  intros Hc Hrm Hn. split.
  2:{ eapply fresh_snaps; [done|]. destruct (max_snapshot_id_ge m) as [_ Hge]. apply (Hge _ _ Hn). }
  destruct Hc as [|n' r ? Hn' Hnone|n' r Hr Hkr|b' base sn ? ? Hb' ? ?]; cbn.
  - done.
  - rewrite lookup_insert_ne; [done|]. intros ->. congruence.
  - rewrite lookup_delete_ne; [done|]. intros ->. rewrite Hn in Hr. by injection Hr as <-.
  - case_decide as Hb; [done|]. destruct (Hb' Hb) as (r&Hr&Hk). rewrite lookup_insert_ne; [done|].
    intros ->. rewrite Hn in Hr. by injection Hr as <-.
Qed.

(** * Histories *)
Definition mof (σ : sys) (m : metadata) : Prop := ∃ p, stored (w_fs (y_world σ)) p m.
Lemma mof_stored σ m : mof σ m → stored_meta (w_fs (y_world σ)) = Some m.
Proof. intros [p Hp]. by eapply stored_meta_eq. Qed.
Lemma mof_fun σ m m' : mof σ m → mof σ m' → m = m'.
Proof. intros ?%mof_stored ?%mof_stored. congruence. Qed.
Lemma sinv_mof s σ : sinv s σ → ∃ m, mof σ m ∧ wf_meta s (w_fs (y_world σ)) m.
Proof. intros Hs. destruct (wi_stored _ _ (si_world _ _ Hs)) as (p&m&?&?). exists m. split; [by exists p|done]. Qed.
Lemma stored_mof s σ m : sinv s σ → stored_meta (w_fs (y_world σ)) = Some m → mof σ m.
Proof. intros Hs Hm. destruct (sinv_mof s σ Hs) as (m'&Hm'&_). pose proof (mof_stored _ _ Hm'). by simplify_eq. Qed.
Lemma fresh_history_ok ok σ σ' : fresh_history ok σ σ' → history env_ok σ σ'.
Proof. induction 1 as [|σ σ' c _ IH (?&?&?)]; by constructor. Qed.
Lemma fresh_weaken (ok ok' : call → Prop) σ σ' :
  (∀ c, ok c → ok' c) → fresh_history ok σ σ' → fresh_history ok' σ σ'.
Proof. intros Hw. induction 1 as [|σ σ' c _ IH (?&?&?)]; [constructor|]. constructor; [done|]. split_and!; auto. Qed.
(** Any relation kept by steps is kept by histories. *)
Lemma fresh_history_ind s σ (ok : call → Prop) (R : metadata → metadata → Prop) :
  sinv s σ → (∀ m, R m m) →
  (∀ c m m1 m', ok c → R m m1 → fresh_change c m1 m' → R m m') →
  ∀ σ', fresh_history ok σ σ' → ∀ m m', mof σ m → mof σ' m' → R m m'.
Proof.
  intros Hs Hrefl Hstep σ' Hh. induction Hh as [|σ σ' c Hh IH (Hok&Hf&Hc)]; intros m m' Hm Hm'.
  - by rewrite (mof_fun _ _ _ Hm Hm').
  - destruct (history_sinv s σ σ' Hs (fresh_history_ok _ _ _ Hh)) as [Hs' _].
    destruct (sinv_mof s σ' Hs') as (m1&[p1 Hm1]&_).
    destruct (step_meta s σ' c p1 m1 Hs' Hok Hm1) as (p2&m2&Hst2&Hch).
    assert (m2 = m') as -> by (eapply mof_fun; [by exists p2|done]).
    eapply Hstep; [done| |].
    + apply IH; try done. by exists p1.
    + eapply fresh_step; [done| |done]. by eapply stored_meta_eq.
Qed.
Lemma reachable_sinv σ m : reachable σ → stored_meta (w_fs (y_world σ)) = Some m → ∃ s, sinv s σ ∧ mof σ m.
Proof.
  intros Hr Hm. destruct (reachable_inv σ Hr) as [He|[s Hs]].
  - rewrite stored_meta_none in Hm by apply He. done.
  - exists s. split; [done|]. by eapply stored_mof.
Qed.

(** Reading the same snapshot in a later state. *)
Lemma later_reads s σ σ' m m' hid hid' h h' v v' rows :
  sinv s σ → sinv s σ' → keeps (w_fs (y_world σ)) (w_fs (y_world σ')) →
  mof σ m → mof σ' m' → y_handles σ !! hid = Some h → y_handles σ' !! hid' = Some h' →
  snap_of m' (h_branch h') v' = snap_of m (h_branch h) v →
  reads σ hid v rows → reads σ' hid' v' rows.
Proof.
  intros Hs Hs' Hk Hm Hm' Hh Hh' Hv Hr E b.
  destruct (sinv_seen s σ hid h Hs Hh) as (p&m1&H1), (sinv_seen s σ' hid' h' Hs' Hh') as (p'&m1'&H1').
  assert (m1 = m) as -> by (eapply mof_fun; [by exists p; apply H1|done]).
  assert (m1' = m') as -> by (eapply mof_fun; [by exists p'; apply H1'|done]).
  rewrite <-(Hr E b). by eapply same_snapshot_reads.
Qed.
Lemma reads_handle σ hid v rows : reads σ hid v rows → ∃ h, y_handles σ !! hid = Some h.
Proof.
  intros Hr. specialize (Hr (Env (fun _ => 0%Z) (fun _ => 0%Z) (fun _ _ => 0%Z) (fun _ _ => 0%Z) (fun _ => []) (fun _ => [])) None).
  by eapply result_handle.
Qed.
Lemma reads_meta s σ hid h v rows m :
  sinv s σ → y_handles σ !! hid = Some h → mof σ m → reads σ hid v rows → ∃ sn, snap_of m (h_branch h) v = Some sn.
Proof.
  intros Hs Hh Hm Hr. destruct (sinv_seen s σ hid h Hs Hh) as (p&m1&H1).
  assert (m1 = m) as -> by (eapply mof_fun; [by exists p; apply H1|done]).
  destruct (proj1 (reads_iff _ _ _ _ _ _ _ _ H1) Hr) as (sn&?&_). eauto.
Qed.

(** * Snapshots not above the head of main *)
Lemma main_immutable σ σ' hid hid' h' m i rows :
  reachable σ → stored_meta (w_fs (y_world σ)) = Some m → (i ≤ md_current m)%Z →
  fresh_history (fun _ => True) σ σ' → y_handles σ' !! hid' = Some h' →
  reads σ hid (Some (VId i)) rows → reads σ' hid' (Some (VId i)) rows.
Proof.
  intros Hr Hm Hi Hh Hh' Hrd. destruct (reachable_sinv σ m Hr Hm) as (s&Hs&Hmof).
  destruct (history_sinv s σ σ' Hs (fresh_history_ok _ _ _ Hh)) as [Hs' Hk].
  destruct (sinv_mof s σ' Hs') as (m'&Hm'&_). destruct (reads_handle _ _ _ _ Hrd) as [h Hh0].
  eapply (later_reads s σ σ' m m' hid hid' h h'); try done.
  unfold snap_of. cbn.
  pose proof (fresh_history_ind s σ (fun _ => True)
    (fun m m' => (md_current m ≤ md_current m')%Z ∧ ∀ i, (i ≤ md_current m)%Z → md_snaps m' !! i = md_snaps m !! i) Hs) as Hind.
  eapply Hind; try done.
  intros c m0 m1 m2 _ [Hc Hs1] Hch. pose proof (fresh_current _ _ _ Hch). split; [lia|].
  intros j Hj. rewrite <-Hs1 by done. eapply fresh_snaps; [done|]. destruct (max_snapshot_id_ge m1). lia.
Qed.

(** * Histories that remove no branch *)
Definition covered (m : metadata) : Prop :=
  ∀ i, is_Some (md_snaps m !! i) → ∃ b j, branch_at m b j ∧ (i ≤ j)%Z.
Lemma covered_max m i : covered m → is_Some (md_snaps m !! i) → (i ≤ max_snapshot_id m)%Z.
Proof. intros Hc Hi. destruct (Hc i Hi) as (b&j&[Hj _]&?). pose proof (head_of_max _ _ _ Hj). lia. Qed.
Lemma covered_step c m m' : fresh_change c m m' → keeps_branches c → covered m → covered m'.
Proof.
  intros Hc Hk Hcov i Hi.
  assert (is_Some (md_snaps m !! i) → ∃ b j, branch_at m' b j ∧ (i ≤ j)%Z) as Hold.
  { intros Hi'. destruct (Hcov i Hi') as (b&j&Hb&Hj). destruct (fresh_branch c m m' b j Hc (Hk b) Hb) as (j'&Hb'&?).
    exists b, j'. split; [done|lia]. }
  destruct Hc as [|n r ? ? ?|n r ? Hkr|b base sn Hh ? Hb ? ?]; cbn in Hi; try by apply Hold.
  apply lookup_insert_is_Some in Hi as [<-|[_ Hi]]; [|by apply Hold].
  exists b, (sn_id sn). split; [|lia]. split; [apply head_with_snap|]. intros Hb'. cbn.
  rewrite decide_False by done. rewrite lookup_insert. eauto.
Qed.
Lemma first_covered s t : covered (first_meta s t).
Proof.
  intros i Hi. cbn in Hi. exists MAIN, 0%Z. split; [by split|].
  destruct Hi as [sn Hi]. apply lookup_singleton_Some in Hi as [<- _]. lia.
Qed.
Lemma create_first σ c :
  sempty σ → env_ok σ c → ∀ m, stored_meta (w_fs (y_world (step σ c))) = Some m → ∃ s t, m = first_meta s t.
Proof.
  intros He. pose proof He as [Hb Hent Hhd Htx].
  assert (stored_meta (w_fs (y_world σ)) = None) as Hnone by by apply stored_meta_none.
  induction c as [hid fs pks recs|hid|hid|hid d|hid E fo o|hid tid|tid E fo o|tid|dt|name f|c IH k]; cbn [step env_ok];
    intros Hok m Hm.
  - destruct (create_run fs pks recs (y_world σ) Hb) as (w'&r&Hcr&Hc). rewrite Hcr in Hm.
    destruct Hc as [e _|e _ _|w' ns _ _ [??] _|w' ns u Hv _ _ Hst Hu Hb' Hsto]; cbn in Hm; try congruence.
    rewrite (stored_meta_eq _ _ _ Hsto) in Hm. injection Hm as <-. eauto.
  - assert (load (y_world σ) = (y_world σ, Err (EOther "FileNotFoundError"))) as Hl.
    { unfold load, read_entry, read_file, bind. cbn. by rewrite Hent. }
    rewrite Hl in Hm. cbn in Hm. congruence.
  - unfold with_handle in Hm. rewrite Hhd, lookup_empty in Hm. cbn in Hm. congruence.
  - unfold with_handle in Hm. rewrite Hhd, lookup_empty in Hm. cbn in Hm. congruence.
  - unfold with_handle in Hm. rewrite Hhd, lookup_empty in Hm. cbn in Hm. congruence.
  - unfold with_handle in Hm. rewrite Hhd, lookup_empty in Hm. cbn in Hm. congruence.
  - rewrite Htx, lookup_empty in Hm. congruence.
  - rewrite Htx, lookup_empty in Hm. congruence.
  - cbn in Hm. congruence.
  - assert (∀ X : sys, (∃ f, w_fs (y_world X) = <[PExt name := f]> (w_fs (y_world σ))) →
      stored_meta (w_fs (y_world X)) = Some m → False) as HX.
    { intros X [g Hg] HX. rewrite stored_meta_none in HX; [done|]. rewrite Hg. by rewrite lookup_insert_ne. }
    destruct (w_fs (y_world σ) !! PExt name); [congruence|].
    destruct f; try congruence; exfalso; (eapply HX; [|exact Hm]; by eexists).
  - destruct (step_sempty σ c He Hok) as [_ Hg]. cbn [y_world] in Hm. fold (cut k (y_world σ) (y_world (step σ c))) in Hm.
    change (stored_meta (w_fs (cut k (y_world σ) (y_world (step σ c)))) = Some m) in Hm.
    destruct (gstep_cut k _ _ Hg) as [Hw|Hw].
    + rewrite stored_meta_none in Hm; [done|]. by rewrite (wle_entry _ _ _ Hw).
    + rewrite Hw in Hm. by apply IH.
Qed.

(** * Tags *)
Lemma tag_stays σ σ' hid hid' h' n m i rows :
  reachable σ → stored_meta (w_fs (y_world σ)) = Some m → md_refs m !! n = Some (SRef i RTag) →
  fresh_history (fun c => ¬ removes_tag n c) σ σ' → y_handles σ' !! hid' = Some h' →
  reads σ hid (Some (VName n)) rows →
  reads σ' hid' (Some (VName n)) rows
  ∧ ∃ m', stored_meta (w_fs (y_world σ')) = Some m' ∧ md_refs m' !! n = Some (SRef i RTag).
Proof.
  intros Hr Hm Hn Hh Hh' Hrd. destruct (reachable_sinv σ m Hr Hm) as (s&Hs&Hmof).
  destruct (history_sinv s σ σ' Hs (fresh_history_ok _ _ _ Hh)) as [Hs' Hk].
  destruct (sinv_mof s σ' Hs') as (m'&Hm'&_). destruct (reads_handle _ _ _ _ Hrd) as [h Hh0].
  assert (md_refs m' !! n = Some (SRef i RTag) ∧ md_snaps m' !! i = md_snaps m !! i) as [Hn' Hi].
  { pose proof (fresh_history_ind s σ (fun c => ¬ removes_tag n c)
    (fun m m' => md_refs m !! n = Some (SRef i RTag) → md_refs m' !! n = Some (SRef i RTag) ∧ md_snaps m' !! i = md_snaps m !! i) Hs) as Hind.
    eapply Hind; try done. intros c m0 m1 m2 Hc IH Hch Hm0. destruct (IH Hm0) as [Hn1 <-]. by eapply fresh_tag. }
  split; [|exists m'; split; [by apply mof_stored|done]].
  eapply (later_reads s σ σ' m m' hid hid' h h'); try done.
  unfold snap_of. cbn. by rewrite Hn, Hn'.
Qed.

(** * Transactions *)
Lemma head_eq σ m b : mof σ m → head σ b = head_of m b.
Proof. intros Hm. unfold head. rewrite (mof_stored _ _ Hm). apply head_id_head. Qed.
Lemma branch_grows s σ σ' b m m' i :
  sinv s σ → fresh_history (fun c => ¬ removes_branch b c) σ σ' → mof σ m → mof σ' m' →
  branch_at m b i → ∃ j, branch_at m' b j ∧ (i ≤ j)%Z.
Proof.
  intros Hs Hh Hm Hm'. revert i.
  pose proof (fresh_history_ind s σ (fun c => ¬ removes_branch b c)
    (fun m m' => ∀ i, branch_at m b i → ∃ j, branch_at m' b j ∧ (i ≤ j)%Z) Hs) as Hind.
  eapply Hind; try done.
  - intros m0 i Hi. exists i. split; [done|lia].
  - intros c m0 m1 m2 Hc IH Hch i Hi. destruct (IH i Hi) as (j&Hj&?).
    destruct (fresh_branch c m1 m2 b j Hch Hc Hj) as (k&Hk&?). exists k. split; [done|lia].
Qed.
Lemma stale_commit s σ hid h x op m :
  sinv s σ → y_handles σ !! hid = Some h → mof σ m → head_of m (x_branch x) ≠ Some (x_snap x) →
  is_Some (head_of m (x_branch x)) →
  result σ hid (catch_job (txn_commit x op)) = Some (Ok JFailed)
  ∧ y_world (after σ hid (catch_job (txn_commit x op))) = y_world σ.
Proof.
  intros Hs Hh [p Hst] Hne [j Hj]. pose proof (si_world _ _ Hs) as Hi. pose proof (si_handles _ _ Hs _ _ Hh) as Hwf.
  assert (Hm : wf_meta s (w_fs (y_world σ)) m).
  { destruct (wi_stored _ _ Hi) as (q&m'&Hst'&Hm). by destruct (stored_fun _ _ _ _ _ Hst Hst') as [_ <-]. }
  destruct (sync_spec s (y_world σ) p m h Hst Hm Hwf) as (_&Hm0&_).
  assert (Hrun : txn_commit x op (h, y_world σ) = ((sync p m h, y_world σ), Ok JFailed)).
  { unfold txn_commit. rewrite (bind_run' _ _ _ _ _ (txn_check_run p m x op h (y_world σ) Hst Hm0)). rewrite Hj.
    destruct (x_snap x =? j)%Z eqn:Hx; [|done]. apply Z.eqb_eq in Hx. congruence. }
  pose proof (catch_job_run _ _ _ _ Hrun) as Hc. cbn in Hc. split.
  - by rewrite (result_eq _ _ _ _ Hh), Hc.
  - rewrite (after_eq _ _ _ _ _ _ _ Hh Hc). done.
Qed.
Lemma loser_fails σ0 σ1 σ2 hid hid2 h2 x op m0 i :
  reachable σ0 → stored_meta (w_fs (y_world σ0)) = Some m0 → branch_at m0 (x_branch x) i →
  result σ0 hid txn_begin = Some (Ok x) →
  fresh_history (fun c => ¬ removes_branch (x_branch x) c) σ0 σ1 →
  head σ1 (x_branch x) ≠ head σ0 (x_branch x) →
  fresh_history (fun c => ¬ removes_branch (x_branch x) c) σ1 σ2 →
  y_handles σ2 !! hid2 = Some h2 →
  result σ2 hid2 (catch_job (txn_commit x op)) = Some (Ok JFailed)
  ∧ same_storage (after σ2 hid2 (catch_job (txn_commit x op))) σ2.
Proof.
  intros Hr Hm0 Hb0 Hx Hh1 Hne Hh2 Hhd2. destruct (reachable_sinv σ0 m0 Hr Hm0) as (s&Hs&Hmof).
  destruct (history_sinv s σ0 σ1 Hs (fresh_history_ok _ _ _ Hh1)) as [Hs1 _].
  destruct (sinv_mof s σ1 Hs1) as (m1&Hm1&_).
  destruct (history_sinv s σ1 σ2 Hs1 (fresh_history_ok _ _ _ Hh2)) as [Hs2 _].
  destruct (sinv_mof s σ2 Hs2) as (m2&Hm2&_).
  destruct (branch_grows s σ0 σ1 _ m0 m1 i Hs Hh1 Hmof Hm1 Hb0) as (j&Hj&Hij).
  destruct (branch_grows s σ1 σ2 _ m1 m2 j Hs1 Hh2 Hm1 Hm2 Hj) as (k&Hk&Hjk).
  assert (x_snap x = i) as Hxi.
  { destruct (result_handle _ _ _ _ Hx) as [h Hh]. rewrite (result_eq _ _ _ _ Hh) in Hx. destruct Hmof as [p Hst].
    destruct (sinv_mof s σ0 Hs) as (mm&[p' Hst']&Hwm). destruct (stored_fun _ _ _ _ _ Hst Hst') as [<- <-].
    destruct (sync_spec s (y_world σ0) p m0 h Hst Hwm (si_handles _ _ Hs _ _ Hh)) as (_&Hms&_).
    rewrite (txn_begin_run p m0) in Hx by done. cbn in Hx. destruct (head_of m0 (h_branch h)) as [i'|] eqn:Hi'; [|done].
    injection Hx as <-. cbn in *. destruct Hb0 as [Hb0 _]. rewrite Hi' in Hb0. by injection Hb0. }
  rewrite (head_eq _ _ _ Hmof), (head_eq _ _ _ Hm1), (proj1 Hb0), (proj1 Hj) in Hne.
  assert (i ≠ j) by congruence.
  destruct (stale_commit s σ2 hid2 h2 x op m2 Hs2 Hhd2 Hm2) as [Hres Hw].
  - rewrite (proj1 Hk). intros [= ->]. lia.
  - rewrite (proj1 Hk). eauto.
  - split; [done|]. unfold same_storage. by rewrite Hw.
Qed.

(** * Edits *)
Lemma edit_keeps σ hid h d m :
  reachable σ → y_handles σ !! hid = Some h → up_to_date σ hid → stored_meta (w_fs (y_world σ)) = Some m →
  ∃ m', stored_meta (w_fs (y_world (step σ (CEdit hid d)))) = Some m'
    ∧ md_snaps m' = md_snaps m ∧ md_current m' = md_current m
    ∧ ∀ n r, md_refs m !! n = Some r →
        match d with EdRemoveTag n' | EdRemoveBranch n' => n' ≠ n | _ => True end → md_refs m' !! n = Some r.
Proof.
  intros Hr Hh Hup Hm. destruct (reachable_sinv σ m Hr Hm) as (s&Hs&[p Hst]).
  destruct (step_meta s σ (CEdit hid d) p m Hs I Hst) as (p'&m'&Hst'&Hc).
  exists m'. split; [by eapply stored_meta_eq|].
  inversion Hc as [|? h0 ? n r Hh0 Hd Hsn Hn1 Hn2 Hnone|? h0 ? n r Hh0 Hd Hrr|c b base sn Hco|]; subst; try done.
  - rewrite Hh in Hh0. injection Hh0 as <-. specialize (Hup h Hh). rewrite Hm in Hup. injection Hup as ->. split_and!; try done.
    intros n' r' Hr' _. cbn. rewrite lookup_insert_ne; [done|]. intros ->. congruence.
  - rewrite Hh in Hh0. injection Hh0 as <-. specialize (Hup h Hh). rewrite Hm in Hup. injection Hup as ->. split_and!; try done.
    intros n' r' Hr' Hdn. cbn. rewrite lookup_delete_ne; [done|]. intros ->. destruct d; destruct Hd; try done; by subst.
Qed.
