(** Properties of the metadata that follow from the patches committed, in
    histories in which no branch is removed: whatever snapshot a patch is
    committed on, its identifier is new. *)
From Verif.Model Require Import System.
From Verif.Spec Require Import Logical Layout Changes Orderly.
From Verif.Proofs Require Import Shards RayAppend RayInsert RayDelete RayEffects NewPaths Fits.
From Verif.Proofs Require Import Lib World Resolve AppendSpec SchemaFacts ReadSpec Wf OpSpec
  Inv FileSet Ops Bodies Txn SysInv ReadRun Effects Observe View Mutations DeleteEffect Calls Reads Adds Durable Evolve History Serial Orderly Edge Replay Patches.

Section meta.
Context (P : schema → fsys → option snapshot → op → Prop) (G : schema → fsys → patch → Prop) (Π : schema → fsys → metadata → Prop).
Context (HΠkeeps : ∀ s fs fs' m, wf_meta s fs m → keeps fs fs' → Π s fs m → Π s fs' m).
Context (HGkeeps : ∀ s fs fs' p, wf_patch s fs p → keeps fs fs' → G s fs p → G s fs' p).
Context (HΠfirst : ∀ s fs t, Π s fs (first_meta s t)).
Context (HΠrefs : ∀ s fs m refs, Π s fs m → Π s fs (with_refs m refs)).
Context (HPblind : ∀ s fs o, P s fs None o → blind_op o → P s fs (Some (first_snap 0)) o).
Context (HG : ∀ E s o b m1 w w' base sn p w1,
  P s (w_fs w) (Some base) o → wf_schema s → bounded w → op_ok s (w_fs w) o →
  op_effect E s o b m1 w w' base sn p w1 → G s (w_fs w1) p).
Context (HΠcommit : ∀ s fs p m b j base i t sn,
  wf_meta s fs m → md_snaps m !! j = Some base → (∀ k, is_Some (md_snaps m !! k) → (k < i)%Z) → wf_patch s fs p → G s fs p → Π s fs m →
  next_snap fs p base i t sn → Π s fs (with_snap m b sn)).
Lemma Π_keeps s fs fs' m : keeps fs fs' → wf_meta s fs m → Π s fs m → Π s fs' m.
Proof. intros Hk Hm. by apply HΠkeeps. Qed.

(** The invariant. *)
Record mgood (s : schema) (σ : sys) : Prop := {
  mg_stored : ∀ m, mof σ m → Π s (w_fs (y_world σ)) m;
  mg_handles : ∀ hid h, y_handles σ !! hid = Some h → Π s (w_fs (y_world σ)) (h_meta h);
  mg_txns : ∀ tid x p, y_txns σ !! tid = Some x → pe_patch x = Some (Some p) → G s (w_fs (y_world σ)) p }.
Lemma committed_meta s p b h w h' w' m :
  committed s p b h w h' w' → h_meta h = m → covered m → (max_snapshot_id m ≤ h_max h)%Z → keeps (w_fs w) (w_fs w') →
  wf_meta s (w_fs w) m → Π s (w_fs w) m → wf_patch s (w_fs w) p → G s (w_fs w) p →
  ∀ m', stored_meta (w_fs w') = Some m' → Π s (w_fs w') m'.
Proof.
  intros [(j&base&sn&u&Hj&Hbase&_&Hnext&_&Hst&_) _ _ _] <- Hcov Hmax Hk Hm Hg Hwp Hp m' Hm'.
  rewrite (stored_meta_eq _ _ _ Hst) in Hm'. injection Hm' as <-.
  eapply HΠcommit; [| | | | | |exact Hnext].
  - by eapply wf_meta_keeps.
  - exact Hbase.
  - intros k Hks. pose proof (covered_max _ _ Hcov Hks). lia.
  - by eapply wf_patch_keeps.
  - by eapply HGkeeps.
  - by eapply Π_keeps.
Qed.
Lemma step_stored s σ c :
  sinv s σ → (∀ m, mof σ m → covered m) → env_ok σ c → within P σ c → mgood s σ → ∀ m', mof (step σ c) m' → Π s (w_fs (y_world (step σ c))) m'.
Proof.
  intros Hs Hcov. pose proof (si_world _ _ Hs) as Hi. destruct (sinv_mof s σ Hs) as (m&Hm&Hwm).
  assert (Hkeeps : ∀ c, env_ok σ c → keeps (w_fs (y_world σ)) (w_fs (y_world (step σ c)))).
  { intros c' Hok. destruct (step_sinv s σ c' Hs Hok) as [_ Hg]. eapply gstep_keeps; [apply Hi|by eapply winv_fine|done]. }
  assert (Hsame : mgood s σ → ∀ c, env_ok σ c → mof (step σ c) m → ∀ m', mof (step σ c) m' → Π s (w_fs (y_world (step σ c))) m').
  { intros Hg c' Hok Hm1 m' Hm'. rewrite (mof_fun _ _ _ Hm' Hm1). eapply Π_keeps; [by apply Hkeeps|done|]. by apply Hg. }
  assert (Hquiet : mgood s σ → ∀ c, env_ok σ c → (∀ b, ¬ commits_on σ c b) → (∀ c'' k, c ≠ CCrash c'' k) →
    ∀ m', mof (step σ c) m' → Π s (w_fs (y_world (step σ c))) m').
  { intros Hg c' Hok Hnc Hncr m' Hm'. destruct Hm as [p Hp].
    destruct (step_meta s σ c' p m Hs Hok Hp) as (p'&m''&Hp'&Hch).
    assert (m'' = m') as -> by (apply (mof_fun (step σ c')); [by exists p'|done]).
    assert (Hhandle : ∀ hid h refs, y_handles σ !! hid = Some h → Π s (w_fs (y_world (step σ c'))) (with_refs (h_meta h) refs)).
    { intros hid h refs Hh. apply HΠrefs, (Π_keeps s (w_fs (y_world σ))); [by apply Hkeeps|apply (si_handles _ _ Hs _ _ Hh)|by eapply (mg_handles _ _ Hg)]. }
    destruct Hch as [c'|hid h d n r Hh' Hd _ _ _ _|hid h d n r Hh' Hd _|c' b base sn Hc _ _ _ _ _|c'' k m'' _].
    - eapply Π_keeps; [by apply Hkeeps|done|]. apply Hg. by exists p.
    - by eapply Hhandle.
    - by eapply Hhandle.
    - by destruct (Hnc b).
    - by destruct (Hncr c'' k). }
  induction c as [hid fs pks recs|hid|hid|hid d|hid E fo o|hid tid|tid E fo o|tid|dt|name f|c IH k];
    intros Hok HR Hg; try (apply Hquiet; [exact Hg|exact Hok|by intros b Hb; cbn in Hb; (exact Hb || done)|done]).
  - (* an operation *)
    destruct (y_handles σ !! hid) as [h|] eqn:Hh.
    2: { apply Hsame; [done|done|]. cbn [step]. unfold with_handle. by rewrite Hh. }
    pose proof (si_handles _ _ Hs _ _ Hh) as Hwf. destruct Hm as [p Hp].
    assert (Hok' : op_ok s (w_fs (y_world σ)) o).
    { rewrite <-(wm_schema _ _ _ (proj1 Hwf)). by apply Hok. }
    assert (HR' : P s (w_fs (y_world σ)) (head_snapshot m (h_branch h)) o).
    { specialize (HR s). unfold schema_at, current in HR. rewrite Hh, (stored_meta_eq _ _ _ Hp) in HR. apply HR.
      cbn. by rewrite (wm_schema _ _ _ (proj1 Hwf)). }
    destruct (run_op_run E fo s o h (y_world σ) p m Hi Hwf Hok' Hp Hwm) as (h'&w'&r&Hrun&Ht).
    assert (Hworld : y_world (step σ (CRun hid E fo o)) = w').
    { cbn [step]. unfold with_handle. by rewrite Hh, Hrun. }
    destruct (sync_spec s (y_world σ) p m h Hp Hwm Hwf) as (Hwf0&Hm0&_&Hb0&Hmax0).
    assert (Hst : wnew (y_world σ) w' → mof (step σ (CRun hid E fo o)) m).
    { intros Hw. exists p. rewrite Hworld. by eapply stored_wnew. }
    destruct Ht as [Hn|w' e _ _ Hw|w' _ _ Hw|q w1 w' _ _ Hw|q w1 h' w' Hfn Hw1 Hc];
      try (apply Hsame; [done|done|]; apply Hst; by (done || apply wnew_refl)).
    intros m' Hm'. apply mof_stored in Hm'. rewrite Hworld in *.
    destruct (op_body_run E fo s o (sync p m h) (y_world σ) Hi Hwf0 Hok') as (w1'&r'&Hrun'&Hw1'&Hout).
    rewrite Hfn in Hrun'. injection Hrun' as <- <-. destruct Hout as [Hout Hwp]. cbn in Hwp.
    assert (Hb1 : bounded w1) by (eapply wle_bounded; [apply Hi|done]).
    pose proof (wnew_keeps _ _ (wi_bounded _ _ Hi) Hw1) as Hk1.
    assert (Hg1 : Π s (w_fs (y_world σ)) m) by (apply Hg; by exists p).
    eapply (committed_meta s q _ _ w1 h' w' m Hc Hm0); try done.
    + apply Hcov. by exists p.
    + eapply wstep_keeps; [done| |apply Hc]. eapply winv_fine. by eapply winv_wnew.
    + by eapply wf_meta_keeps.
    + by eapply Π_keeps.
    + eapply (op_patch P G HPblind HG E s o (sync p m h) (y_world σ) q w1); try done. by rewrite Hm0, Hb0.
  - (* a commit *)
    destruct (y_txns σ !! tid) as [[hid x [pp|]]|] eqn:Htid;
      try (by apply Hsame; [done|done|]; cbn [step]; rewrite Htid).
    destruct (y_handles σ !! hid) as [h|] eqn:Hh.
    2: { apply Hsame; [done|done|]. cbn [step]. rewrite Htid. unfold with_handle. by rewrite Hh. }
    pose proof (si_handles _ _ Hs _ _ Hh) as Hwf. destruct Hm as [p Hp].
    destruct (sync_spec s (y_world σ) p m h Hp Hwm Hwf) as (Hwf0&Hm0&_&Hb0&Hmax0).
    destruct (txn_commit_run s x pp h (y_world σ) p m Hi Hwf) as (h'&w'&r&Hr&Hc); try done.
    { by eapply (si_txns _ _ Hs). }
    assert (Hworld : y_world (step σ (CCommit tid)) = w').
    { cbn [step]. rewrite Htid. unfold with_handle. by rewrite Hh, (catch_job_run _ _ _ _ Hr). }
    assert (Hst : wnew (y_world σ) w' → mof (step σ (CCommit tid)) m).
    { intros Hw. exists p. rewrite Hworld. by eapply stored_wnew. }
    destruct Hc as [Hn|j Hj Hne|Hj ->|q w' e Hj -> Hw' He|q h' w' Hj -> Hc];
      try (apply Hsame; [done|done|]; apply Hst; by (done || apply wnew_refl)).
    intros m' Hm'. apply mof_stored in Hm'. rewrite Hworld in *.
    eapply (committed_meta s q _ _ (y_world σ) h' w' m Hc Hm0); try done.
    + apply Hcov. by exists p.
    + eapply wstep_keeps; [apply Hi|by eapply winv_fine|apply Hc].
    + apply Hg. by exists p.
    + by eapply (si_txns _ _ Hs tid _ (Some q)).
    + by eapply (mg_txns _ _ Hg tid).
  - (* a crash *)
    cbn in Hok, HR. destruct (step_sinv s σ c Hs Hok) as [_ Hgs].
    intros m' Hm'. destruct (gstep_cut k _ _ Hgs) as [Hw|Hw].
    + apply (Hsame Hg (CCrash c k)); [done| |done]. destruct Hm as [q Hq]. exists q. rewrite crash_world. by eapply stored_wnew.
    + rewrite crash_world, Hw. apply IH; [done|done|done|]. destruct Hm' as [q Hq]. exists q. by rewrite crash_world, Hw in Hq.
Qed.
Lemma step_txn s σ c :
  sinv s σ → env_ok σ c → within P σ c → mgood s σ →
  ∀ tid x p, y_txns (step σ c) !! tid = Some x → pe_patch x = Some (Some p) → G s (w_fs (y_world (step σ c))) p.
Proof.
  intros Hs Hok HR Hg tid x p Hx Hp. destruct (step_sinv s σ c Hs Hok) as [Hs' Hgs].
  pose proof (si_world _ _ Hs) as Hi.
  assert (Hk : keeps (w_fs (y_world σ)) (w_fs (y_world (step σ c)))) by (eapply gstep_keeps; [apply Hi|by eapply winv_fine|done]).
  destruct (step_txns _ _ _ _ Hx) as [Hold|[(hid&y&->&->&_)|(E&fo&o&hid&y&pp&->&Htid&Hres&->)]]; [|done|].
  - eapply HGkeeps; [|exact Hk|by eapply (mg_txns _ _ Hg)]. exact (si_txns _ _ Hs _ _ _ Hold Hp).
  - cbn in Hp. injection Hp as ->. destruct (y_handles σ !! hid) as [h|] eqn:Hh.
    2: { unfold result in Hres. unfold with_handle in Hres. rewrite Hh in Hres. done. }
    pose proof (si_handles _ _ Hs _ _ Hh) as Hwf.
    assert (Hok' : op_ok s (w_fs (y_world σ)) o).
    { rewrite <-(wm_schema _ _ _ (proj1 Hwf)). by eapply Hok. }
    pose proof (HR _ h Htid Hh) as HR'. rewrite (wm_schema _ _ _ (proj1 Hwf)) in HR'.
    destruct (op_body_run E fo s o h (y_world σ) Hi Hwf Hok') as (w'&r&Hrun&Hw&Hout).
    rewrite (result_eq _ _ _ _ Hh), Hrun in Hres. injection Hres as ->. destruct Hout as [Hout Hwp].
    assert (Hworld : y_world (step σ (COp tid E fo o)) = w').
    { cbn [step]. rewrite Htid. unfold with_handle. by rewrite Hh, Hrun. }
    rewrite Hworld. eapply (op_patch P G HPblind HG E s o h (y_world σ) p w'); try done.
    eapply wle_bounded; [apply Hi|done].
Qed.
Lemma step_mgood s σ c : sinv s σ → (∀ m, mof σ m → covered m) → env_ok σ c → within P σ c → mgood s σ → mgood s (step σ c).
Proof.
  intros Hs Hcov Hok HR Hg. pose proof (step_stored s σ c Hs Hcov Hok HR Hg) as Hst.
  destruct (step_sinv s σ c Hs Hok) as [Hs' Hgs]. pose proof (si_world _ _ Hs) as Hi.
  assert (Hk : keeps (w_fs (y_world σ)) (w_fs (y_world (step σ c)))) by (eapply gstep_keeps; [apply Hi|by eapply winv_fine|done]).
  destruct (sinv_mof s σ Hs) as (m&Hm&Hwm).
  constructor; [done| |].
  - intros hid h Hh. destruct (step_handle s σ c m hid h Hs Hok Hm Hh) as [(h0&Hh0&<-)|[->|Hm']].
    + eapply Π_keeps; [done|apply (si_handles _ _ Hs _ _ Hh0)|by eapply (mg_handles _ _ Hg)].
    + eapply Π_keeps; [done|done|by apply Hg].
    + by apply Hst.
  - by apply step_txn.
Qed.
Lemma create_mgood s σ c : sempty σ → env_ok σ c → sinv s (step σ c) → mgood s (step σ c).
Proof.
  intros He Hok Hs. constructor.
  - intros m Hm. destruct (create_first σ c He Hok m (mof_stored _ _ Hm)) as (s'&t&->).
    pose proof (wm_schema _ _ _ (sinv_wf _ _ _ Hs Hm)) as Hsc. cbn in Hsc. subst s'. apply HΠfirst.
  - intros hid h Hh. destruct (create_handle σ c hid h He Hh) as (s'&t&Hm).
    pose proof (wm_schema _ _ _ (proj1 (si_handles _ _ Hs _ _ Hh))) as Hsc. rewrite Hm in *. cbn in Hsc. subst s'. apply HΠfirst.
  - intros tid x p Hx Hp. destruct (step_txns _ _ _ _ Hx) as [Hold|[(hid&y&->&->&_)|(E&fo&o&hid&y&pp&->&Htid&Hres&->)]]; [|done|].
    + by rewrite (se_txns _ He), lookup_empty in Hold.
    + by rewrite (se_txns _ He), lookup_empty in Htid.
Qed.
Lemma history_mgood σ :
  history (fun σ c => env_ok σ c ∧ keeps_branches c ∧ within P σ c) init σ → ∀ s, sinv s σ → mgood s σ.
Proof.
  intros H. remember init as σ0. induction H as [σ0|σ0 σ c H IH (Hok&Hkb&HR)]; subst.
  - intros s Hs. destruct (sinv_mof s init Hs) as (m&[p [Hp _]]&_). done.
  - intros s Hs'. assert (Hr : reachable σ).
    { eapply history_weaken; [|exact H]. by intros ? ? [? _]. }
    destruct (reachable_inv _ Hr) as [He|[s0 Hs]]; [by apply create_mgood|].
    pose proof (step_sinv s0 σ c Hs Hok) as [Hs0 _].
    assert (s0 = s) as ->.
    { destruct (sinv_mof _ _ Hs0) as (m&Hm&Hwm). pose proof (sinv_wf _ _ _ Hs' Hm) as Hw'.
      by rewrite <-(wm_schema _ _ _ Hw'), <-(wm_schema _ _ _ Hwm). }
    apply step_mgood; auto. refine (proj1 (keeping_covered σ _ s Hs)).
    eapply history_weaken; [|exact H]. by intros ? ? (?&?&_).
Qed.
Lemma history_meta σ s m :
  history (fun σ c => env_ok σ c ∧ keeps_branches c ∧ within P σ c) init σ → sinv s σ → mof σ m → Π s (w_fs (y_world σ)) m.
Proof. intros H Hs Hm. exact (mg_stored _ _ (history_mgood σ H s Hs) m Hm). Qed.
End meta.
