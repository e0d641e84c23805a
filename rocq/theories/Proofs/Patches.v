(** Properties of snapshots that follow from the patches committed, in every
    history: whatever snapshot a patch is committed on. *)
From Verif.Model Require Import System.
From Verif.Spec Require Import Logical Layout Changes Orderly.
From Verif.Proofs Require Import Shards RayAppend RayInsert RayDelete RayEffects NewPaths Fits.
From Verif.Proofs Require Import Lib World Resolve AppendSpec SchemaFacts ReadSpec Wf OpSpec
  Inv FileSet Ops Bodies Txn SysInv ReadRun Effects Observe View Mutations DeleteEffect Calls Reads Adds Durable Evolve History Serial Orderly Edge Replay.

Definition first_snap (t : Z) : snapshot := Snapshot 0 None t [] [] stats0 None.
(** Operations that do not look at the snapshot they start from. *)
Definition blind_op (o : op) : Prop :=
  match o with OAppend _ | OParquet _ | OArrayRecord _ _ _ | ORayAppend _ _ | ORayAppendFrom _ _ => True | _ => False end.

(** A patch fits the snapshot its operation started from. *)
Lemma op_effect_from E s o h w p w1 base :
  wf_schema s → bounded w → bounded w1 → op_out E s o h w (Some p) w1 → wf_patch s (w_fs w1) p → wnew w w1 →
  get_snapshot h None = Ok base → wf_snap s (w_fs w) base →
  ∃ w' sn, op_effect E s o (h_branch h) (h_meta h) w w' base sn p w1.
Proof.
  intros Hs Hb Hb1 Hout Hwp Hw Hbase Hwb.
  pose proof (op_out_fits _ _ _ _ _ _ _ _ Hs Hb Hbase Hout) as Hfits.
  destruct (fits_manifests s w base p Hb Hwb Hfits) as (idx&rec&Hpm).
  set (lp := PGen KChange (w_next w1)).
  set (fs' := match pa_log p with None => w_fs w1 | Some c => <[lp := FChange c]> (w_fs w1) end).
  set (w' := World fs' (w_next w1) (w_clock w1) (w_log w1)).
  set (sn := Snapshot 0 (Some (sn_id base)) 0 idx rec
    (update_record_bytes (update_index_stats (sn_stats base) (pa_stats p)) (pa_stats p))
    (match pa_log p with None => None | Some _ => Some lp end)).
  assert (Hlp : w_fs w1 !! lp = None).
  { destruct (w_fs w1 !! lp) eqn:Hl; [|done]. apply Hb1 in Hl. cbn in Hl. lia. }
  assert (Hk1 : keeps (w_fs w) (w_fs w1)) by by apply wnew_keeps.
  assert (Hk2 : keeps (w_fs w1) (w_fs w')).
  { intros q f Hq _. unfold w', fs'. cbn. destruct (pa_log p); [|done]. rewrite lookup_insert_ne; [done|]. intros <-. by rewrite Hlp in Hq. }
  assert (Hnext : next_snap (w_fs w') p base 0 0 sn).
  { unfold next_snap, sn, w', fs'. cbn. rewrite Hpm. split; [done|]. split; [done|]. split; [done|]. split; [done|]. split; [done|].
    destruct (pa_log p); [by rewrite lookup_insert|done]. }
  exists w', sn. constructor; try done; [by exists h| |by exists 0%Z, 0%Z]. by apply get_snapshot_snap_of.
Qed.
Lemma op_out_blind E s o h h0 w p w1 e :
  winv s w → wf_handle s w h → get_snapshot h None = Err e → op_out E s o h w (Some p) w1 → blind_op o ∧ op_out E s o h0 w (Some p) w1.
Proof.
  intros Hi0 Hh0 Hg Hout.
  destruct o as [batches|mode data|f|paths|paths index_fn nbytes|n data|n sources|n mode data|f]; try done.
  - destruct Hout as [(_&?&_)|(_&sn&?&?&?&?&?&?&_&Hg'&_)]; [done|]. congruence.
  - destruct Hout as (sn&mf&Hg'&_). congruence.
  - destruct Hout as (Hi&Hh&fo&Hrun). destruct (ray_insert_op_run E fo s n mode data h w Hi Hh) as (w2&r&Hr&_&Hout).
    rewrite Hrun in Hr. injection Hr as <- <-.
    destruct Hout as [(_&?&_)|(_&sn&?&?&?&?&?&?&_&Hg'&_)]; [done|]. congruence.
  - destruct Hout as (Hi&Hh&fo&Hrun). change (op_body E fo (ORayDelete f)) with (ray_delete_body E fo f) in Hrun.
    destruct (ray_delete_body_run E fo s f h w Hi Hh) as (w2&r&Hr&_&Hout).
    rewrite Hrun in Hr. injection Hr as <- <-. destruct Hout as (sn&mf&ps&Hg'&_). congruence.
Qed.

(** The operation the call runs is in [P], which also says what is allowed when
    the branch of the handle has no snapshot. *)
Fixpoint within (P : schema → fsys → option snapshot → op → Prop) (σ : sys) (c : call) : Prop :=
  match c with
  | CRun hid _ _ o => ∀ s, schema_at σ hid = Some s → P s (w_fs (y_world σ)) (current σ hid) o
  | COp tid _ _ o =>
      ∀ x h, y_txns σ !! tid = Some x → y_handles σ !! pe_handle x = Some h →
        P (md_schema (h_meta h)) (w_fs (y_world σ)) (head_snapshot (h_meta h) (h_branch h)) o
  | CCrash c' _ => within P σ c'
  | _ => True
  end.

Section patches.
Context (P : schema → fsys → option snapshot → op → Prop) (G : schema → fsys → patch → Prop) (Q : schema → fsys → snapshot → Prop).
Context (HQkeeps : ∀ s fs fs' sn, wf_snap s fs sn → keeps fs fs' → Q s fs sn → Q s fs' sn).
Context (HGkeeps : ∀ s fs fs' p, wf_patch s fs p → keeps fs fs' → G s fs p → G s fs' p).
Context (HQfirst : ∀ s fs t, Q s fs (first_snap t)).
Context (HPblind : ∀ s fs o, P s fs None o → blind_op o → P s fs (Some (first_snap 0)) o).
Context (HG : ∀ E s o b m1 w w' base sn p w1,
  P s (w_fs w) (Some base) o → wf_schema s → bounded w → op_ok s (w_fs w) o →
  op_effect E s o b m1 w w' base sn p w1 → G s (w_fs w1) p).
Context (HQ : ∀ s fs p base i t sn, wf_snap s fs base → wf_patch s fs p → Q s fs base → G s fs p → next_snap fs p base i t sn → Q s fs sn).

Definition all_snaps (s : schema) (fs : fsys) (m : metadata) : Prop := ∀ i sn, md_snaps m !! i = Some sn → Q s fs sn.
Lemma all_snaps_keeps s fs fs' m : keeps fs fs' → wf_meta s fs m → all_snaps s fs m → all_snaps s fs' m.
Proof.
  intros Hk Hm Hg i sn Hi. eapply HQkeeps; [|done|by eapply Hg]. destruct (wm_snaps _ _ _ Hm i sn Hi) as (_&Hw&_). exact Hw.
Qed.
Lemma op_patch E s o h w p w1 :
  winv s w → wf_handle s w h → bounded w1 → op_ok s (w_fs w) o → op_out E s o h w (Some p) w1 → wf_patch s (w_fs w1) p → wnew w w1 →
  P s (w_fs w) (head_snapshot (h_meta h) (h_branch h)) o → G s (w_fs w1) p.
Proof.
  intros Hi Hh Hb1 Hok Hout Hwp Hw HP. pose proof (wi_schema _ _ Hi) as Hs. pose proof (wi_bounded _ _ Hi) as Hb.
  change (head_snapshot (h_meta h) (h_branch h)) with (snap_of (h_meta h) (h_branch h) None) in HP.
  destruct (get_snapshot h None) as [base|e] eqn:Hg.
  - pose proof (proj2 (get_snapshot_snap_of h _ base eq_refl) Hg) as Hsn. rewrite Hsn in HP.
    destruct (op_effect_from E s o h w p w1 base) as (w'&sn&Heff); try done; [by eapply snap_of_wf; [apply Hh|]|].
    by eapply HG.
  - assert (Hn : snap_of (h_meta h) (h_branch h) None = None).
    { destruct (snap_of (h_meta h) (h_branch h) None) as [sn|] eqn:Hsn; [|done].
      apply (get_snapshot_snap_of h _ sn eq_refl) in Hsn. congruence. }
    rewrite Hn in HP. set (h0 := Handle (first_meta s 0) (MShort PEntry) MAIN 0).
    destruct (op_out_blind E s o h h0 w p w1 e Hi Hh Hg Hout) as [Hbl Hout0].
    destruct (op_effect_from E s o h0 w p w1 (first_snap 0)) as (w'&sn&Heff); try done.
    { split; [constructor|]. split; [constructor|]. split; [|done]. split; constructor. }
    eapply HG; try done. by apply HPblind.
Qed.

(** The invariant. *)
Record pgood (s : schema) (σ : sys) : Prop := {
  pg_stored : ∀ m, mof σ m → all_snaps s (w_fs (y_world σ)) m;
  pg_handles : ∀ hid h, y_handles σ !! hid = Some h → all_snaps s (w_fs (y_world σ)) (h_meta h);
  pg_txns : ∀ tid x p, y_txns σ !! tid = Some x → pe_patch x = Some (Some p) → G s (w_fs (y_world σ)) p }.
Lemma committed_snaps s p b h w h' w' m :
  committed s p b h w h' w' → h_meta h = m → keeps (w_fs w) (w_fs w') → wf_meta s (w_fs w) m → all_snaps s (w_fs w) m →
  wf_patch s (w_fs w) p → G s (w_fs w) p →
  ∀ m', stored_meta (w_fs w') = Some m' → all_snaps s (w_fs w') m'.
Proof.
  intros [(j&base&sn&u&Hj&Hbase&_&Hnext&_&Hst&_) _ _ _] <- Hk Hm Hg Hwp Hp m' Hm'.
  rewrite (stored_meta_eq _ _ _ Hst) in Hm'. injection Hm' as <-.
  pose proof (all_snaps_keeps _ _ _ _ Hk Hm Hg) as Hg'.
  destruct (wm_snaps _ _ _ Hm j base Hbase) as (_&Hwb&_).
  intros i sn' Hi. cbn in Hi. apply lookup_insert_Some in Hi as [[_ <-]|[_ Hi]]; [|by eapply Hg'].
  eapply HQ; [| | |by eapply HGkeeps|exact Hnext].
  - by eapply wf_snap_keeps.
  - by eapply wf_patch_keeps.
  - by eapply Hg'.
Qed.
Lemma step_stored s σ c :
  sinv s σ → env_ok σ c → within P σ c → pgood s σ → ∀ m', mof (step σ c) m' → all_snaps s (w_fs (y_world (step σ c))) m'.
Proof.
  intros Hs. pose proof (si_world _ _ Hs) as Hi. destruct (sinv_mof s σ Hs) as (m&Hm&Hwm).
  assert (Hkeeps : ∀ c, env_ok σ c → keeps (w_fs (y_world σ)) (w_fs (y_world (step σ c)))).
  { intros c' Hok. destruct (step_sinv s σ c' Hs Hok) as [_ Hg]. eapply gstep_keeps; [apply Hi|by eapply winv_fine|done]. }
  assert (Hsame : pgood s σ → ∀ c, env_ok σ c → mof (step σ c) m → ∀ m', mof (step σ c) m' → all_snaps s (w_fs (y_world (step σ c))) m').
  { intros Hg c' Hok Hm1 m' Hm'. rewrite (mof_fun _ _ _ Hm' Hm1). eapply all_snaps_keeps; [by apply Hkeeps|done|]. by apply Hg. }
  assert (Hquiet : pgood s σ → ∀ c, env_ok σ c → (∀ b, ¬ commits_on σ c b) → (∀ c'' k, c ≠ CCrash c'' k) →
    ∀ m', mof (step σ c) m' → all_snaps s (w_fs (y_world (step σ c))) m').
  { intros Hg c' Hok Hnc Hncr m' Hm'. destruct Hm as [p Hp].
    destruct (step_meta s σ c' p m Hs Hok Hp) as (p'&m''&Hp'&Hch).
    assert (m'' = m') as -> by (apply (mof_fun (step σ c')); [by exists p'|done]).
    assert (Hhandle : ∀ hid h refs, y_handles σ !! hid = Some h → all_snaps s (w_fs (y_world (step σ c'))) (with_refs (h_meta h) refs)).
    { intros hid h refs Hh i sn Hsn. cbn in Hsn.
      apply (all_snaps_keeps s (w_fs (y_world σ)) _ (h_meta h)) with i; [by apply Hkeeps|apply (si_handles _ _ Hs _ _ Hh)|by eapply (pg_handles _ _ Hg)|done]. }
    destruct Hch as [c'|hid h d n r Hh' Hd _ _ _ _|hid h d n r Hh' Hd _|c' b base sn Hc _ _ _ _ _|c'' k m'' _].
    - eapply all_snaps_keeps; [by apply Hkeeps|done|]. apply Hg. by exists p.
    - by eapply Hhandle.
    - by eapply Hhandle.
    - by destruct (Hnc b).
    - by destruct (Hncr c'' k). }
  induction c as [hid fs pks recs|hid|hid|hid d|hid E fo o|hid tid|tid E fo o|tid|dt|name f|c IH k];
    intros Hok HR Hg; try (apply Hquiet; [exact Hg|exact Hok|by intros b Hb; cbn in Hb; (exact Hb || done)|done]).
  - (* an operation *)
    destruct (y_handles σ !! hid) as [h|] eqn:Hh.
    2: { apply Hsame; [done|done|]. cbn [step]. unfold with_handle. by rewrite Hh. }
    pose proof (si_handles _ _ Hs _ _ Hh) as Hwf. destruct Hm as [p Hp].
    assert (Hok' : op_ok s (w_fs (y_world σ)) o).
    { rewrite <-(wm_schema _ _ _ (proj1 Hwf)). by apply Hok. }
    assert (HR' : P s (w_fs (y_world σ)) (head_snapshot m (h_branch h)) o).
    { specialize (HR s). unfold schema_at, current in HR. rewrite Hh, (stored_meta_eq _ _ _ Hp) in HR. apply HR.
      cbn. by rewrite (wm_schema _ _ _ (proj1 Hwf)). }
    destruct (run_op_run E fo s o h (y_world σ) p m Hi Hwf Hok' Hp Hwm) as (h'&w'&r&Hrun&Ht).
    assert (Hworld : y_world (step σ (CRun hid E fo o)) = w').
    { cbn [step]. unfold with_handle. by rewrite Hh, Hrun. }
    destruct (sync_spec s (y_world σ) p m h Hp Hwm Hwf) as (Hwf0&Hm0&_&Hb0&Hmax0).
    assert (Hst : wnew (y_world σ) w' → mof (step σ (CRun hid E fo o)) m).
    { intros Hw. exists p. rewrite Hworld. by eapply stored_wnew. }
    destruct Ht as [Hn|w' e _ _ Hw|w' _ _ Hw|q w1 w' _ _ Hw|q w1 h' w' Hfn Hw1 Hc];
      try (apply Hsame; [done|done|]; apply Hst; by (done || apply wnew_refl)).
    intros m' Hm'. apply mof_stored in Hm'. rewrite Hworld in *.
    destruct (op_body_run E fo s o (sync p m h) (y_world σ) Hi Hwf0 Hok') as (w1'&r'&Hrun'&Hw1'&Hout).
    rewrite Hfn in Hrun'. injection Hrun' as <- <-. destruct Hout as [Hout Hwp]. cbn in Hwp.
    assert (Hb1 : bounded w1) by (eapply wle_bounded; [apply Hi|done]).
    pose proof (wnew_keeps _ _ (wi_bounded _ _ Hi) Hw1) as Hk1.
    assert (Hg1 : all_snaps s (w_fs (y_world σ)) m) by (apply Hg; by exists p).
    eapply (committed_snaps s q _ _ w1 h' w' m Hc Hm0); try done.
    + eapply wstep_keeps; [done| |apply Hc]. eapply winv_fine. by eapply winv_wnew.
    + by eapply wf_meta_keeps.
    + by eapply all_snaps_keeps.
    + eapply (op_patch E s o (sync p m h) (y_world σ) q w1); try done. by rewrite Hm0, Hb0.
  - (* a commit *)
    destruct (y_txns σ !! tid) as [[hid x [pp|]]|] eqn:Htid;
      try (by apply Hsame; [done|done|]; cbn [step]; rewrite Htid).
    destruct (y_handles σ !! hid) as [h|] eqn:Hh.
    2: { apply Hsame; [done|done|]. cbn [step]. rewrite Htid. unfold with_handle. by rewrite Hh. }
    pose proof (si_handles _ _ Hs _ _ Hh) as Hwf. destruct Hm as [p Hp].
    destruct (sync_spec s (y_world σ) p m h Hp Hwm Hwf) as (Hwf0&Hm0&_&Hb0&Hmax0).
    destruct (txn_commit_run s x pp h (y_world σ) p m Hi Hwf) as (h'&w'&r&Hr&Hc); try done.
    { by eapply (si_txns _ _ Hs). }
    assert (Hworld : y_world (step σ (CCommit tid)) = w').
    { cbn [step]. rewrite Htid. unfold with_handle. by rewrite Hh, (catch_job_run _ _ _ _ Hr). }
    assert (Hst : wnew (y_world σ) w' → mof (step σ (CCommit tid)) m).
    { intros Hw. exists p. rewrite Hworld. by eapply stored_wnew. }
    destruct Hc as [Hn|j Hj Hne|Hj ->|q w' e Hj -> Hw' He|q h' w' Hj -> Hc];
      try (apply Hsame; [done|done|]; apply Hst; by (done || apply wnew_refl)).
    intros m' Hm'. apply mof_stored in Hm'. rewrite Hworld in *.
    eapply (committed_snaps s q _ _ (y_world σ) h' w' m Hc Hm0); try done.
    + eapply wstep_keeps; [apply Hi|by eapply winv_fine|apply Hc].
    + apply Hg. by exists p.
    + by eapply (si_txns _ _ Hs tid _ (Some q)).
    + by eapply (pg_txns _ _ Hg tid).
  - (* a crash *)
    cbn in Hok, HR. destruct (step_sinv s σ c Hs Hok) as [_ Hgs].
    intros m' Hm'. destruct (gstep_cut k _ _ Hgs) as [Hw|Hw].
    + apply (Hsame Hg (CCrash c k)); [done| |done]. destruct Hm as [q Hq]. exists q. rewrite crash_world. by eapply stored_wnew.
    + rewrite crash_world, Hw. apply IH; [done|done|done|]. destruct Hm' as [q Hq]. exists q. by rewrite crash_world, Hw in Hq.
Qed.
Lemma step_txn s σ c :
  sinv s σ → env_ok σ c → within P σ c → pgood s σ →
  ∀ tid x p, y_txns (step σ c) !! tid = Some x → pe_patch x = Some (Some p) → G s (w_fs (y_world (step σ c))) p.
Proof.
  intros Hs Hok HR Hg tid x p Hx Hp. destruct (step_sinv s σ c Hs Hok) as [Hs' Hgs].
  pose proof (si_world _ _ Hs) as Hi.
  assert (Hk : keeps (w_fs (y_world σ)) (w_fs (y_world (step σ c)))) by (eapply gstep_keeps; [apply Hi|by eapply winv_fine|done]).
  destruct (step_txns _ _ _ _ Hx) as [Hold|[(hid&y&->&->&_)|(E&fo&o&hid&y&pp&->&Htid&Hres&->)]]; [|done|].
  - eapply HGkeeps; [|exact Hk|by eapply (pg_txns _ _ Hg)]. exact (si_txns _ _ Hs _ _ _ Hold Hp).
  - cbn in Hp. injection Hp as ->. destruct (y_handles σ !! hid) as [h|] eqn:Hh.
    2: { unfold result in Hres. unfold with_handle in Hres. rewrite Hh in Hres. done. }
    pose proof (si_handles _ _ Hs _ _ Hh) as Hwf.
    assert (Hok' : op_ok s (w_fs (y_world σ)) o).
    { rewrite <-(wm_schema _ _ _ (proj1 Hwf)). by eapply Hok. }
    pose proof (HR _ h Htid Hh) as HR'. rewrite (wm_schema _ _ _ (proj1 Hwf)) in HR'.
    destruct (op_body_run E fo s o h (y_world σ) Hi Hwf Hok') as (w'&r&Hrun&Hw&Hout).
    rewrite (result_eq _ _ _ _ Hh), Hrun in Hres. injection Hres as ->. destruct Hout as [Hout Hwp].
    assert (Hworld : y_world (step σ (COp tid E fo o)) = w').
    { cbn [step]. rewrite Htid. unfold with_handle. by rewrite Hh, Hrun. }
    rewrite Hworld. eapply (op_patch E s o h (y_world σ) p w'); try done.
    eapply wle_bounded; [apply Hi|done].
Qed.
Lemma step_pgood s σ c : sinv s σ → env_ok σ c → within P σ c → pgood s σ → pgood s (step σ c).
Proof.
  intros Hs Hok HR Hg. pose proof (step_stored s σ c Hs Hok HR Hg) as Hst.
  destruct (step_sinv s σ c Hs Hok) as [Hs' Hgs]. pose proof (si_world _ _ Hs) as Hi.
  assert (Hk : keeps (w_fs (y_world σ)) (w_fs (y_world (step σ c)))) by (eapply gstep_keeps; [apply Hi|by eapply winv_fine|done]).
  destruct (sinv_mof s σ Hs) as (m&Hm&Hwm).
  constructor; [done| |].
  - intros hid h Hh. destruct (step_handle s σ c m hid h Hs Hok Hm Hh) as [(h0&Hh0&<-)|[->|Hm']].
    + eapply all_snaps_keeps; [done|apply (si_handles _ _ Hs _ _ Hh0)|by eapply (pg_handles _ _ Hg)].
    + eapply all_snaps_keeps; [done|done|by apply Hg].
    + by apply Hst.
  - by apply step_txn.
Qed.
Lemma first_snaps s fs t : all_snaps s fs (first_meta s t).
Proof. intros i sn Hi. cbn in Hi. apply lookup_singleton_Some in Hi as [_ <-]. apply HQfirst. Qed.
Lemma create_pgood s σ c : sempty σ → env_ok σ c → sinv s (step σ c) → pgood s (step σ c).
Proof.
  intros He Hok Hs. constructor.
  - intros m Hm. destruct (create_first σ c He Hok m (mof_stored _ _ Hm)) as (s'&t&->).
    pose proof (wm_schema _ _ _ (sinv_wf _ _ _ Hs Hm)) as Hsc. cbn in Hsc. subst s'. apply first_snaps.
  - intros hid h Hh. destruct (create_handle σ c hid h He Hh) as (s'&t&Hm).
    pose proof (wm_schema _ _ _ (proj1 (si_handles _ _ Hs _ _ Hh))) as Hsc. rewrite Hm in *. cbn in Hsc. subst s'. apply first_snaps.
  - intros tid x p Hx Hp. destruct (step_txns _ _ _ _ Hx) as [Hold|[(hid&y&->&->&_)|(E&fo&o&hid&y&pp&->&Htid&Hres&->)]]; [|done|].
    + by rewrite (se_txns _ He), lookup_empty in Hold.
    + by rewrite (se_txns _ He), lookup_empty in Htid.
Qed.
Lemma history_pgood σ :
  history (fun σ c => env_ok σ c ∧ within P σ c) init σ → ∀ s, sinv s σ → pgood s σ.
Proof.
  intros H. remember init as σ0. induction H as [σ0|σ0 σ c H IH [Hok HR]]; subst.
  - intros s Hs. destruct (sinv_mof s init Hs) as (m&[p [Hp _]]&_). done.
  - intros s Hs'. assert (Hr : reachable σ).
    { eapply history_weaken; [|exact H]. by intros ? ? [? _]. }
    destruct (reachable_inv _ Hr) as [He|[s0 Hs]]; [by apply create_pgood|].
    pose proof (step_sinv s0 σ c Hs Hok) as [Hs0 _].
    assert (s0 = s) as ->.
    { destruct (sinv_mof _ _ Hs0) as (m&Hm&Hwm). pose proof (sinv_wf _ _ _ Hs' Hm) as Hw'.
      by rewrite <-(wm_schema _ _ _ Hw'), <-(wm_schema _ _ _ Hwm). }
    apply step_pgood; auto.
Qed.
Lemma history_snap σ s m i sn :
  history (fun σ c => env_ok σ c ∧ within P σ c) init σ → sinv s σ → mof σ m → md_snaps m !! i = Some sn → Q s (w_fs (y_world σ)) sn.
Proof. intros H Hs Hm Hi. exact (pg_stored _ _ (history_pgood σ H s Hs) m Hm i sn Hi). Qed.
End patches.
