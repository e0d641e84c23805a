(** Every row read was supplied by an operation, in every history. *)
From Verif.Model Require Import System.
From Verif.Spec Require Import Logical Layout Changes Orderly Supplied.
From Verif.Proofs Require Import Shards RayAppend RayInsert RayDelete RayEffects NewPaths Fits.
From Verif.Proofs Require Import Lib World Resolve AppendSpec SchemaFacts ReadSpec Wf OpSpec
  Inv FileSet Ops Bodies Txn SysInv ReadRun Effects Observe View Mutations DeleteEffect Calls Reads Adds Durable Evolve History Serial Orderly Edge Replay Supplied.

Section provenance.
Context (R : row → Prop).

Definition man_good (s : schema) (fs : fsys) (q : path) : Prop :=
  ∃ ys, shows s fs (man_rows fs (man_at fs q)) ys ∧ Forall R ys.
Lemma man_good_keeps s fs fs' q : keeps fs fs' → wf_man s fs q → man_good s fs q → man_good s fs' q.
Proof.
  intros Hk Hw (ys&Hys&HR). exists ys. split; [|done].
  pose proof (shows_man_keeps s fs fs' [q] ys Hk) as H. cbn in H. rewrite !app_nil_r in H. apply H; [by constructor|done].
Qed.
Lemma man_shows s fs q : wf_man s fs q → ∃ ys, shows s fs (man_rows fs (man_at fs q)) ys.
Proof.
  intros Hq. destruct (snap_rows_some s fs (Snapshot 0 None 0 [q] [] stats0 None)) as [rows Hr].
  { split; [apply NoDup_singleton|]. split; [by constructor|]. split; [|done]. split; constructor. }
  exists rows. apply snap_rows_shows in Hr. unfold phys_rows, snap_mrows in Hr. cbn in Hr. by rewrite app_nil_r in Hr.
Qed.
Lemma man_good_back s fs fs' q : keeps fs fs' → wf_man s fs q → man_good s fs' q → man_good s fs q.
Proof.
  intros Hk Hw (ys'&Hys'&HR). destruct (man_shows s fs q Hw) as [ys Hys]. exists ys. split; [done|].
  pose proof (shows_man_keeps s fs fs' [q] ys Hk) as H. cbn in H. rewrite !app_nil_r in H.
  rewrite (shows_fun _ _ _ _ _ (H ltac:(by constructor) Hys) Hys'). done.
Qed.
Lemma snap_good s fs sn rows :
  snap_rows s fs sn rows → Forall (man_good s fs) (sn_idx sn) → Forall R rows.
Proof.
  intros Hr%snap_rows_shows Hg. unfold phys_rows, snap_mrows in Hr. revert rows Hr.
  induction Hg as [|q l (ys&Hys&HR) _ IH]; intros rows Hr.
  - inversion Hr. constructor.
  - rewrite bind_cons, man_rows_app in Hr. apply Forall2_app_inv_l in Hr as (a&b&Ha&Hb&->). apply Forall_app. split; [|by apply IH].
    by rewrite (shows_fun _ _ _ _ _ Ha Hys).
Qed.
Lemma good_snap s fs sn rows :
  snap_rows s fs sn rows → Forall R rows → Forall (man_good s fs) (sn_idx sn).
Proof.
  intros Hr%snap_rows_shows. unfold phys_rows, snap_mrows in Hr. revert rows Hr.
  induction (sn_idx sn) as [|q l IH]; intros rows Hr HR; [constructor|].
  rewrite bind_cons, man_rows_app in Hr. apply Forall2_app_inv_l in Hr as (a&b&Ha&Hb&->). apply Forall_app in HR as [HRa HRb].
  constructor; [by exists a|]. by eapply IH.
Qed.
Definition meta_good (s : schema) (fs : fsys) (m : metadata) : Prop :=
  ∀ i sn, md_snaps m !! i = Some sn → Forall (man_good s fs) (sn_idx sn).
Lemma snaps_good_keeps s fs fs' l : keeps fs fs' → Forall (wf_man s fs) l → Forall (man_good s fs) l → Forall (man_good s fs') l.
Proof.
  intros Hk Hw Hg. apply Forall_forall. intros q Hq. apply (man_good_keeps s fs fs'); [done|..];
    (eapply Forall_forall; [|exact Hq]; done).
Qed.
Lemma wf_snap_mans s fs sn : wf_snap s fs sn → Forall (wf_man s fs) (sn_idx sn).
Proof. by intros (?&?&?). Qed.
Lemma meta_good_keeps s fs fs' m : keeps fs fs' → wf_meta s fs m → meta_good s fs m → meta_good s fs' m.
Proof.
  intros Hk Hm Hg i sn Hi. eapply snaps_good_keeps; [done| |by eapply Hg].
  destruct (wm_snaps _ _ _ Hm i sn Hi) as (_&Hw&_). by apply wf_snap_mans.
Qed.

(** What an operation adds is good. *)
Lemma op_adds_from E s o h w p w1 base :
  wf_schema s → bounded w → bounded w1 → op_ok s (w_fs w) o → op_out E s o h w (Some p) w1 → wf_patch s (w_fs w1) p → wnew w w1 →
  get_snapshot h None = Ok base → wf_snap s (w_fs w) base → Forall (man_good s (w_fs w)) (sn_idx base) →
  Forall R (supplied s (w_fs w) o) → Forall (man_good s (w_fs w1)) (pa_add_idx p).
Proof.
  intros Hs Hb Hb1 Hok Hout Hwp Hw Hbase Hwb Hgood HR.
  pose proof (op_out_fits _ _ _ _ _ _ _ _ Hs Hb Hbase Hout) as Hfits.
  destruct (fits_manifests s w base p Hb Hwb Hfits) as (idx&rec&Hpm).
  set (lp := PGen KChange (w_next w1)).
  set (fs' := match pa_log p with None => w_fs w1 | Some c => <[lp := FChange c]> (w_fs w1) end).
  set (w' := World fs' (w_next w1) (w_clock w1) (w_log w1)).
  set (sn := Snapshot 0 (Some (sn_id base)) 0 idx rec
    (update_record_bytes (update_index_stats (sn_stats base) (pa_stats p)) (pa_stats p))
    (match pa_log p with None => None | Some _ => Some lp end)).
  assert (Hlp : w_fs w1 !! lp = None).
  { destruct (w_fs w1 !! lp) eqn:Hl; [|done]. apply Hb1 in Hl. cbn in Hl. lia. }
  assert (Hk1 : keeps (w_fs w) (w_fs w1)) by by apply wnew_keeps.
  assert (Hk2 : keeps (w_fs w1) (w_fs w')).
  { intros q f Hq _. unfold w', fs'. cbn. destruct (pa_log p); [|done]. rewrite lookup_insert_ne; [done|]. intros <-. by rewrite Hlp in Hq. }
  assert (Hnext : next_snap (w_fs w') p base 0 0 sn).
  { unfold next_snap, sn, w', fs'. cbn. rewrite Hpm. split; [done|]. split; [done|]. split; [done|]. split; [done|]. split; [done|].
    destruct (pa_log p); [by rewrite lookup_insert|done]. }
  assert (Heff : op_effect E s o (h_branch h) (h_meta h) w w' base sn p w1).
  { constructor; try done; [by exists h| |by exists 0%Z, 0%Z]. by apply get_snapshot_snap_of. }
  destruct (snap_rows_some _ _ _ Hwb) as [old Hold].
  destruct (op_supplied _ _ _ _ _ _ _ _ _ _ _ _ Hs Hb Hok Heff Hold) as (kept&sup&Hkept&Hsup&Hnew).
  assert (Hall : Forall R (kept ++ sup)).
  { apply Forall_app. split; [|by rewrite Hsup]. pose proof (snap_good _ _ _ _ Hold Hgood) as HRo.
    apply Forall_forall. intros r Hr. eapply Forall_forall; [exact HRo|]. by apply Hkept. }
  pose proof (good_snap _ _ _ _ Hnew Hall) as Hg.
  pose proof (op_done_snap _ _ _ _ _ _ _ _ _ _ _ Heff) as Hwsn.
  destruct Hwp as (Hmans&_&_).
  assert (Hsub : ∀ q, q ∈ pa_add_idx p → q ∈ sn_idx sn).
  { intros q Hq. destruct (next_idx p base _ _ _ sn (proj1 Hwb) Hnext) as [-> _]. apply elem_of_app. by right. }
  apply Forall_forall. intros q Hq. assert (Hwq : wf_man s (w_fs w1) q) by (eapply Forall_forall; [exact Hmans|done]).
  eapply man_good_back; [exact Hk2|done|eapply Forall_forall; [exact Hg|by apply Hsub]].
Qed.
Lemma op_adds_good E s o h w p w1 :
  wf_schema s → bounded w → bounded w1 → op_ok s (w_fs w) o → op_out E s o h w (Some p) w1 → wf_patch s (w_fs w1) p → wnew w w1 →
  wf_meta s (w_fs w) (h_meta h) → meta_good s (w_fs w) (h_meta h) →
  Forall R (supplied s (w_fs w) o) → Forall (man_good s (w_fs w1)) (pa_add_idx p).
Proof.
  intros Hs Hb Hb1 Hok Hout Hwp Hw Hm Hgood HR.
  destruct (get_snapshot h None) as [base|e] eqn:Hg.
  - pose proof (proj2 (get_snapshot_snap_of h _ base eq_refl) Hg) as Hsn.
    assert (∃ i, md_snaps (h_meta h) !! i = Some base) as [i Hi].
    { unfold snap_of in Hsn. apply bind_Some in Hsn as (i&_&?). eauto. }
    destruct (wm_snaps _ _ _ Hm i base Hi) as (_&Hwb&_).
    eapply (op_adds_from E s o h w p w1 base); try done. by eapply Hgood.
  - set (h0 := Handle (first_meta s 0) (MShort PEntry) MAIN 0).
    assert (Hout0 : op_out E s o h0 w (Some p) w1).
    { destruct o as [batches|mode data|f|paths|paths index_fn nbytes|n data|n sources|n mode data|f]; try done.
      - destruct Hout as [(_&?&_)|(_&sn&?&?&?&?&?&?&_&Hg'&_)]; [done|]. congruence.
      - destruct Hout as (sn&mf&Hg'&_). congruence.
      - destruct Hout as (Hi&Hh&fo&Hrun). destruct (ray_insert_op_run E fo s n mode data h w Hi Hh) as (w2&r&Hr&_&Hout).
        rewrite Hrun in Hr. injection Hr as <- <-.
        destruct Hout as [(_&?&_)|(_&sn&?&?&?&?&?&?&_&Hg'&_)]; [done|]. congruence.
      - destruct Hout as (Hi&Hh&fo&Hrun). change (op_body E fo (ORayDelete f)) with (ray_delete_body E fo f) in Hrun.
        destruct (ray_delete_body_run E fo s f h w Hi Hh) as (w2&r&Hr&_&Hout).
        rewrite Hrun in Hr. injection Hr as <- <-. destruct Hout as (sn&mf&ps&Hg'&_). congruence. }
    eapply (op_adds_from E s o h0 w p w1 (Snapshot 0 None 0 [] [] stats0 None)); try done.
    + split; [constructor|]. split; [constructor|]. split; [|done]. split; constructor.
    + constructor.
Qed.

(** The invariant. *)
Record good (s : schema) (σ : sys) : Prop := {
  gd_stored : ∀ m, mof σ m → meta_good s (w_fs (y_world σ)) m;
  gd_handles : ∀ hid h, y_handles σ !! hid = Some h → meta_good s (w_fs (y_world σ)) (h_meta h);
  gd_txns : ∀ tid x p, y_txns σ !! tid = Some x → pe_patch x = Some (Some p) → Forall (man_good s (w_fs (y_world σ))) (pa_add_idx p) }.
Lemma with_snap_good s fs m b base sn p i t :
  meta_good s fs m → md_snaps m !! i = Some base → next_snap fs p base (sn_id sn) t sn → Forall (man_good s fs) (pa_add_idx p) →
  meta_good s fs (with_snap m b sn).
Proof.
  intros Hm Hi (_&_&_&Hpm&_) Hp j sn' Hj. cbn in Hj. apply lookup_insert_Some in Hj as [[_ <-]|[_ Hj]]; [|by eapply Hm].
  destruct (patch_manifests_in _ _ _ _ _ Hpm) as (_&Hin&_). apply Forall_forall. intros q [Hq|Hq]%Hin.
  - eapply Forall_forall; [by eapply Hm|done].
  - by eapply Forall_forall.
Qed.
Lemma committed_good s p b h w h' w' m :
  committed s p b h w h' w' → h_meta h = m → keeps (w_fs w) (w_fs w') → wf_meta s (w_fs w) m → meta_good s (w_fs w) m →
  wf_patch s (w_fs w) p → Forall (man_good s (w_fs w)) (pa_add_idx p) →
  ∀ m', stored_meta (w_fs w') = Some m' → meta_good s (w_fs w') m'.
Proof.
  intros [(j&base&sn&u&Hj&Hbase&_&Hnext&_&Hst&_) _ _ _] <- Hk Hm Hg (Hmans&_) Hp m' Hm'.
  rewrite (stored_meta_eq _ _ _ Hst) in Hm'. injection Hm' as <-.
  pose proof Hnext as (Hid&_). rewrite <-Hid in Hnext.
  eapply with_snap_good; [by eapply meta_good_keeps|exact Hbase|exact Hnext|].
  by eapply snaps_good_keeps.
Qed.
Lemma step_stored_good s σ c :
  sinv s σ → env_ok σ c → provides R σ c → good s σ → ∀ m', mof (step σ c) m' → meta_good s (w_fs (y_world (step σ c))) m'.
Proof.
  intros Hs. pose proof (si_world _ _ Hs) as Hi. destruct (sinv_mof s σ Hs) as (m&Hm&Hwm).
  assert (Hkeeps : ∀ c, env_ok σ c → keeps (w_fs (y_world σ)) (w_fs (y_world (step σ c)))).
  { intros c' Hok. destruct (step_sinv s σ c' Hs Hok) as [_ Hg]. eapply gstep_keeps; [apply Hi|by eapply winv_fine|done]. }
  assert (Hsame : good s σ → ∀ c, env_ok σ c → mof (step σ c) m → ∀ m', mof (step σ c) m' → meta_good s (w_fs (y_world (step σ c))) m').
  { intros Hg c' Hok Hm1 m' Hm'. rewrite (mof_fun _ _ _ Hm' Hm1). eapply meta_good_keeps; [by apply Hkeeps|done|]. by apply Hg. }
  assert (Hquiet : good s σ → ∀ c, env_ok σ c → (∀ b, ¬ commits_on σ c b) → (∀ c'' k, c ≠ CCrash c'' k) →
    ∀ m', mof (step σ c) m' → meta_good s (w_fs (y_world (step σ c))) m').
  { intros Hg c' Hok Hnc Hncr m' Hm'. destruct Hm as [p Hp].
    destruct (step_meta s σ c' p m Hs Hok Hp) as (p'&m''&Hp'&Hch).
    assert (m'' = m') as -> by (apply (mof_fun (step σ c')); [by exists p'|done]).
    assert (Hhandle : ∀ hid h refs, y_handles σ !! hid = Some h → meta_good s (w_fs (y_world (step σ c'))) (with_refs (h_meta h) refs)).
    { intros hid h refs Hh i sn Hsn. cbn in Hsn.
      apply (meta_good_keeps s (w_fs (y_world σ)) _ (h_meta h)) with i; [by apply Hkeeps|apply (si_handles _ _ Hs _ _ Hh)|by eapply (gd_handles _ _ Hg)|done]. }
    destruct Hch as [c'|hid h d n r Hh' Hd _ _ _ _|hid h d n r Hh' Hd _|c' b base sn Hc _ _ _ _ _|c'' k m'' _].
    - eapply meta_good_keeps; [by apply Hkeeps|done|]. apply Hg. by exists p.
    - by eapply Hhandle.
    - by eapply Hhandle.
    - by destruct (Hnc b).
    - by destruct (Hncr c'' k). }
  induction c as [hid fs pks recs|hid|hid|hid d|hid E fo o|hid tid|tid E fo o|tid|dt|name f|c IH k];
    intros Hok HR Hg; try (apply Hquiet; [exact Hg|exact Hok|by intros b Hb; cbn in Hb; (exact Hb || done)|done]).
  - (* an operation *)
    destruct (y_handles σ !! hid) as [h|] eqn:Hh.
    2: { apply Hsame; [done|done|]. cbn [step]. unfold with_handle. by rewrite Hh. }
    pose proof (si_handles _ _ Hs _ _ Hh) as Hwf. destruct Hm as [p Hp].
    assert (Hok' : op_ok s (w_fs (y_world σ)) o).
    { rewrite <-(wm_schema _ _ _ (proj1 Hwf)). by apply Hok. }
    assert (HR' : Forall R (supplied s (w_fs (y_world σ)) o)).
    { apply HR. unfold schema_at. rewrite Hh. cbn. by rewrite (wm_schema _ _ _ (proj1 Hwf)). }
    destruct (run_op_run E fo s o h (y_world σ) p m Hi Hwf Hok' Hp Hwm) as (h'&w'&r&Hrun&Ht).
    assert (Hworld : y_world (step σ (CRun hid E fo o)) = w').
    { cbn [step]. unfold with_handle. by rewrite Hh, Hrun. }
    destruct (sync_spec s (y_world σ) p m h Hp Hwm Hwf) as (Hwf0&Hm0&_&Hb0&Hmax0).
    assert (Hst : wnew (y_world σ) w' → mof (step σ (CRun hid E fo o)) m).
    { intros Hw. exists p. rewrite Hworld. by eapply stored_wnew. }
    destruct Ht as [Hn|w' e _ _ Hw|w' _ _ Hw|q w1 w' _ _ Hw|q w1 h' w' Hfn Hw1 Hc];
      try (apply Hsame; [done|done|]; apply Hst; by (done || apply wnew_refl)).
    intros m' Hm'. apply mof_stored in Hm'. rewrite Hworld in *.
    destruct (op_body_run E fo s o (sync p m h) (y_world σ) Hi Hwf0 Hok') as (w1'&r'&Hrun'&Hw1'&Hout).
    rewrite Hfn in Hrun'. injection Hrun' as <- <-. destruct Hout as [Hout Hwp]. cbn in Hwp.
    assert (Hb1 : bounded w1) by (eapply wle_bounded; [apply Hi|done]).
    pose proof (wnew_keeps _ _ (wi_bounded _ _ Hi) Hw1) as Hk1.
    assert (Hg1 : meta_good s (w_fs (y_world σ)) m) by (apply Hg; by exists p).
    eapply (committed_good s q _ _ w1 h' w' m Hc Hm0); try done.
    + eapply wstep_keeps; [done| |apply Hc]. eapply winv_fine. by eapply winv_wnew.
    + by eapply wf_meta_keeps.
    + by eapply meta_good_keeps.
    + eapply (op_adds_good E s o (sync p m h) (y_world σ) q w1); rewrite ?Hm0; try done; apply Hi.
  - (* a commit *)
    destruct (y_txns σ !! tid) as [[hid x [pp|]]|] eqn:Htid;
      try (by apply Hsame; [done|done|]; cbn [step]; rewrite Htid).
    destruct (y_handles σ !! hid) as [h|] eqn:Hh.
    2: { apply Hsame; [done|done|]. cbn [step]. rewrite Htid. unfold with_handle. by rewrite Hh. }
    pose proof (si_handles _ _ Hs _ _ Hh) as Hwf. destruct Hm as [p Hp].
    destruct (sync_spec s (y_world σ) p m h Hp Hwm Hwf) as (Hwf0&Hm0&_&Hb0&Hmax0).
    destruct (txn_commit_run s x pp h (y_world σ) p m Hi Hwf) as (h'&w'&r&Hr&Hc); try done.
    { by eapply (si_txns _ _ Hs). }
    assert (Hworld : y_world (step σ (CCommit tid)) = w').
    { cbn [step]. rewrite Htid. unfold with_handle. by rewrite Hh, (catch_job_run _ _ _ _ Hr). }
    assert (Hst : wnew (y_world σ) w' → mof (step σ (CCommit tid)) m).
    { intros Hw. exists p. rewrite Hworld. by eapply stored_wnew. }
    destruct Hc as [Hn|j Hj Hne|Hj ->|q w' e Hj -> Hw' He|q h' w' Hj -> Hc];
      try (apply Hsame; [done|done|]; apply Hst; by (done || apply wnew_refl)).
    intros m' Hm'. apply mof_stored in Hm'. rewrite Hworld in *.
    eapply (committed_good s q _ _ (y_world σ) h' w' m Hc Hm0); try done.
    + eapply wstep_keeps; [apply Hi|by eapply winv_fine|apply Hc].
    + apply Hg. by exists p.
    + by eapply (si_txns _ _ Hs tid _ (Some q)).
    + by eapply (gd_txns _ _ Hg tid).
  - (* a crash *)
    cbn in Hok, HR. destruct (step_sinv s σ c Hs Hok) as [_ Hgs].
    intros m' Hm'. destruct (gstep_cut k _ _ Hgs) as [Hw|Hw].
    + apply (Hsame Hg (CCrash c k)); [done| |done]. destruct Hm as [q Hq]. exists q. rewrite crash_world. by eapply stored_wnew.
    + rewrite crash_world, Hw. apply IH; [done|done|done|]. destruct Hm' as [q Hq]. exists q. by rewrite crash_world, Hw in Hq.
Qed.
Lemma step_txn_good s σ c :
  sinv s σ → env_ok σ c → provides R σ c → good s σ →
  ∀ tid x p, y_txns (step σ c) !! tid = Some x → pe_patch x = Some (Some p) → Forall (man_good s (w_fs (y_world (step σ c)))) (pa_add_idx p).
Proof.
  intros Hs Hok HR Hg tid x p Hx Hp. destruct (step_sinv s σ c Hs Hok) as [Hs' Hgs].
  pose proof (si_world _ _ Hs) as Hi.
  assert (Hk : keeps (w_fs (y_world σ)) (w_fs (y_world (step σ c)))) by (eapply gstep_keeps; [apply Hi|by eapply winv_fine|done]).
  destruct (step_txns _ _ _ _ Hx) as [Hold|[(hid&y&->&->&_)|(E&fo&o&hid&y&pp&->&Htid&Hres&->)]]; [|done|].
  - eapply snaps_good_keeps; [exact Hk| |by eapply (gd_txns _ _ Hg)].
    pose proof (si_txns _ _ Hs _ _ _ Hold Hp) as (Hmans&_). done.
  - cbn in Hp. injection Hp as ->. destruct (y_handles σ !! hid) as [h|] eqn:Hh.
    2: { unfold result in Hres. unfold with_handle in Hres. rewrite Hh in Hres. done. }
    pose proof (si_handles _ _ Hs _ _ Hh) as Hwf.
    assert (Hok' : op_ok s (w_fs (y_world σ)) o).
    { rewrite <-(wm_schema _ _ _ (proj1 Hwf)). by eapply Hok. }
    assert (HR' : Forall R (supplied s (w_fs (y_world σ)) o)).
    { eapply HR; [exact Htid|]. cbn. unfold schema_at. rewrite Hh. cbn. by rewrite (wm_schema _ _ _ (proj1 Hwf)). }
    destruct (op_body_run E fo s o h (y_world σ) Hi Hwf Hok') as (w'&r&Hrun&Hw&Hout).
    rewrite (result_eq _ _ _ _ Hh), Hrun in Hres. injection Hres as ->. destruct Hout as [Hout Hwp].
    assert (Hworld : y_world (step σ (COp tid E fo o)) = w').
    { cbn [step]. rewrite Htid. unfold with_handle. by rewrite Hh, Hrun. }
    rewrite Hworld. eapply (op_adds_good E s o h (y_world σ) p w'); try done; try apply Hi.
    + eapply wle_bounded; [apply Hi|done].
    + apply Hwf.
    + by eapply (gd_handles _ _ Hg).
Qed.
Lemma step_good s σ c : sinv s σ → env_ok σ c → provides R σ c → good s σ → good s (step σ c).
Proof.
  intros Hs Hok HR Hg. pose proof (step_stored_good s σ c Hs Hok HR Hg) as Hst.
  destruct (step_sinv s σ c Hs Hok) as [Hs' Hgs]. pose proof (si_world _ _ Hs) as Hi.
  assert (Hk : keeps (w_fs (y_world σ)) (w_fs (y_world (step σ c)))) by (eapply gstep_keeps; [apply Hi|by eapply winv_fine|done]).
  destruct (sinv_mof s σ Hs) as (m&Hm&Hwm).
  constructor; [done| |].
  - intros hid h Hh. destruct (step_handle s σ c m hid h Hs Hok Hm Hh) as [(h0&Hh0&<-)|[->|Hm']].
    + eapply meta_good_keeps; [done|apply (si_handles _ _ Hs _ _ Hh0)|by eapply (gd_handles _ _ Hg)].
    + eapply meta_good_keeps; [done|done|by apply Hg].
    + by apply Hst.
  - by apply step_txn_good.
Qed.
Lemma first_good s fs t : meta_good s fs (first_meta s t).
Proof. intros i sn Hi. cbn in Hi. apply lookup_singleton_Some in Hi as [_ <-]. constructor. Qed.
Lemma create_good s σ c : sempty σ → env_ok σ c → sinv s (step σ c) → good s (step σ c).
Proof.
  intros He Hok Hs. constructor.
  - intros m Hm. destruct (create_first σ c He Hok m (mof_stored _ _ Hm)) as (s'&t&->).
    pose proof (wm_schema _ _ _ (sinv_wf _ _ _ Hs Hm)) as Hsc. cbn in Hsc. subst s'. apply first_good.
  - intros hid h Hh. destruct (create_handle σ c hid h He Hh) as (s'&t&Hm).
    pose proof (wm_schema _ _ _ (proj1 (si_handles _ _ Hs _ _ Hh))) as Hsc. rewrite Hm in *. cbn in Hsc. subst s'. apply first_good.
  - intros tid x p Hx Hp. destruct (step_txns _ _ _ _ Hx) as [Hold|[(hid&y&->&->&_)|(E&fo&o&hid&y&pp&->&Htid&Hres&->)]]; [|done|].
    + by rewrite (se_txns _ He), lookup_empty in Hold.
    + by rewrite (se_txns _ He), lookup_empty in Htid.
Qed.
Lemma history_good σ :
  history (fun σ c => env_ok σ c ∧ provides R σ c) init σ → ∀ s, sinv s σ → good s σ.
Proof.
  intros H. remember init as σ0. induction H as [σ0|σ0 σ c H IH [Hok HR]]; subst.
  - intros s Hs. destruct (sinv_mof s init Hs) as (m&[p [Hp _]]&_). done.
  - intros s Hs'. assert (Hr : reachable σ).
    { eapply history_weaken; [|exact H]. by intros ? ? [? _]. }
    destruct (reachable_inv _ Hr) as [He|[s0 Hs]]; [by apply create_good|].
    pose proof (step_sinv s0 σ c Hs Hok) as [Hs0 _].
    assert (s0 = s) as ->.
    { destruct (sinv_mof _ _ Hs0) as (m&Hm&Hwm). pose proof (sinv_wf _ _ _ Hs' Hm) as Hw'.
      by rewrite <-(wm_schema _ _ _ Hw'), <-(wm_schema _ _ _ Hwm). }
    apply step_good; auto.
Qed.
Lemma rows_provided σ hid v rows :
  history (fun σ c => env_ok σ c ∧ provides R σ c) init σ → reads σ hid v rows → Forall R rows.
Proof.
  intros H Hrd. assert (Hr : reachable σ).
  { eapply history_weaken; [|exact H]. by intros ? ? [? _]. }
  destruct (reads_handle _ _ _ _ Hrd) as [h Hh].
  destruct (reachable_seen _ _ _ Hr Hh) as (s&p&m&Hseen).
  apply (reads_iff _ _ _ _ _ _ _ _ Hseen) in Hrd as (sn&Hsn&Hrows).
  pose proof Hseen as [Hs _ _ Hst _ _].
  assert (∃ i, md_snaps m !! i = Some sn) as [i Hi].
  { unfold snap_of in Hsn. destruct v as [v|].
    - destruct v; cbn in Hsn; repeat (match goal with H : context [match ?x with _ => _ end] |- _ => destruct x eqn:? | H : _ ≫= _ = Some _ |- _ => apply bind_Some in H as (?&?&?) end); eauto.
    - apply bind_Some in Hsn as (i&_&?). eauto. }
  eapply snap_good; [exact Hrows|]. eapply (gd_stored _ _ (history_good σ H s Hs)); [by exists p|done].
Qed.
End provenance.
