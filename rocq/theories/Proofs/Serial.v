(** Transactions interleaved with other calls. *)
From Verif.Model Require Import System.
From Verif.Spec Require Import Logical Api Layout Keys Durable Evolution Serial.
From Verif.Proofs Require Import Lib World Resolve AppendSpec SchemaFacts ReadSpec Wf OpSpec Inv FileSet Ops Bodies Txn
  SchemaLaws SysInv ReadRun Effects Observe View DeleteEffect Mutations Calls Reads Adds Isolation Durable Merge Evolve History.
From Verif.Proofs Require Import Shards RayAppend RayInsert RayDelete RayEffects NewPaths Fits.
From Verif.Spec Require Import Durable Evolution Serial.

(** * Effects of operations *)
Lemma op_effect_rows E s o b m w w' base sn p w1 before :
  wf_schema s → bounded w → op_ok s (w_fs w) o → op_effect E s o b m w w' base sn p w1 →
  snap_rows s (w_fs w) base before →
  ∃ rows, snap_rows s (w_fs w') sn rows ∧ effect s (w_fs w) (snap_layout (w_fs w) base) o before rows.
Proof.
  intros Hs Hb Hok He Hbefore. pose proof (op_done_snap _ _ _ _ _ _ _ _ _ _ _ He) as Hwsn.
  destruct (snap_rows_some _ _ _ Hwsn) as [rows Hrows]. exists rows. split; [done|].
  assert (Heq : ∀ rows', snap_rows s (w_fs w') sn rows' → rows = rows').
  { intros rows' Hr. by eapply snap_rows_fun. }
  destruct o as [batches|[] data|e|paths|paths index_fn nbytes|n data|n sources|n [] data|e]; cbn [effect].
  - destruct (append_effect _ _ _ _ _ _ _ _ _ _ _ _ Hs He Hbefore) as (input&Hin&Hsn).
    by rewrite (Heq _ Hsn), (tsel_columns _ _ _ Hin).
  - intros Hpk Hpr Hnn.
    destruct (insert_effect _ _ _ _ _ _ _ _ _ _ _ _ Hs Hpk He Hbefore Hnn Hpr) as (input&Hin&Hsn&Hnd&Hdis).
    split_and!; try done. by rewrite (Heq _ Hsn), (tsel_columns _ _ _ Hin).
  - intros Hpk Hpr Hnn.
    destruct (upsert_effect _ _ _ _ _ _ _ _ _ _ _ _ Hs Hb Hpk He Hbefore Hnn Hpr) as (input&new&lost&Hin&Hsn&Hnd&Hp&Hl).
    split; [done|]. exists new, lost. by rewrite (Heq _ Hsn), (tsel_columns _ _ _ Hin).
  - split.
    + destruct (delete_effect_sub _ _ _ _ _ _ _ _ _ _ _ _ He Hbefore) as (new&Hsn&Hsub).
      rewrite (Heq _ Hsn). intros r Hr. by eapply elem_of_submseteq.
    + intros Hsf Hnn Hdec.
      destruct (delete_effect _ _ _ _ _ _ _ _ _ _ _ _ Hs He Hbefore Hsf Hnn Hdec) as (new&lost&Hsn&Hp&Hl).
      exists lost. by rewrite (Heq _ Hsn).
  - destruct (parquet_effect _ _ _ _ _ _ _ _ _ _ _ _ Hs He Hok Hbefore) as (input&Hin&Hsn).
    by rewrite (Heq _ Hsn), (tsel_columns _ _ _ Hin).
  - destruct (array_record_effect _ _ _ _ _ _ _ _ _ _ _ _ _ _ Hs He Hbefore) as (f&fid&input&Hf&_&Hin&Hsn).
    exists f. split; [eauto|]. rewrite (Heq _ Hsn), (tsel_columns _ _ _ Hin). f_equal.
    change (columns (out_names s)) with (show s). f_equal.
    clear. induction paths as [|q paths IH]; [done|]. rewrite !bind_cons, fmap_app, IH, loaded_rows_spec. done.
  - destruct (ray_append_effect _ _ _ _ _ _ _ _ _ _ _ _ _ Hs Hb He Hbefore) as (input&Hin&_&Hsn).
    exists (written_by n data). split; [by apply written_by_perm|]. by rewrite (Heq _ Hsn), (tsel_columns _ _ _ Hin).
  - destruct (ray_append_from_effect _ _ _ _ _ _ _ _ _ _ _ _ _ Hs Hb He Hbefore) as (input&Hin&_&Hsn).
    eexists. split; [apply (sources_perm n sources); exact Hok|]. by rewrite (Heq _ Hsn), (tsel_columns _ _ _ Hin).
  - intros Hpk Hpr Hnn.
    destruct (ray_insert_effect _ _ _ _ _ _ _ _ _ _ _ _ _ Hs Hpk He Hbefore Hnn Hpr) as (input&Hin&Hsn&Hnd&Hdis).
    split_and!; try done. exists (written_by n data). split; [by apply written_by_perm|].
    by rewrite (Heq _ Hsn), (tsel_columns _ _ _ Hin).
  - intros Hpk Hpr Hnn.
    destruct (ray_upsert_effect _ _ _ _ _ _ _ _ _ _ _ _ _ Hs Hb Hpk Hok He Hbefore Hnn Hpr) as (input&new&lost&Hin&Hsn&Hnd&Hp&Hl).
    split; [done|]. exists new, lost, (written_by n data). split; [by apply written_by_perm|].
    by rewrite (Heq _ Hsn), (tsel_columns _ _ _ Hin).
  - split.
    + destruct (ray_delete_sub _ _ _ _ _ _ _ _ _ _ _ _ He Hbefore) as (new&Hsn&Hsub). by rewrite (Heq _ Hsn).
    + intros Hsf Hnn Hdec Hsep.
      destruct (ray_delete_effect _ _ _ _ _ _ _ _ _ _ _ _ He Hbefore Hsf Hnn Hdec Hsep) as (new&Hsn&Hp).
      by rewrite (Heq _ Hsn).
Qed.

(** * Patches fit the snapshot they were made for *)
Lemma op_out_fits E s o h w p w' base :
  wf_schema s → bounded w → get_snapshot h None = Ok base → op_out E s o h w (Some p) w' → fits (w_next w) base p.
Proof.
  intros Hs Hb Hbase Hout. destruct o as [batches|mode data|e|paths|paths index_fn nbytes|n data|n sources|n mode data|e]; cbn [op_out] in Hout.
  - destruct Hout as (rows&_&Hp). by eapply patch_adds_fits.
  - destruct Hout as [(_&?&_)|(_&sn&e&mf&w1&dop&rows&aop&_&Hsn&_&Hmode&Hw'&_&Haop&Hp)]; [done|].
    rewrite Hbase in Hsn. injection Hsn as <-. cbn zeta in *.
    assert (Hw1 : (w_next w ≤ w_next w1)%N).
    { destruct mode; [by destruct Hmode as [-> _]|]. destruct Hmode as [Hw1 _]. apply Hw1. }
    assert (Ha : ∀ pa, aop = Some pa → fits (w_next w1) base pa).
    { intros pa ->. by eapply patch_adds_fits. }
    assert (Hsingle : Some p = merge_patches [aop] → fits (w_next w) base p).
    { intros Hm. destruct aop as [pa|]; [|done]. destruct (merge_single pa) as (q&Hq&H1&H2&H3).
      rewrite Hq in Hm. injection Hm as ->. apply (fits_wider _ (w_next w1)); [done|].
      destruct (Ha pa eq_refl). constructor; rewrite ?H1, ?H2, ?H3; done. }
    destruct mode; [by apply Hsingle|].
    destruct (fset_files (fset_at (w_fs w) mf (sn_idx base))) as [|df dfs] eqn:Hfs; [by apply Hsingle|].
    destruct Hmode as [Hww [(?&_)|[_ Hdel]]]; [done|].
    destruct dop as [pd|]; [|by apply Hsingle].
    apply delete_out_fits in Hdel as (Hfd&Hbd&Hrd).
    destruct aop as [pa|].
    + cbn in Hp. injection Hp as ->. specialize (Ha pa eq_refl).
      pose proof (fits_wider _ _ _ _ Hw1 Ha) as Ha'. pose proof (ft_idx _ _ _ Ha) as Hnb. destruct Hfd, Ha', Ha. constructor; cbn; rewrite ?Hrd; cbn.
      * intros q [?|?]%elem_of_app; auto.
      * auto.
      * apply NoDup_app. split_and!; try done. intros q Hq Hq'. exact (Hnb q Hq' (Hbd q Hq)).
      * done.
      * intros q [?|?]%elem_of_app; auto.
    + cbn in Hp. injection Hp as ->. destruct Hfd. constructor; cbn; done.
  - destruct Hout as (sn&mf&Hsn&_&Hd). rewrite Hbase in Hsn. injection Hsn as <-. by apply delete_out_fits in Hd as [? _].
  - destruct Hout as (_&p'&ms&[= <-]&_&_&Hadd&Hrec&Hdel&_). constructor; rewrite ?Hrec, ?Hdel.
    + intros q. destruct ms; [rewrite Hadd; by intros ?%elem_of_nil|]. destruct Hadd as (u&->&?&_).
      intros ->%elem_of_list_singleton. by apply not_below.
    + by intros q ?%elem_of_nil.
    + destruct ms; [rewrite Hadd; constructor|]. destruct Hadd as (u&->&?&_). apply NoDup_singleton.
    + constructor.
    + by intros q ?%elem_of_nil.
  - destruct Hout as (f&fid&rows&_&_&_&p0&total&Hp&->). apply (patch_adds_fits s _ w' p0 rows base) in Hp.
    destruct Hp. by constructor.
  - destruct Hout as [fo Hrun]. destruct (ray_append_new _ _ _ _ _ _ _ _ Hb Hrun) as (?&?&?). by eapply new_fits.
  - destruct Hout as [fo Hrun]. destruct (ray_append_new _ _ _ _ _ _ _ _ Hb Hrun) as (?&?&?). by eapply new_fits.
  - destruct Hout as (Hi&Hh&fo&Hrun). destruct (ray_insert_op_run E fo s n mode data h w Hi Hh) as (w2&r&Hr&_&Ho).
    rewrite Hrun in Hr. injection Hr as <- <-. by eapply ray_insert_fits.
  - destruct Hout as (Hi&Hh&fo&Hrun). by eapply ray_delete_fits.
Qed.

(** * The outcome of an uninterrupted operation *)
Lemma is_branch_head s fs m b :
  wf_meta s fs m → is_branch m b →
  ∃ base, branch_at m b (sn_id base) ∧ md_snaps m !! sn_id base = Some base ∧ snap_of m b None = Some base ∧ wf_snap s fs base.
Proof.
  intros Hm Hb.
  assert (∃ i, branch_at m b i) as [i Hi].
  { destruct Hb as [->|(r&Hr&Hk)]; [by exists (md_current m)|].
    destruct (wm_refs _ _ _ Hm _ _ Hr) as (_&_&Hne). exists (rf_id r). split; [|eauto].
    unfold head_of. by rewrite decide_False, Hr. }
  destruct (head_of_some _ _ _ _ _ Hm (proj1 Hi)) as [base Hbase].
  destruct (wm_snaps _ _ _ Hm _ _ Hbase) as (Hid&Hw&_). exists base. rewrite Hid. split_and!; try done.
  unfold snap_of. cbn. by rewrite (proj1 Hi).
Qed.
Lemma branch_at_is m b i : branch_at m b i → is_branch m b.
Proof. intros [_ Hk]. destruct (decide (b = MAIN)) as [->|Hne]; [by left|right; by apply Hk]. Qed.
Lemma snap_of_head m b i base : head_of m b = Some i → md_snaps m !! i = Some base → snap_of m b None = Some base.
Proof. intros Hi Hb. unfold snap_of. cbn. by rewrite Hi. Qed.
Lemma run_op_outcome s σ hid h q m E fo o :
  seen s σ hid h q m → op_ok s (w_fs (y_world σ)) o → is_branch m (h_branch h) →
  ∃ w1 r, op_body E fo o (sync q m h, y_world σ) = ((sync q m h, w1), r)
    ∧ result σ hid (run_op E fo o) = Some (match r with
        | Ok (Some p) => Ok (JSucceeded (pa_stats p)) | Ok None => Ok JSkipped | Err e => catch (Err e) end).
Proof.
  intros [Hs Hh Hwf Hst Hm _] Hok Hbr. pose proof (si_world _ _ Hs) as Hi.
  destruct (sync_spec s (y_world σ) q m h Hst Hm Hwf) as (Hwf0&Hm0&_&Hb0&Hmax0).
  destruct (is_branch_head _ _ _ _ Hm Hbr) as (base&[Hhead Hkind]&Hbs&Hsn&Hwb).
  destruct (op_body_run E fo s o (sync q m h) (y_world σ) Hi Hwf0 Hok) as (w1&r&Hbody&Hw1&Hout).
  exists w1, r. split; [done|]. rewrite (result_eq _ _ _ _ Hh).
  destruct (run_op_run E fo s o h (y_world σ) q m Hi Hwf Hok Hst Hm) as (h'&w'&r'&Hrun&Ht). rewrite Hrun. cbn. f_equal.
  destruct Ht as [Hn|w' e Hhd Hb Hw|w' Hhd Hb Hw|p w1' w' Hb Hw1' Hw Hnr|p w1' h' w' Hb Hw1' Hc].
  - rewrite Hb0 in Hn. congruence.
  - rewrite Hbody in Hb. injection Hb as <- ->. done.
  - rewrite Hbody in Hb. injection Hb as <- ->. done.
  - exfalso. rewrite Hbody in Hb. injection Hb as <- ->. destruct Hout as [Hout _]. apply Hnr. rewrite Hb0.
    assert (Hfit : fits (w_next (y_world σ)) base p).
    { eapply op_out_fits; [apply Hi|apply Hi| |exact Hout].
      apply (get_snapshot_snap_of _ m); [done|]. by rewrite Hb0. }
    destruct (fits_manifests s (y_world σ) base p (wi_bounded _ _ Hi) Hwb Hfit) as (idx&rec&Hpm).
    by exists (sn_id base), base, idx, rec.
  - rewrite Hbody in Hb. by injection Hb as <- ->.
Qed.

(** * Interleaved transactions *)
Lemma history_trans ok σ0 σ σ' : history ok σ0 σ → history ok σ σ' → history ok σ0 σ'.
Proof. intros H0. induction 1 as [|σ σ' c _ IH ?]; [done|]. constructor; auto. Qed.
Lemma history_weaken (ok ok' : sys → call → Prop) σ σ' : (∀ σ c, ok σ c → ok' σ c) → history ok σ σ' → history ok' σ σ'.
Proof. intros Hw. induction 1 as [|σ σ' c _ IH ?]; [constructor|]. constructor; auto. Qed.
Lemma keeping_fresh b ok σ σ' : keeping b ok σ σ' → fresh_history (fun c => ¬ removes_branch b c) σ σ'.
Proof. apply history_weaken. naive_solver. Qed.
(** The metadata a handle holds was stored at some time. *)
Lemma with_handle_handle {A} σ hid0 (mm : H A) hid h' :
  y_handles (with_handle σ hid0 mm).1 !! hid = Some h' →
  (∃ h, y_handles σ !! hid = Some h ∧ h_meta h = h_meta h')
  ∨ ∃ h w' r, y_handles σ !! hid = Some h ∧ y_handles σ !! hid0 = Some h ∧ mm (h, y_world σ) = ((h', w'), r) ∧ y_world (with_handle σ hid0 mm).1 = w'.
Proof.
  unfold with_handle. destruct (y_handles σ !! hid0) as [h|] eqn:Hh; [|eauto].
  destruct (mm (h, y_world σ)) as [[h1 w1] r] eqn:Hm. cbn. intros [[<- <-]|[_ ?]]%lookup_insert_Some; [|eauto].
  right. eauto 10.
Qed.
Lemma step_handle s σ c m hid h' :
  sinv s σ → env_ok σ c → mof σ m → y_handles (step σ c) !! hid = Some h' →
  (∃ h, y_handles σ !! hid = Some h ∧ h_meta h = h_meta h') ∨ h_meta h' = m ∨ mof (step σ c) (h_meta h').
Proof.
  intros Hs Hok [p Hst] Hl. pose proof (si_world _ _ Hs) as Hi.
  assert (Hm : wf_meta s (w_fs (y_world σ)) m).
  { destruct (wi_stored _ _ Hi) as (q&m'&Hst'&Hm). by destruct (stored_fun _ _ _ _ _ Hst Hst') as [_ <-]. }
  destruct c as [hid0 fs pks recs|hid0|hid0|hid0 d|hid0 E fo o|hid0 tid|tid E fo o|tid|dt|name f|c k]; cbn [step env_ok] in *.
  - destruct (create_run fs pks recs (y_world σ) (wi_bounded _ _ Hi)) as (w'&r&Hr&Hc). rewrite Hr in *.
    destruct Hc as [e _|e _ _|w' ns _ _ _ Hw|w' ns u _ _ He]; cbn in *; eauto.
    exfalso. destruct Hst. congruence.
  - rewrite (load_run p m) in * by done. cbn in *. apply lookup_insert_Some in Hl as [[<- <-]|[_ ?]]; [|eauto]. eauto.
  - apply with_handle_handle in Hl as [?|(h&w'&r&Hh&Hh0&Hr&_)]; [eauto|]. rewrite (reload_run p m) in Hr by done.
    injection Hr as <- _ _. destruct (sync_spec s (y_world σ) p m h Hst Hm (si_handles _ _ Hs _ _ Hh)) as (_&Hm0&_). eauto.
  - apply with_handle_handle in Hl as [?|(h&w'&r&Hh&Hh0&Hr&Hw')]; [eauto|]. pose proof (si_handles _ _ Hs _ _ Hh) as Hwf.
    assert (Hadd : ∀ n k sid, add_reference n k sid (h, y_world σ) = ((h', w'), r) →
      h' = h ∨ mof (with_handle σ hid0 (run_edit d)).1 (h_meta h')).
    { intros n k sid Hr'. destruct (add_reference_run s h (y_world σ) n k sid Hi Hwf) as [(e&He&_)|(_&_&_&_&u&w''&He&_&_&Hst'&_)];
        rewrite He in Hr'; injection Hr' as <- <- <-; [by left|right]. eexists. rewrite Hw'. exact Hst'. }
    assert (Hrem : ∀ n k, remove_reference n k (h, y_world σ) = ((h', w'), r) →
      h' = h ∨ mof (with_handle σ hid0 (run_edit d)).1 (h_meta h')).
    { intros n k Hr'. destruct (remove_reference_run s h (y_world σ) n k Hi Hwf) as [(e&He&_)|(r'&_&_&u&w''&He&_&_&Hst'&_)];
        rewrite He in Hr'; injection Hr' as <- <- <-; [by left|right]. eexists. rewrite Hw'. exact Hst'. }
    assert (Hfin : h_meta h' = h_meta h ∨ mof (with_handle σ hid0 (run_edit d)).1 (h_meta h')).
    { destruct d as [b|n sid|n|n|n]; cbn [run_edit] in *.
      - left. unfold set_current_branch in Hr. rewrite get_handle_bind, lift_bind in Hr.
        destruct (if decide _ then _ else _); cbn in Hr; by injection Hr as <- _ _.
      - destruct (Hadd _ _ _ Hr) as [->|?]; eauto.
      - destruct (Hadd _ _ _ Hr) as [->|?]; eauto.
      - destruct (Hrem _ _ Hr) as [->|?]; eauto.
      - unfold remove_branch in Hr. rewrite get_handle_bind in Hr. case_decide; [injection Hr as <- _ _; by left|].
        destruct (Hrem _ _ Hr) as [->|?]; eauto. }
    destruct Hfin as [Hfin|Hfin]; [left; eauto|by right; right].
  - apply with_handle_handle in Hl as [?|(h&w'&r&Hh&Hh0&Hr&Hw')]; [eauto|]. pose proof (si_handles _ _ Hs _ _ Hh) as Hwf.
    assert (Hok' : op_ok s (w_fs (y_world σ)) o).
    { rewrite <-(wm_schema _ _ _ (proj1 Hwf)). by apply Hok. }
    destruct (run_op_run E fo s o h (y_world σ) p m Hi Hwf Hok' Hst Hm) as (h1&w1&r1&Hr1&Ht).
    rewrite Hr in Hr1. injection Hr1 as <- <- <-.
    destruct (sync_spec s (y_world σ) p m h Hst Hm Hwf) as (_&Hm0&_).
    destruct Ht as [Hn|w2 e _ _ Hw|w2 _ _ Hw|q w1 w2 _ _ Hw|q w1 h1 w2 _ _ Hc]; auto.
    right. right. destruct Hc as [(j&base&sn&u&_&_&_&_&->&Hsto&_) _ _ _]. eexists. rewrite Hw'. exact Hsto.
  - destruct (with_handle σ hid0 txn_begin) as [σ' rr] eqn:Hwh.
    assert (Hl' : y_handles (with_handle σ hid0 txn_begin).1 !! hid = Some h').
    { rewrite Hwh. by destruct rr as [[]|]. }
    apply with_handle_handle in Hl' as [?|(h&w'&r&Hh&Hh0&Hr&_)]; [eauto|]. right. left.
    destruct (sync_spec s (y_world σ) p m h Hst Hm (si_handles _ _ Hs _ _ Hh)) as (_&Hm0&_).
    rewrite (txn_begin_run p m) in Hr by done. by injection Hr as <- _ _.
  - destruct (y_txns σ !! tid) as [[hid0 x [pp|]]|] eqn:Htid; eauto.
    destruct (with_handle σ hid0 (op_body E fo o)) as [σ' rr] eqn:Hwh.
    assert (Hl' : y_handles (with_handle σ hid0 (op_body E fo o)).1 !! hid = Some h').
    { rewrite Hwh. by destruct rr as [[]|]. }
    unfold with_handle in Hl'. destruct (y_handles σ !! hid0) as [h0|] eqn:Hh0; [|eauto].
    pose proof (si_handles _ _ Hs _ _ Hh0) as Hwf.
    assert (Hok' : op_ok s (w_fs (y_world σ)) o).
    { rewrite <-(wm_schema _ _ _ (proj1 Hwf)). by eapply Hok. }
    destruct (op_body_run E fo s o h0 (y_world σ) Hi Hwf Hok') as (w'&r&Hr&_). rewrite Hr in Hl'. cbn in Hl'.
    apply lookup_insert_Some in Hl' as [[<- <-]|[_ ?]]; eauto.
  - destruct (y_txns σ !! tid) as [[hid0 x [pp|]]|] eqn:Htid; eauto. cbn [y_handles] in Hl.
    apply with_handle_handle in Hl as [?|(h&w'&r&Hh&Hh0&Hr&Hw')]; [eauto|]. pose proof (si_handles _ _ Hs _ _ Hh) as Hwf.
    destruct (sync_spec s (y_world σ) p m h Hst Hm Hwf) as (_&Hm0&_).
    destruct (txn_commit_run s x pp h (y_world σ) p m Hi Hwf) as (h1&w1&r1&Hr1&Hc); try done.
    { by eapply (si_txns _ _ Hs). }
    apply catch_job_run in Hr1. rewrite Hr in Hr1. injection Hr1 as <- <- _.
    destruct Hc as [Hn|j Hj Hne|Hj ->|q w2 e Hj -> _ He|q h2 w2 Hj -> Hc]; auto.
    right. right. cbn. destruct Hc as [(j&base&sn&u&_&_&_&_&->&Hsto&_) _ _ _]. eexists. cbn. rewrite Hw'. exact Hsto.
  - eauto.
  - destruct (w_fs (y_world σ) !! PExt name); [eauto|]. destruct f; eauto.
  - eauto.
Qed.
Lemma handle_meta s b σ σ' hid h' :
  sinv s σ → fresh_history (fun c => ¬ removes_branch b c) σ σ' → y_handles σ' !! hid = Some h' →
  (∃ h, y_handles σ !! hid = Some h ∧ h_meta h = h_meta h')
  ∨ ∃ σm, fresh_history (fun c => ¬ removes_branch b c) σ σm ∧ fresh_history (fun c => ¬ removes_branch b c) σm σ'
      ∧ mof σm (h_meta h').
Proof.
  intros Hs Hh. revert h'. induction Hh as [|σ σ' c Hh IH Hc]; intros h' Hl; [by eauto|].
  destruct (history_sinv s σ σ' Hs (fresh_history_ok _ _ _ Hh)) as [Hs1 _].
  destruct (sinv_mof _ _ Hs1) as (m1&Hm1&_).
  assert (Hone : fresh_history (fun c => ¬ removes_branch b c) σ' (step σ' c)) by (apply HistStep; [constructor|done]).
  destruct (step_handle s σ' c m1 hid h' Hs1 (proj1 Hc) Hm1 Hl) as [(h&Hh1&Heq)|[Heq|Hm]].
  - destruct (IH Hs h Hh1) as [(h0&Hh0&He0)|(σm&H1&H2&H3)]; [left; exists h0; split; [done|congruence]|].
    right. exists σm. split; [done|]. split; [by eapply history_trans|]. by rewrite <-Heq.
  - right. exists σ'. rewrite Heq. done.
  - right. exists (step σ' c). split; [by constructor|]. split; [constructor|done].
Qed.

Record ran (s : schema) (hid : nat) (x : txn) (E : env) (o : op) (p : option patch) (σ0 σ : sys) (m0 : metadata)
    (h1 h2 : handle) (w2 w3 : world) : Prop := {
  ra_stored : mof σ0 m0;
  ra_inv0 : sinv s σ0;
  ra_snap : branch_at m0 (x_branch x) (x_snap x);
  ra_hist : fresh_history (fun c => ¬ removes_branch (x_branch x) c) σ0 σ;
  ra_inv : sinv s σ;
  ra_handle : h_branch h1 = x_branch x ∧ h_branch h2 = x_branch x;
  ra_seen : ∃ σm, fresh_history (fun c => ¬ removes_branch (x_branch x) c) σ0 σm
              ∧ fresh_history (fun c => ¬ removes_branch (x_branch x) c) σm σ ∧ mof σm (h_meta h1);
  ra_hid : y_handles σ !! hid = Some h2;
  ra_w2 : winv s w2;
  ra_wf : wf_meta s (w_fs w2) (h_meta h1);
  ra_out : op_out E s o h1 w2 p w3;
  ra_opatch : wf_opatch s (w_fs w3) p;
  ra_new : wnew w2 w3;
  ra_ok : op_ok s (w_fs w2) o;
  ra_keeps : keeps (w_fs w3) (w_fs (y_world σ)) }.
Lemma running_ran_at ok hid tid x E fo o p σ0 σ1 σ :
  reachable σ0 → result σ0 hid txn_begin = Some (Ok x) →
  (∀ m, stored_meta (w_fs (y_world σ0)) = Some m → is_branch m (x_branch x)) →
  keeping (x_branch x) ok (step σ0 (CBegin hid tid)) σ1
    ∧ y_txns σ1 !! tid = Some (Pending hid x None) ∧ on_branch σ1 hid (x_branch x)
    ∧ env_ok σ1 (COp tid E fo o) ∧ result σ1 hid (op_body E fo o) = Some (Ok p)
    ∧ keeping (x_branch x) ok (step σ1 (COp tid E fo o)) σ
    ∧ y_txns σ !! tid = Some (Pending hid x (Some p)) ∧ on_branch σ hid (x_branch x) →
  ∃ s m0 h1 h2 w3, y_handles σ1 !! hid = Some h1 ∧ ran s hid x E o p σ0 σ m0 h1 h2 (y_world σ1) w3.
Proof.
  intros Hr Hbeg Hbr (Hh1&Htx1&(h1&Hhd1&Hb1)&Hok&Hop&Hh2&Htx2&(h2&Hhd2&Hb2)). apply keeping_fresh in Hh1, Hh2.
  destruct (result_handle _ _ _ _ Hbeg) as [h Hh]. destruct (reachable_seen _ _ _ Hr Hh) as (s&q&m0&Hseen).
  pose proof Hseen as [Hs _ Hwf Hst Hm _].
  destruct (sync_spec s (y_world σ0) q m0 h Hst Hm Hwf) as (Hwf0&Hm0&_&Hb0&_).
  pose proof (txn_begin_run q m0 h (y_world σ0) Hst Hm0) as Hrun.
  rewrite (result_eq _ _ _ _ Hh), Hrun in Hbeg. cbn in Hbeg.
  specialize (Hbr m0 (stored_meta_eq _ _ _ Hst)).
  destruct (head_of m0 (h_branch h)) as [i|] eqn:Hi; [|done]. injection Hbeg as <-. cbn [x_branch x_snap] in *.
  assert (Hstep1 : step σ0 (CBegin hid tid)
    = Sys (y_world σ0) (<[hid := sync q m0 h]> (y_handles σ0)) (<[tid := Pending hid (Txn (h_branch h) i) None]> (y_txns σ0))).
  { cbn [step]. unfold with_handle. by rewrite Hh, Hrun. }
  assert (Hf1 : fresh_history (fun c => ¬ removes_branch (h_branch h) c) σ0 (step σ0 (CBegin hid tid))).
  { apply HistStep; [constructor|]. split_and!; [exact I|exact I|intros []]. }
  pose proof (history_trans _ _ _ _ Hf1 Hh1) as Hf2.
  destruct (history_sinv s σ0 σ1 Hs (fresh_history_ok _ _ _ Hf2)) as [Hs1 Hk1].
  destruct (history_sinv s σ0 _ Hs (fresh_history_ok _ _ _ Hf1)) as [Hsb _].
  pose proof (si_world _ _ Hs1) as Hi1. pose proof (si_handles _ _ Hs1 _ _ Hhd1) as Hwf1.
  assert (Hok1 : op_ok s (w_fs (y_world σ1)) o).
  { rewrite <-(wm_schema _ _ _ (proj1 Hwf1)). by eapply Hok. }
  destruct (op_body_run E fo s o h1 (y_world σ1) Hi1 Hwf1 Hok1) as (w3&r&Hbody&Hw3&Hout).
  rewrite (result_eq _ _ _ _ Hhd1), Hbody in Hop. cbn in Hop. injection Hop as ->. destruct Hout as [Hout Hopt].
  assert (Hstep2 : y_world (step σ1 (COp tid E fo o)) = w3).
  { cbn [step]. rewrite Htx1. unfold with_handle. by rewrite Hhd1, Hbody. }
  assert (Hf3 : fresh_history (fun c => ¬ removes_branch (h_branch h) c) σ1 (step σ1 (COp tid E fo o))).
  { apply HistStep; [constructor|]. split_and!; [done|exact I|intros []]. }
  pose proof (history_trans _ _ _ _ Hf3 Hh2) as Hf4. pose proof (history_trans _ _ _ _ Hf2 Hf4) as Hf5.
  destruct (history_sinv s σ0 σ Hs (fresh_history_ok _ _ _ Hf5)) as [Hs4 _].
  destruct (history_sinv s σ1 _ Hs1 (fresh_history_ok _ _ _ Hf3)) as [Hs3 _].
  destruct (history_sinv s _ σ Hs3 (fresh_history_ok _ _ _ Hh2)) as [_ Hk4]. rewrite Hstep2 in Hk4.
  destruct (is_branch_head _ _ _ _ Hm Hbr) as (base&[Hbh Hbk]&_).
  exists s, m0, h1, h2, w3. split; [done|]. constructor; try done.
  - by exists q.
  - destruct (handle_meta s _ _ _ _ _ Hsb Hh1 Hhd1) as [(h0&Hh0&He0)|(σm&H1&H2&H3)].
    + exists σ0. split; [constructor|]. split; [done|]. rewrite Hstep1 in Hh0. cbn in Hh0. rewrite lookup_insert in Hh0.
      injection Hh0 as <-. rewrite <-He0, Hm0. by exists q.
    + exists σm. split; [exact (history_trans _ _ _ _ Hf1 H1)|]. split; [exact (history_trans _ _ _ _ H2 Hf4)|done].
  - apply Hwf1.
Qed.
Lemma running_ran ok hid tid x E fo o p σ0 σ :
  reachable σ0 → running ok hid tid x E fo o p σ0 σ → ∃ s m0 h1 h2 w2 w3, ran s hid x E o p σ0 σ m0 h1 h2 w2 w3.
Proof.
  intros Hr [Hbeg Hbr (σ1&Hrest)].
  destruct (running_ran_at _ _ _ _ _ _ _ _ _ _ _ Hr Hbeg Hbr Hrest) as (s&m0&h1&h2&w3&_&Hran). eauto 7.
Qed.
(** A branch only grows, and its snapshots stay. *)
Lemma base_stays s σ σ' b m m' i :
  sinv s σ → fresh_history (fun c => ¬ removes_branch b c) σ σ' → mof σ m → mof σ' m' → branch_at m b i →
  ∃ j, branch_at m' b j ∧ (i ≤ j)%Z ∧ md_snaps m' !! i = md_snaps m !! i.
Proof.
  intros Hs Hh Hm Hm'. pose proof (fresh_history_ind s σ (fun c => ¬ removes_branch b c)
    (fun m m' => ∀ i, branch_at m b i → ∃ j, branch_at m' b j ∧ (i ≤ j)%Z ∧ md_snaps m' !! i = md_snaps m !! i) Hs) as Hind.
  refine (Hind _ _ σ' Hh m m' Hm Hm' i).
  - intros m1 k Hk. exists k. split_and!; [done|lia|done].
  - intros c m1 m2 m3 Hc IH Hch k Hk. destruct (IH k Hk) as (j&Hj&Hij&Hsn).
    destruct (fresh_branch c m2 m3 _ j Hch Hc Hj) as (l&Hl&Hjl). exists l. split_and!; [done|lia|].
    rewrite <-Hsn. eapply fresh_snaps; [done|]. pose proof (head_of_max _ _ _ (proj1 Hj)). lia.
Qed.
(** If the head is where it was when the transaction began, its operation saw
    this head, too. *)
Lemma ran_base s hid x E o p σ0 σ m0 h1 h2 w2 w3 m :
  ran s hid x E o p σ0 σ m0 h1 h2 w2 w3 → mof σ m → head_of m (x_branch x) = Some (x_snap x) →
  branch_at (h_meta h1) (x_branch x) (x_snap x) ∧ md_snaps m !! x_snap x = md_snaps (h_meta h1) !! x_snap x
  ∧ branch_at m (x_branch x) (x_snap x).
Proof.
  intros Hr Hm Hhd. destruct (ra_seen _ _ _ _ _ _ _ _ _ _ _ _ _ Hr) as (σm&H1&H2&H3).
  pose proof (ra_inv0 _ _ _ _ _ _ _ _ _ _ _ _ _ Hr) as Hs0.
  destruct (history_sinv s σ0 σm Hs0 (fresh_history_ok _ _ _ H1)) as [Hsm _].
  destruct (base_stays s σ0 σm _ m0 (h_meta h1) (x_snap x) Hs0 H1) as (j&Hj&Hij&_); [apply Hr|done|apply Hr|].
  destruct (base_stays s σm σ _ (h_meta h1) m j Hsm H2 H3 Hm Hj) as (k&Hk&Hjk&Hsn).
  assert (k = x_snap x) as -> by (destruct Hk as [Hk _]; rewrite Hhd in Hk; by injection Hk).
  assert (j = x_snap x) as -> by lia. done.
Qed.
Lemma ran_outcome s hid x E o p σ0 σ m0 h1 h2 w2 w3 :
  ran s hid x E o p σ0 σ m0 h1 h2 w2 w3 →
  ∃ q m h' w' r, stored (w_fs (y_world σ)) q m ∧ wf_meta s (w_fs (y_world σ)) m
    ∧ wf_handle s (y_world σ) (sync q m h2) ∧ h_meta (sync q m h2) = m ∧ (max_snapshot_id m ≤ h_max (sync q m h2))%Z
    ∧ h_branch (sync q m h2) = x_branch x
    ∧ catch_job (txn_commit x p) (h2, y_world σ) = ((h', w'), catch r)
    ∧ commit_result s x p m (sync q m h2) (y_world σ) h' w' r.
Proof.
  intros Hr. pose proof (ra_inv _ _ _ _ _ _ _ _ _ _ _ _ _ Hr) as Hs. pose proof (si_world _ _ Hs) as Hi.
  destruct (sinv_seen s σ hid h2 Hs (ra_hid _ _ _ _ _ _ _ _ _ _ _ _ _ Hr)) as (q&m&[_ Hh Hwf Hst Hm _]).
  destruct (sync_spec s (y_world σ) q m h2 Hst Hm Hwf) as (Hwf0&Hm0&_&Hb0&Hmax0).
  destruct (txn_commit_run s x p h2 (y_world σ) q m Hi Hwf) as (h'&w'&r&Hrun&Hc); try done.
  { eapply wf_opatch_keeps; [|apply Hr]. apply Hr. }
  exists q, m, h', w', r. split_and!; try done.
  - rewrite Hb0. apply Hr.
  - by apply catch_job_run.
Qed.
(** If the head did not move, the commit succeeds. *)
Lemma ran_succeeds s hid x E o p σ0 σ m0 h1 h2 w2 w3 :
  ran s hid x E o (Some p) σ0 σ m0 h1 h2 w2 w3 → head σ (x_branch x) = head σ0 (x_branch x) →
  commit_outcome σ hid x (Some p) = Some (Ok (JSucceeded (pa_stats p))).
Proof.
  intros Hr Hhd. destruct (ran_outcome _ _ _ _ _ _ _ _ _ _ _ _ _ Hr) as (q&m&h'&w'&r&Hst&Hm&Hwf&Hmm&Hmax&Hb&Hrun&Hc).
  assert (Hmof : mof σ m) by by exists q.
  rewrite (head_eq σ m _ Hmof), (head_eq σ0 m0 _ (ra_stored _ _ _ _ _ _ _ _ _ _ _ _ _ Hr)),
    (proj1 (ra_snap _ _ _ _ _ _ _ _ _ _ _ _ _ Hr)) in Hhd.
  destruct (ran_base _ _ _ _ _ _ _ _ _ _ _ _ _ _ Hr Hmof Hhd) as (Hb0&Hsn&[_ Hkind]).
  unfold commit_outcome. rewrite (result_eq _ _ _ _ (ra_hid _ _ _ _ _ _ _ _ _ _ _ _ _ Hr)), Hrun. cbn.
  destruct Hc as [Hn|i Hi Hne|Hi ?|p' w' e Hi [= <-] Hw' He Hnr|p' h' w' Hi [= <-] Hc]; try congruence; [|done].
  exfalso. apply Hnr.
  destruct (head_of_some _ _ _ _ _ Hm Hhd) as [base Hbase].
  assert (Hbase0 : md_snaps (h_meta h1) !! x_snap x = Some base) by congruence.
  pose proof (ra_wf _ _ _ _ _ _ _ _ _ _ _ _ _ Hr) as Hwm0. destruct (wm_snaps _ _ _ Hwm0 _ _ Hbase0) as (_&Hwb&_).
  pose proof (ra_w2 _ _ _ _ _ _ _ _ _ _ _ _ _ Hr) as Hi2. destruct (ra_handle _ _ _ _ _ _ _ _ _ _ _ _ _ Hr) as [Hh1 Hb1].
  assert (Hfit : fits (w_next w2) base p).
  { eapply op_out_fits; [apply Hi2|apply Hi2| |apply Hr].
    apply (get_snapshot_snap_of _ (h_meta h1)); [done|]. rewrite Hh1. eapply snap_of_head; [apply Hb0|done]. }
  destruct (fits_manifests s w2 base p (wi_bounded _ _ Hi2) Hwb Hfit) as (idx&rec&Hpm).
  by exists (x_snap x), base, idx, rec.
Qed.
(** A transaction that succeeds: the head did not move, and its operation took
    effect on the rows that were there when it committed. *)
Lemma ran_done s hid x E o p σ0 σ m0 h1 h2 w2 w3 st :
  ran s hid x E o (Some p) σ0 σ m0 h1 h2 w2 w3 → commit_outcome σ hid x (Some p) = Some (Ok (JSucceeded st)) →
  ∃ m base sn h' w' q, mof σ m ∧ head_of m (x_branch x) = Some (x_snap x) ∧ md_snaps m !! x_snap x = Some base ∧ sn_id base = x_snap x
    ∧ sn_parent sn = Some (sn_id base) ∧ (max_snapshot_id m < sn_id sn)%Z
    ∧ catch_job (txn_commit x (Some p)) (h2, y_world σ) = ((h', w'), Ok (JSucceeded st)) ∧ st = pa_stats p
    ∧ h_branch h' = x_branch x
    ∧ stored (w_fs w') q (with_snap m (x_branch x) sn) ∧ keeps (w_fs (y_world σ)) (w_fs w')
    ∧ op_effect E s o (x_branch x) (h_meta h1) w2 w' base sn p w3.
Proof.
  intros Hr Hout. destruct (ran_outcome _ _ _ _ _ _ _ _ _ _ _ _ _ Hr) as (q&m&h'&w'&r&Hst&Hm&Hwf&Hmm&Hmax&Hb&Hrun&Hc).
  assert (Hmof : mof σ m) by by exists q.
  unfold commit_outcome in Hout. rewrite (result_eq _ _ _ _ (ra_hid _ _ _ _ _ _ _ _ _ _ _ _ _ Hr)), Hrun in Hout. cbn in Hout.
  injection Hout as Hout.
  destruct Hc as [Hn|i Hi Hne|Hi ?|p' w' e Hi [= <-] Hw' He Hnr|p' h' w' Hi [= <-] Hc]; try done.
  { by destruct e. }
  cbn in Hout. injection Hout as <-.
  pose proof Hc as [(j'&base&sn&u&Hj'&Hbs&Hbk&Hnext&->&Hsto&_) Hstep Hinv Hwf'].
  rewrite Hmm in *. rewrite Hi in Hj'. injection Hj' as <-.
  destruct (wm_snaps _ _ _ Hm _ _ Hbs) as (Hbi&_&_).
  destruct (ran_base _ _ _ _ _ _ _ _ _ _ _ _ _ _ Hr Hmof Hi) as (Hb0&Hsn&[_ Hkind]).
  pose proof (si_world _ _ (ra_inv _ _ _ _ _ _ _ _ _ _ _ _ _ Hr)) as Hiσ.
  assert (Hkp : keeps (w_fs (y_world σ)) (w_fs w')).
  { apply wstep_keeps; [apply Hiσ|by eapply winv_fine|done]. }
  pose proof (ra_wf _ _ _ _ _ _ _ _ _ _ _ _ _ Hr) as Hwm0. pose proof (ra_w2 _ _ _ _ _ _ _ _ _ _ _ _ _ Hr) as Hi2.
  destruct (ra_handle _ _ _ _ _ _ _ _ _ _ _ _ _ Hr) as [Hh1 Hb1].
  assert (Hbase0 : md_snaps (h_meta h1) !! x_snap x = Some base) by congruence.
  exists m, base, sn. do 3 eexists. split_and!; [done|done|done|done|apply Hnext| |exact Hrun|done|done|exact Hsto|done|].
  { destruct Hnext as (->&_). lia. }
  constructor.
  - exists h1. split_and!; [done|done|apply Hr].
  - exact (ra_opatch _ _ _ _ _ _ _ _ _ _ _ _ _ Hr).
  - apply Hr.
  - eapply snap_of_head; [apply Hb0|done].
  - apply (wm_snaps _ _ _ Hwm0 _ _ Hbase0).
  - do 2 eexists. exact Hnext.
  - apply wnew_keeps; [apply Hi2|apply Hr].
  - eapply keeps_trans; [apply Hr|done].
Qed.

(** * The head of a branch nobody commits to *)
Lemma commits_on_to σ c b : commits_on σ c b → commits_to σ b c.
Proof. by destruct c. Qed.
Lemma quiet_change σ m c m' b i :
  meta_change σ m c m' → stored_meta (w_fs (y_world σ)) = Some m → fresh_edits σ c →
  ¬ removes_branch b c → ¬ commits_to σ b c → branch_at m b i → branch_at m' b i.
Proof.
  intros Hc Hm Hf Hr Hn Hb. induction Hc as [c|hid h d n r Hh Hd _ _ Hn1 Hn2|hid h d n r Hh Hd Hl|c b' base sn Hon _ _ _ _ _|c k m' _ IH].
  - done.
  - assert (Hm' : h_meta h = m).
    { destruct d; try done; cbn in Hf; specialize (Hf _ Hh); congruence. }
    rewrite Hm' in *. destruct Hb as [Hb Hk]. unfold branch_at, head_of in *. cbn. case_decide; [done|].
    destruct (decide (n = b)) as [->|]; [by rewrite Hn2 in Hb|]. by rewrite !lookup_insert_ne.
  - assert (Hm' : h_meta h = m).
    { destruct d; try done; cbn in Hf; specialize (Hf _ Hh); congruence. }
    rewrite Hm' in *. destruct Hb as [Hb Hk]. unfold branch_at, head_of in *. cbn. case_decide; [done|].
    destruct (decide (n = b)) as [->|]; [|by rewrite !lookup_delete_ne].
    destruct (Hk ltac:(done)) as (r'&Hr'&Hrk). rewrite Hl in Hr'. injection Hr' as <-.
    exfalso. destruct d; try done; cbn in Hd, Hr; destruct Hd as [-> Hd]; [congruence|done].
  - destruct Hb as [Hb Hk]. assert (b' ≠ b) by (intros ->; apply Hn; by apply commits_on_to).
    unfold branch_at, head_of, with_snap in *. cbn. case_decide; cbn; repeat case_decide; subst; try done.
    all: rewrite ?lookup_insert_ne by done; done.
  - by apply IH.
Qed.
Lemma quiet_history s σ σ' b m m' i :
  sinv s σ → keeping b (elsewhere b) σ σ' → mof σ m → mof σ' m' → branch_at m b i → branch_at m' b i.
Proof.
  intros Hs Hh. revert m'. induction Hh as [|σ σ' c Hh IH (Hok&Hf&Hr&Hn)]; intros m' Hm Hm' Hb.
  - by rewrite <-(mof_fun _ _ _ Hm Hm').
  - destruct (history_sinv s σ σ' Hs (fresh_history_ok _ _ _ (keeping_fresh _ _ _ _ Hh))) as [Hs1 _].
    destruct (sinv_mof _ _ Hs1) as (m1&Hm1&_). specialize (IH Hs m1 Hm Hm1 Hb). pose proof Hm1 as [p Hst].
    destruct (step_meta s σ' c p m1 Hs1 Hok Hst) as (p'&m2&Hst2&Hch).
    assert (m' = m2) as -> by (eapply mof_fun; [done|by exists p']).
    eapply quiet_change; try done. by apply mof_stored.
Qed.
Lemma running_quiet hid tid x E fo o p σ0 σ :
  reachable σ0 → running (elsewhere (x_branch x)) hid tid x E fo o p σ0 σ → head σ (x_branch x) = head σ0 (x_branch x).
Proof.
  intros Hr Hrun. destruct (running_ran _ _ _ _ _ _ _ _ _ _ Hr Hrun) as (s&m0&h1&h2&w2&w3&Hran).
  destruct Hrun as [_ _ (σ1&Hh1&_&_&Hok&_&Hh2&_)].
  assert (Hh : keeping (x_branch x) (elsewhere (x_branch x)) σ0 σ).
  { eapply history_trans; [|exact Hh2]. constructor; [|split_and!; [done|done|intros []|intros []]].
    eapply history_trans; [|exact Hh1]. constructor; [constructor|]. split_and!; [done|done|intros []|intros []]. }
  destruct (sinv_mof _ _ (ra_inv _ _ _ _ _ _ _ _ _ _ _ _ _ Hran)) as (m&Hm&_).
  pose proof (ra_stored _ _ _ _ _ _ _ _ _ _ _ _ _ Hran) as Hm0.
  pose proof (quiet_history s σ0 σ _ m0 m _ (ra_inv0 _ _ _ _ _ _ _ _ _ _ _ _ _ Hran) Hh Hm0 Hm (ra_snap _ _ _ _ _ _ _ _ _ _ _ _ _ Hran)) as [Hb _].
  by rewrite (head_eq _ _ _ Hm), (head_eq _ _ _ Hm0), Hb, (proj1 (ra_snap _ _ _ _ _ _ _ _ _ _ _ _ _ Hran)).
Qed.

(** * The theorems on transactions *)
Lemma snap_layout_keeps s fs fs' sn : keeps fs fs' → wf_snap s fs sn → snap_layout fs' sn = snap_layout fs sn.
Proof.
  intros Hk (_&Hm&_). unfold snap_layout. apply list_fmap_ext. intros i q Hq.
  rewrite Forall_forall in Hm. destruct (Hm q) as (ms&Hms&Hw); [by eapply elem_of_list_lookup_2|].
  rewrite (man_at_some _ _ _ Hms), (man_at_some fs' q ms) by by apply Hk.
  apply list_fmap_ext. intros j mr Hmr. rewrite Forall_forall in Hw.
  eapply file_rows_keeps; [done|]. eapply wf_mrow_readable, Hw. by eapply elem_of_list_lookup_2.
Qed.
Lemma effect_moves s fs fs' lay o before rows :
  (∀ paths p, o = OParquet paths → p ∈ paths → file_table fs' p = file_table fs p) →
  (∀ paths f n p, o = OArrayRecord paths f n → p ∈ paths → records_in fs' p = records_in fs p) →
  effect s fs lay o before rows → effect s fs' lay o before rows.
Proof.
  destruct o as [batches|[] data|e|paths|paths index_fn nbytes|n data|n sources|n [] data|e]; intros H1 H2; try done; cbn [effect].
  - intros ->. do 2 f_equal. specialize (H1 paths). clear -H1. induction paths as [|q paths IH]; [done|].
    rewrite !bind_cons, (H1 q), IH; try done; [|by left]. intros p _ Hp. apply H1; [done|]. by right.
  - intros (f&Hf&->). exists f. split; [done|]. do 3 f_equal. specialize (H2 paths index_fn nbytes). clear -H2.
    induction paths as [|q paths IH]; [done|].
    rewrite !bind_cons, (H2 q), IH; try done; [|by left]. intros p _ Hp. apply H2; [done|]. by right.
Qed.
Lemma effect_later E s o b m w w' base sn p w1 fs before rows :
  wf_schema s → bounded w → op_ok s (w_fs w) o → op_effect E s o b m w w' base sn p w1 →
  snap_rows s (w_fs w) base before → keeps (w_fs w1) fs →
  effect s (w_fs w) (snap_layout (w_fs w) base) o before rows →
  effect s fs (snap_layout fs base) o before rows.
Proof.
  intros Hs Hb Hok He Hbef Hk. pose proof He as [(h0&_&_&Hout) Hwp Hw1 _ Hwb _ Hk1 _].
  rewrite (snap_layout_keeps s (w_fs w) fs); [|by eapply keeps_trans|done].
  apply effect_moves.
  - intros paths q -> Hq. destruct Hout as (Hrecs&p'&ms&_&<-&Hms&_).
    apply elem_of_list_fmap in Hq as (mr&->&Hmr). rewrite Forall_forall in Hms.
    destruct (Hms _ Hmr) as (cols&gs&_&Hp&_). destruct (Hok (mr_path mr)) as [Hext _]; [apply elem_of_list_fmap; eauto|].
    unfold file_table. rewrite (Hk _ _ Hp) by done. destruct (mr_path mr) as [| |nm] eqn:Hmp; try done.
    by rewrite <-(wle_pext _ _ _ nm Hw1), Hp.
  - intros paths f n q -> Hq.
    destruct (array_record_effect _ _ _ _ _ _ _ _ _ _ _ _ _ _ Hs He Hbef) as (f'&fid&input&_&Hex&_).
    unfold records_in. specialize (Hex q Hq). rewrite Hex, (Hk q (FRecord (recs_at (w_fs w) q))); [done| |done].
    by apply Hk1.
Qed.
Lemma ran_after s hid x E o p σ0 σ m0 h1 h2 w2 w3 :
  ran s hid x E o p σ0 σ m0 h1 h2 w2 w3 → sinv s (after_commit σ hid x p).
Proof.
  intros Hran. pose proof (ra_inv _ _ _ _ _ _ _ _ _ _ _ _ _ Hran) as Hs. apply with_handle_inv; [done|].
  intros h Hh Hwf. apply catch_commit_inv; [apply Hs|done|]. eapply wf_opatch_keeps; [|apply Hran]. apply Hran.
Qed.
Lemma txn_serial ok hid tid x E fo o p σ0 σ s st before :
  reachable σ0 → running ok hid tid x E fo o p σ0 σ → schema_at σ hid = Some s → reads σ hid None before →
  commit_outcome σ hid x p = Some (Ok (JSucceeded st)) →
  head σ (x_branch x) = head σ0 (x_branch x)
  ∧ ∃ rows, reads (after_commit σ hid x p) hid None rows
      ∧ effect s (w_fs (y_world σ)) (layout σ hid) o before rows
  ∧ ∃ m sn, stored_meta (w_fs (y_world (after_commit σ hid x p))) = Some m
      ∧ head_snapshot m (x_branch x) = Some sn ∧ sn_parent sn = head σ0 (x_branch x).
Proof.
  intros Hr Hrun Hsch Hbef Hout. destruct (running_ran _ _ _ _ _ _ _ _ _ _ Hr Hrun) as (s'&m0&h1&h2&w2&w3&Hran).
  pose proof (ra_inv _ _ _ _ _ _ _ _ _ _ _ _ _ Hran) as Hs. pose proof (ra_hid _ _ _ _ _ _ _ _ _ _ _ _ _ Hran) as Hh.
  destruct (sinv_seen s' σ hid h2 Hs Hh) as (q&m&Hseen). destruct (ra_handle _ _ _ _ _ _ _ _ _ _ _ _ _ Hran) as [Hb0 Hb1].
  assert (s' = s) as ->.
  { destruct Hseen as [_ _ _ _ _ Hsc]. congruence. }
  destruct p as [p|].
  2:{ exfalso. destruct (ran_outcome _ _ _ _ _ _ _ _ _ _ _ _ _ Hran) as (q'&m'&h'&w'&r&_&_&_&_&_&_&Hc&Hcr).
      unfold commit_outcome in Hout. rewrite (result_eq _ _ _ _ Hh), Hc in Hout. cbn in Hout. injection Hout as Hout.
      destruct Hcr as [| | |p' w' e _ [=]|p' h' w' _ [=]]; done. }
  destruct (ran_done _ _ _ _ _ _ _ _ _ _ _ _ _ _ Hran Hout)
    as (m'&base&sn&h'&w'&q'&Hm'&Hhd&Hbs&Hbi&Hpar&Hmax&Hc&->&Hb'&Hst'&Hk'&He).
  assert (m' = m) as -> by (eapply mof_fun; [done|exists q; by destruct Hseen]).
  pose proof (ra_stored _ _ _ _ _ _ _ _ _ _ _ _ _ Hran) as Hm0.
  assert (Hheads : head σ (x_branch x) = head σ0 (x_branch x)).
  { by rewrite (head_eq _ _ _ Hm'), (head_eq _ _ _ Hm0), Hhd, (proj1 (ra_snap _ _ _ _ _ _ _ _ _ _ _ _ _ Hran)). }
  split; [done|].
  apply (reads_iff s σ hid h2 q m None before Hseen) in Hbef as (sn0&Hsn0&Hbef).
  rewrite Hb1, (snap_of_head m _ _ _ Hhd Hbs) in Hsn0. injection Hsn0 as <-.
  pose proof (ra_w2 _ _ _ _ _ _ _ _ _ _ _ _ _ Hran) as Hi2. pose proof (oe_wf_base _ _ _ _ _ _ _ _ _ _ _ He) as Hwb.
  assert (Hk2 : keeps (w_fs w2) (w_fs (y_world σ))).
  { eapply keeps_trans; [eapply oe_keeps1, He|]. apply Hran. }
  assert (Hbef2 : snap_rows s (w_fs w2) base before).
  { destruct (snap_rows_some _ _ _ Hwb) as [b2 Hb2].
    pose proof (snap_rows_keeps s _ _ _ _ Hk2 Hwb Hb2) as Hb3. by rewrite (snap_rows_fun _ _ _ _ _ Hbef Hb3). }
  assert (Hws : wf_schema s) by apply Hi2.
  destruct (op_effect_rows _ _ _ _ _ _ _ _ _ _ _ _ Hws (wi_bounded _ _ Hi2) (ra_ok _ _ _ _ _ _ _ _ _ _ _ _ _ Hran) He Hbef2)
    as (rows&Hrows&Heff).
  pose proof (effect_later _ _ _ _ _ _ _ _ _ _ _ _ _ _ Hws (wi_bounded _ _ Hi2) (ra_ok _ _ _ _ _ _ _ _ _ _ _ _ _ Hran) He Hbef2
    (ra_keeps _ _ _ _ _ _ _ _ _ _ _ _ _ Hran) Heff) as Heff2.
  exists rows. unfold after_commit. rewrite (after_eq _ _ _ _ _ _ _ Hh Hc).
  assert (Hsn : snap_of (with_snap m (x_branch x) sn) (x_branch x) None = Some sn).
  { apply snap_of_with_snap. }
  split_and!.
  - assert (Hs' : sinv s (Sys w' (<[hid:=h']> (y_handles σ)) (y_txns σ))).
    { rewrite <-(after_eq _ _ _ _ _ _ _ Hh Hc). eapply ran_after, Hran. }
    destruct (sinv_seen s _ hid h' Hs') as (q2&m2&Hseen2); [cbn; by rewrite lookup_insert|].
    eapply (reads_iff s); [exact Hseen2|]. exists sn.
    assert (m2 = with_snap m (x_branch x) sn) as ->.
    { eapply (mof_fun (Sys w' (<[hid:=h']> (y_handles σ)) (y_txns σ))); [by exists q2; destruct Hseen2|by exists q']. }
    rewrite Hb'. done.
  - rewrite (layout_eq s σ hid h2 q m base Hseen); [done|]. rewrite Hb1. by eapply snap_of_head.
  - exists (with_snap m (x_branch x) sn), sn. cbn. rewrite (stored_meta_eq _ _ _ Hst').
    split_and!; [done|by rewrite <-Hsn|]. by rewrite <-Hheads, (head_eq _ _ _ Hm'), Hhd, Hpar, Hbi.
Qed.
Lemma txn_first_wins ok hid tid x E fo o p σ0 σ1 σ :
  reachable σ0 → running ok hid tid x E fo o p σ0 σ →
  fresh_history (fun c => ¬ removes_branch (x_branch x) c) σ0 σ1 → fresh_history (fun c => ¬ removes_branch (x_branch x) c) σ1 σ →
  head σ1 (x_branch x) ≠ head σ0 (x_branch x) →
  commit_outcome σ hid x p = Some (Ok JFailed) ∧ same_storage (after_commit σ hid x p) σ.
Proof.
  intros Hr Hrun Hh1 Hh2 Hne. destruct (running_ran _ _ _ _ _ _ _ _ _ _ Hr Hrun) as (s&m0&h1&h2&w2&w3&Hran).
  eapply (loser_fails σ0 σ1 σ hid hid h2); try done.
  - eapply mof_stored, Hran.
  - apply Hran.
  - apply Hrun.
  - apply Hran.
Qed.
Lemma txn_spared hid tid x E fo o p σ0 σ :
  reachable σ0 → running (elsewhere (x_branch x)) hid tid x E fo o (Some p) σ0 σ →
  commit_outcome σ hid x (Some p) = Some (Ok (JSucceeded (pa_stats p)))
  ∧ ∀ b, b ≠ x_branch x → head (after_commit σ hid x (Some p)) b = head σ b
  ∧ ∀ hid' h' rows, y_handles σ !! hid' = Some h' → h_branch h' = b → reads σ hid' None rows →
      reads (after_commit σ hid x (Some p)) hid' None rows.
Proof.
  intros Hr Hrun. pose proof (running_quiet _ _ _ _ _ _ _ _ _ Hr Hrun) as Hq.
  destruct (running_ran _ _ _ _ _ _ _ _ _ _ Hr Hrun) as (s&m0&h1&h2&w2&w3&Hran).
  pose proof (ran_succeeds _ _ _ _ _ _ _ _ _ _ _ _ _ Hran Hq) as Hout. split; [done|]. intros b Hb.
  pose proof (ra_inv _ _ _ _ _ _ _ _ _ _ _ _ _ Hran) as Hs. pose proof (ra_hid _ _ _ _ _ _ _ _ _ _ _ _ _ Hran) as Hh.
  pose proof (ran_after _ _ _ _ _ _ _ _ _ _ _ _ _ Hran) as Hs'.
  destruct (ran_done _ _ _ _ _ _ _ _ _ _ _ _ _ _ Hran Hout)
    as (m&base&sn&h3&w'&q'&Hm&Hhd&Hbs&Hbi&Hpar&Hmax&Hc&_&Hb'&Hst'&Hk'&He).
  unfold after_commit in *. rewrite (after_eq _ _ _ _ _ _ _ Hh Hc) in *.
  set (σ' := Sys w' (<[hid:=h3]> (y_handles σ)) (y_txns σ)) in *.
  assert (Hm' : mof σ' (with_snap m (x_branch x) sn)) by by exists q'.
  assert (Hheads : head_of (with_snap m (x_branch x) sn) b = head_of m b).
  { unfold head_of, with_snap. cbn. repeat case_decide; subst; try done. by rewrite lookup_insert_ne. }
  assert (Hsnap : snap_of (with_snap m (x_branch x) sn) b None = snap_of m b None).
  { unfold snap_of. cbn. rewrite Hheads. destruct (head_of m b) as [i|] eqn:Hi; [|done]. cbn.
    rewrite lookup_insert_ne; [done|]. apply head_of_max in Hi. lia. }
  split; [by rewrite (head_eq _ _ _ Hm'), (head_eq _ _ _ Hm)|].
  intros hid' h' rows Hh' <- Hrd.
  destruct (decide (hid' = hid)) as [->|Hne].
  { rewrite Hh in Hh'. injection Hh' as <-. destruct (ra_handle _ _ _ _ _ _ _ _ _ _ _ _ _ Hran) as [_ Hb1]. congruence. }
  eapply (later_reads s σ σ' m _ hid' hid' h' h'); try done. cbn. by rewrite lookup_insert_ne.
Qed.
Lemma txn_late_fails σ0 σ1 σ2 hid h x p m0 :
  reachable σ0 → stored_meta (w_fs (y_world σ0)) = Some m0 → is_branch m0 (x_branch x) →
  result σ0 hid txn_begin = Some (Ok x) →
  keeping (x_branch x) anything σ0 σ1 → head σ1 (x_branch x) ≠ head σ0 (x_branch x) →
  keeping (x_branch x) anything σ1 σ2 → y_handles σ2 !! hid = Some h →
  commit_outcome σ2 hid x p = Some (Ok JFailed) ∧ same_storage (after_commit σ2 hid x p) σ2.
Proof.
  intros Hr Hm Hb Hbeg Hh1 Hne Hh2 Hh. destruct (reachable_sinv _ _ Hr Hm) as (s&Hs&Hmof).
  destruct (sinv_mof _ _ Hs) as (m&Hm'&Hwf). rewrite <-(mof_fun _ _ _ Hmof Hm') in Hwf.
  destruct (is_branch_head _ _ _ _ Hwf Hb) as (base&Hbr&_).
  eapply (loser_fails σ0 σ1 σ2 hid hid h x p m0); try done; by eapply keeping_fresh.
Qed.
