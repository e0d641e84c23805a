(** Properties of all snapshots, by induction over orderly and undisturbed
    histories. *)
From Verif.Model Require Import System.
From Verif.Spec Require Import Logical Layout Durable Evolution Serial Orderly.
From Verif.Proofs Require Import Lib World Resolve SchemaFacts Wf OpSpec Inv FileSet Ops Bodies Txn SysInv ReadRun
  Effects Observe Calls Durable Evolve History Serial.

Lemma with_handle_txns {A} σ hid (m : H A) : y_txns (with_handle σ hid m).1 = y_txns σ.
Proof. unfold with_handle. destruct (y_handles σ !! hid); [|done]. by destruct (m _) as [[? ?] ?]. Qed.
Lemma new_handle_txns σ hid r : y_txns (new_handle σ hid r) = y_txns σ.
Proof. unfold new_handle. by destruct r as [? []]. Qed.
Lemma step_txns σ c tid pe :
  y_txns (step σ c) !! tid = Some pe →
  y_txns σ !! tid = Some pe
  ∨ (∃ hid x, c = CBegin hid tid ∧ pe = Pending hid x None ∧ result σ hid txn_begin = Some (Ok x))
  ∨ (∃ E fo o hid x p, c = COp tid E fo o ∧ y_txns σ !! tid = Some (Pending hid x None)
       ∧ result σ hid (op_body E fo o) = Some (Ok p) ∧ pe = Pending hid x (Some p)).
Proof.
  intros Hl. destruct c as [hid fs pks recs|hid|hid|hid d|hid E fo o|hid tid'|tid' E fo o|tid'|dt|name f|c k]; cbn [step] in Hl.
  - rewrite new_handle_txns in Hl. by left.
  - rewrite new_handle_txns in Hl. by left.
  - rewrite with_handle_txns in Hl. by left.
  - rewrite with_handle_txns in Hl. by left.
  - rewrite with_handle_txns in Hl. by left.
  - pose proof (with_handle_txns σ hid txn_begin) as Ht. destruct (with_handle σ hid txn_begin) as [σ' r] eqn:Hw. cbn in Ht.
    destruct r as [[x|]|]; cbn in Hl; rewrite ?Ht in Hl; try by left.
    apply lookup_insert_Some in Hl as [[<- <-]|[_ Hl]]; [|by left]. right. left. exists hid, x. unfold result. by rewrite Hw.
  - destruct (y_txns σ !! tid') as [[hid x [p|]]|] eqn:Htid; try by left.
    pose proof (with_handle_txns σ hid (op_body E fo o)) as Ht.
    destruct (with_handle σ hid (op_body E fo o)) as [σ' r] eqn:Hw. cbn in Ht.
    destruct r as [[p|]|]; cbn in Hl; rewrite ?Ht in Hl.
    + apply lookup_insert_Some in Hl as [[<- <-]|[_ Hl]]; [|by left]. right. right.
      exists E, fo, o, hid, x, p. unfold result. by rewrite Hw.
    + apply lookup_delete_Some in Hl as [_ Hl]. by left.
    + apply lookup_delete_Some in Hl as [_ Hl]. by left.
  - destruct (y_txns σ !! tid') as [[hid x [p|]]|] eqn:Htid; try by left. cbn in Hl.
    rewrite with_handle_txns in Hl. apply lookup_delete_Some in Hl as [_ Hl]. by left.
  - by left.
  - destruct (w_fs (y_world σ) !! PExt name); [by left|]. destruct f; by left.
  - by left.
Qed.

Lemma create_handle σ c hid h :
  sempty σ → y_handles (step σ c) !! hid = Some h → ∃ s t, h_meta h = first_meta s t.
Proof.
  intros [Hb Hent Hhd Htx].
  assert (Hempty : ∀ X, y_handles X = y_handles σ → y_handles X !! hid = Some h → ∃ s t, h_meta h = first_meta s t).
  { intros X ->. by rewrite Hhd, lookup_empty. }
  destruct c as [hid' fs pks recs|hid'|hid'|hid' d|hid' E fo o|hid' tid|tid E fo o|tid|dt|name f|c k]; cbn [step]; intros Hh.
  - destruct (create_run fs pks recs (y_world σ) Hb) as (w'&r&Hcr&Hc). rewrite Hcr in Hh.
    destruct Hc as [e _|e _ _|w' ns _ _ [??] _|w' ns u Hv _ _ Hst Hu Hb' Hsto]; cbn in Hh; rewrite Hhd in Hh.
    1-3: by rewrite lookup_empty in Hh.
    apply lookup_insert_Some in Hh as [[_ <-]|[_ Hh]]; [eauto|by rewrite lookup_empty in Hh].
  - assert (load (y_world σ) = (y_world σ, Err (EOther "FileNotFoundError"))) as Hl.
    { unfold load, read_entry, read_file, bind. cbn. by rewrite Hent. }
    rewrite Hl in Hh. by eapply Hempty in Hh.
  - unfold with_handle in Hh. rewrite Hhd, lookup_empty in Hh. by apply Hempty in Hh.
  - unfold with_handle in Hh. rewrite Hhd, lookup_empty in Hh. by apply Hempty in Hh.
  - unfold with_handle in Hh. rewrite Hhd, lookup_empty in Hh. by apply Hempty in Hh.
  - unfold with_handle in Hh. rewrite Hhd, lookup_empty in Hh. by apply Hempty in Hh.
  - rewrite Htx, lookup_empty in Hh. by apply Hempty in Hh.
  - rewrite Htx, lookup_empty in Hh. by apply Hempty in Hh.
  - by eapply Hempty in Hh.
  - destruct (w_fs (y_world σ) !! PExt name); [by apply Hempty in Hh|]. destruct f; by eapply Hempty in Hh.
  - by eapply Hempty in Hh.
Qed.
Lemma txn_begin_branch σ hid x : reachable σ → result σ hid txn_begin = Some (Ok x) → ∃ h, y_handles σ !! hid = Some h ∧ x_branch x = h_branch h.
Proof.
  intros Hr Hb. destruct (result_handle _ _ _ _ Hb) as [h Hh]. exists h. split; [done|].
  destruct (reachable_seen _ _ _ Hr Hh) as (s&q&m0&Hseen). pose proof Hseen as [Hs _ Hwf Hst Hm _].
  destruct (sync_spec s (y_world σ) q m0 h Hst Hm Hwf) as (Hwf0&Hm0&_&Hb0&_).
  rewrite (result_eq _ _ _ _ Hh), (txn_begin_run q m0 h (y_world σ) Hst Hm0) in Hb. cbn in Hb.
  destruct (head_of m0 (h_branch h)); [|done]. by injection Hb as <-.
Qed.
Lemma sinv_wf s σ m : sinv s σ → mof σ m → wf_meta s (w_fs (y_world σ)) m.
Proof. intros Hs Hm. destruct (sinv_mof s σ Hs) as (m'&Hm'&Hw). by rewrite (mof_fun _ _ _ Hm Hm'). Qed.

(** ** The general induction

    [X] restricts the calls further; [C] holds of all metadata in such histories. *)
Section induction.
Context (P : schema → fsys → snapshot → op → Prop) (X : call → Prop).
Context (HX : ∀ c k, X (CCrash c k) → X c).
Notation strict := (fun σ c => env_ok σ c ∧ fresh_edits σ c ∧ keeps_branches c ∧ stays_on_branch σ c ∧ runs_only P σ c).
Notation okc := (fun σ c => env_ok σ c ∧ (y_txns σ = ∅ ∨ fresh_edits σ c ∧ keeps_branches c) ∧ X c ∧ stays_on_branch σ c ∧ runs_only P σ c).

Lemma okc_reachable σ : history okc init σ → reachable σ.
Proof. apply history_weaken. by intros ? ? (?&_). Qed.
Lemma strict_keeping b σ σ' : history strict σ σ' → keeping b anything σ σ'.
Proof. apply history_weaken. by intros ? ? (?&?&Hk&_). Qed.
(** While a transaction is open. *)
Lemma okc_strict σ c tid x : y_txns σ !! tid = Some x → okc σ c → strict σ c.
Proof. intros Hx (?&[He|[??]]&?&?&?); [by rewrite He, lookup_empty in Hx|]. by split_and!. Qed.

Definition begun (hid tid : nat) (x : txn) (σ0 σ : sys) : Prop :=
  history okc init σ0 ∧ result σ0 hid txn_begin = Some (Ok x)
  ∧ (∀ m, stored_meta (w_fs (y_world σ0)) = Some m → is_branch m (x_branch x))
  ∧ history strict (step σ0 (CBegin hid tid)) σ.
Definition operated (hid tid : nat) (x : txn) (p : option patch) (σ : sys) : Prop :=
  ∃ σ0 σ1 E fo o, begun hid tid x σ0 σ1 ∧ y_txns σ1 !! tid = Some (Pending hid x None)
    ∧ strict σ1 (COp tid E fo o) ∧ result σ1 hid (op_body E fo o) = Some (Ok p)
    ∧ history strict (step σ1 (COp tid E fo o)) σ.
Lemma pending_past σ tid hid x pp :
  history okc init σ → y_txns σ !! tid = Some (Pending hid x pp) →
  match pp with None => ∃ σ0, begun hid tid x σ0 σ | Some p => operated hid tid x p σ end.
Proof.
  intros Hh. revert tid hid x pp. remember init as σi eqn:H0.
  induction Hh as [|σi σ c Hh IH Hok]; intros tid hid x pp Hl; subst.
  { cbn in Hl. by rewrite lookup_empty in Hl. }
  specialize (IH eq_refl).
  apply step_txns in Hl as [Hl|[(hid'&x'&->&[= <- <- ->]&Hb)|(E&fo&o&hid'&x'&p'&->&Ht&Hb&[= <- <- ->])]].
  - specialize (IH tid hid x pp Hl). pose proof (okc_strict _ _ _ _ Hl Hok) as Hstr. destruct pp as [p|].
    + destruct IH as (σ0&σ1&E&fo&o&H1&H2&H3&H4&H5). exists σ0, σ1, E, fo, o.
      refine (conj H1 (conj H2 (conj H3 (conj H4 _)))). by apply HistStep.
    + destruct IH as (σ0&H1&H2&H3&H4). exists σ0. refine (conj H1 (conj H2 (conj H3 _))). by apply HistStep.
  - exists σ. split_and!; [done|done| |constructor]. intros m Hm.
    destruct (txn_begin_branch σ hid x (okc_reachable _ Hh) Hb) as (h&Hh'&->).
    destruct Hok as (_&_&_&Hst&_). by eapply Hst.
  - destruct (IH _ _ _ _ Ht) as [σ0 H1]. exists σ0, σ, E, fo, o.
    refine (conj H1 (conj Ht (conj (okc_strict _ _ _ _ Ht Hok) (conj Hb _)))). constructor.
Qed.
Lemma operated_ran hid tid x p σ :
  y_txns σ !! tid = Some (Pending hid x (Some p)) → operated hid tid x p σ → on_branch σ hid (x_branch x) →
  ∃ s σ0 E o m0 h1 h2 w2 w3, ran s hid x E o p σ0 σ m0 h1 h2 w2 w3
    ∧ (∀ sn, head_snapshot (h_meta h1) (h_branch h1) = Some sn → P s (w_fs w2) sn o).
Proof.
  intros Htid (σ0&σ1&E&fo&o&(H0&Hb&Hbr&H1)&Ht1&Hok&Hop&H2) Hon.
  pose proof (okc_reachable _ H0) as Hr0.
  destruct Hok as (Hok&Hf&Hk&Hst&Hrun).
  assert (Hon1 : on_branch σ1 hid (x_branch x)) by exact (Hst _ Ht1).
  destruct (running_ran_at anything hid tid x E fo o p σ0 σ1 σ Hr0 Hb Hbr) as (s&m0&h1&h2&w3&Hh1&Hran).
  { split_and!; try done; by apply strict_keeping. }
  exists s, σ0, E, o, m0, h1, h2, (y_world σ1), w3. split; [done|]. intros sn Hsn.
  rewrite <-(wm_schema _ _ _ (ra_wf _ _ _ _ _ _ _ _ _ _ _ _ _ Hran)). cbn in Hrun. by eapply Hrun.
Qed.

Context (C : metadata → Prop) (HC : ∀ σ m, history okc init σ → mof σ m → C m).
Context (Π : schema → fsys → metadata → Prop).
Context (Hkeeps : ∀ s fs fs' m, wf_meta s fs m → keeps fs fs' → Π s fs m → Π s fs' m).
Context (Hfirst : ∀ s fs t, Π s fs (first_meta s t)).
Context (Hrefs : ∀ s fs m refs, Π s fs m → Π s fs (with_refs m refs)).
Context (Hop : ∀ E s o b m m1 w w' base sn p w1,
  P s (w_fs w) base o → wf_schema s → bounded w → op_ok s (w_fs w) o →
  op_effect E s o b m1 w w' base sn p w1 →
  wf_meta s (w_fs w') m → head_of m b = Some (sn_id base) → md_snaps m !! sn_id base = Some base →
  sn_parent sn = Some (sn_id base) → C m → (max_snapshot_id m < sn_id sn)%Z →
  Π s (w_fs w') m → Π s (w_fs w') (with_snap m b sn)).
Record all_good (s : schema) (σ : sys) : Prop := {
  ag_stored : ∀ m, mof σ m → Π s (w_fs (y_world σ)) m;
  ag_handles : ∀ hid h, y_handles σ !! hid = Some h → Π s (w_fs (y_world σ)) (h_meta h) }.

Lemma okc_step s σ c m :
  history okc init σ → sinv s σ → okc σ c → mof σ m → all_good s σ →
  ∀ m', mof (step σ c) m' → Π s (w_fs (y_world (step σ c))) m'.
Proof.
  intros Hh Hs Hok Hm Hgood. pose proof (sinv_wf _ _ _ Hs Hm) as Hwm.
  pose proof (si_world _ _ Hs) as Hi. pose proof (okc_reachable _ Hh) as Hr.
  pose proof (ag_stored _ _ Hgood _ Hm) as HΠ. pose proof (HC _ _ Hh Hm) as HCm.
  assert (Hold : ∀ c', env_ok σ c' → (∀ m', mof (step σ c') m' → m' = m) →
    ∀ m', mof (step σ c') m' → Π s (w_fs (y_world (step σ c'))) m').
  { intros c' Hok' Hsame m' Hm'. rewrite (Hsame _ Hm'). eapply Hkeeps; [done| |done].
    destruct (step_sinv s σ c' Hs Hok') as [_ Hg]. eapply gstep_keeps; [apply Hi|by eapply winv_fine|done]. }
  assert (Hquiet : ∀ c', env_ok σ c' → (∀ b, ¬ commits_on σ c' b) →
    (∀ c'' k, c' ≠ CCrash c'' k) → ∀ m', mof (step σ c') m' → Π s (w_fs (y_world (step σ c'))) m').
  { intros c' Hok' Hnc Hncr m' Hm'. destruct Hm as [p Hp].
    destruct (step_sinv s σ c' Hs Hok') as [_ Hg].
    assert (Hk : keeps (w_fs (y_world σ)) (w_fs (y_world (step σ c')))) by (eapply gstep_keeps; [apply Hi|by eapply winv_fine|done]).
    destruct (step_meta s σ c' p m Hs Hok' Hp) as (p'&m''&Hp'&Hch).
    assert (m'' = m') as -> by (apply (mof_fun (step σ c')); [by exists p'|done]).
    assert (Hhandle : ∀ hid h refs, y_handles σ !! hid = Some h → Π s (w_fs (y_world (step σ c'))) (with_refs (h_meta h) refs)).
    { intros hid h refs Hh'. apply Hrefs. eapply Hkeeps; [apply (si_handles _ _ Hs _ _ Hh')|exact Hk|].
      by eapply (ag_handles _ _ Hgood). }
    destruct Hch as [c'|hid h d n r Hh' Hd _ _ _ _|hid h d n r Hh' Hd _|c' b base sn Hc _ _ _ _ _|c'' k m'' _].
    - by eapply Hkeeps.
    - by eapply Hhandle.
    - by eapply Hhandle.
    - by destruct (Hnc b).
    - by destruct (Hncr c'' k). }
  induction c as [hid fs pks recs|hid|hid|hid d|hid E fo o|hid tid|tid E fo o|tid|dt|name f|c IH k];
    destruct Hok as (Hok&Hf&HXc&Hst&Hrun); try (apply Hquiet; [exact Hok|by intros b Hb; cbn in Hb; (exact Hb || done)|done]).
  - (* an uninterrupted operation *)
    destruct (y_handles σ !! hid) as [h|] eqn:Hhd.
    2: { assert (Hσ : step σ (CRun hid E fo o) = σ) by (cbn [step]; unfold with_handle; by rewrite Hhd). rewrite Hσ. intros m' Hm'. by rewrite (mof_fun _ _ _ Hm' Hm). }
    destruct (result σ hid (run_op E fo o)) as [r|] eqn:Hres.
    2: { rewrite (result_eq _ _ _ _ Hhd) in Hres. done. }
    assert (Hsucc : (∃ st, r = Ok (JSucceeded st)) ∨ (∀ st, r ≠ Ok (JSucceeded st))).
    { destruct r as [[| |]|]; eauto; right; by intros. }
    destruct Hsucc as [[st ->]|Hns].
    + destruct (op_succeeded σ hid E fo o st Hr Hok Hres) as (s'&h1&p&m1&h'&base&sn&pa&w1&q&Hseen&Hseen'&Hok'&Hdone).
      intros m' Hm'. change (step σ (CRun hid E fo o)) with (after σ hid (run_op E fo o)) in *.
      set (σ' := after σ hid (run_op E fo o)) in *.
      assert (s' = s) as ->.
      { pose proof (sinv_wf _ _ _ (sn_inv _ _ _ _ _ _ Hseen) Hm) as Hw'. by rewrite <-(wm_schema _ _ _ Hw'), <-(wm_schema _ _ _ Hwm). }
      assert (m1 = m) as -> by (apply (mof_fun σ); [by exists p; apply Hseen|done]).
      assert (m' = with_snap m (h_branch h1) sn) as -> by (apply (mof_fun σ'); [done|by exists q; apply Hseen']).
      assert (h1 = h) as -> by (pose proof (sn_look _ _ _ _ _ _ Hseen); congruence).
      pose proof (od_effect _ _ _ _ _ _ _ _ _ _ _ _ _ Hdone) as Heff.
      assert (Hk : keeps (w_fs (y_world σ)) (w_fs (y_world σ'))).
      { intros pp ff Hff Hne. apply (od_keeps2 _ _ _ _ _ _ _ _ _ _ _ _ _ Hdone); [|done].
        by apply (od_keeps1 _ _ _ _ _ _ _ _ _ _ _ _ _ Hdone). }
      destruct (od_body _ _ _ _ _ _ _ _ _ _ _ _ _ Hdone) as (h0&_&_&_&Hmax&Hid).
      destruct (od_next _ _ _ _ _ _ _ _ _ _ _ _ _ Hdone) as (_&Hpar&_).
      pose proof (od_base _ _ _ _ _ _ _ _ _ _ _ _ _ Hdone) as Hbase. unfold snap_of in Hbase. cbn in Hbase.
      destruct (head_of m (h_branch h)) as [i|] eqn:Hhead; [|done]. cbn in Hbase.
      destruct (wm_snaps _ _ _ Hwm i base Hbase) as (Hidb&_&_). rewrite <-Hidb in *.
      eapply Hop; try done.
      * eapply Hrun; [by apply Hseen|]. rewrite (current_eq _ _ _ _ _ _ Hseen).
        exact (oe_base _ _ _ _ _ _ _ _ _ _ _ Heff).
      * apply Hi.
      * apply Hi.
      * eapply wf_meta_keeps; [exact Hk|done].
      * lia.
      * eapply Hkeeps; [|exact Hk|done]. done.
    + apply Hold; [done|]. intros m' Hm'.
      destruct (unsuccessful_unchanged σ hid E fo o r Hr Hok Hres Hns) as [Hsame _].
      change (after σ hid (run_op E fo o)) with (step σ (CRun hid E fo o)) in Hsame.
      rewrite (mof_stored _ _ Hm), (mof_stored _ _ Hm') in Hsame. by injection Hsame.
  - (* a commit *)
    destruct (y_txns σ !! tid) as [[hid x [p|]]|] eqn:Htid.
    2, 3: assert (Hσ : step σ (CCommit tid) = σ) by (cbn [step]; by rewrite Htid); rewrite Hσ; intros m' Hm';
      by rewrite (mof_fun _ _ _ Hm' Hm).
    pose proof (pending_past σ tid hid x (Some p) Hh Htid) as Hpast.
    pose proof (Hst _ Htid) as Hon. cbn in Hon.
    destruct (operated_ran hid tid x p σ Htid Hpast Hon) as (s'&σ0&E&o&m0&h1&h2&w2&w3&Hran&HP).
    assert (s' = s) as ->.
    { pose proof (sinv_wf _ _ _ (ra_inv _ _ _ _ _ _ _ _ _ _ _ _ _ Hran) Hm) as Hw'.
      by rewrite <-(wm_schema _ _ _ Hw'), <-(wm_schema _ _ _ Hwm). }
    destruct (ran_outcome _ _ _ _ _ _ _ _ _ _ _ _ _ Hran) as (q&m1&h'&w'&r&Hst1&Hwm1&Hwf0&Hm0&Hmax&Hb0&Hcatch&Hcr).
    assert (m1 = m) as -> by (apply (mof_fun σ); [by exists q|done]).
    pose proof (ra_hid _ _ _ _ _ _ _ _ _ _ _ _ _ Hran) as Hhd.
    assert (Hworld : y_world (step σ (CCommit tid)) = w').
    { cbn [step]. rewrite Htid. unfold with_handle. by rewrite Hhd, Hcatch. }
    assert (Hsame : stored (w_fs w') q m → ∀ m', mof (step σ (CCommit tid)) m' → Π s (w_fs (y_world (step σ (CCommit tid)))) m').
    { intros Hst'. apply Hold; [done|]. intros m' Hm'. apply (mof_fun (step σ (CCommit tid))); [done|]. exists q. by rewrite Hworld. }
    destruct Hcr as [|i _ _|_ _|pa w' e _ _ Hw _ _|pa h' w' Hhead -> Hc].
    + by apply Hsame.
    + by apply Hsame.
    + by apply Hsame.
    + apply Hsame. by eapply stored_wnew.
    + assert (Hout : commit_outcome σ hid x (Some pa) = Some (Ok (JSucceeded (pa_stats pa)))).
      { unfold commit_outcome. rewrite (result_eq _ _ _ _ Hhd), Hcatch. done. }
      destruct (ran_done _ _ _ _ _ _ _ _ _ _ _ _ _ _ Hran Hout)
        as (m2&base&sn&h''&w''&q'&Hm2&Hhead2&Hb2&Hid2&Hpar&Hmx&Hcatch2&_&_&Hst2&Hk2&Heff).
      rewrite Hcatch in Hcatch2. injection Hcatch2 as <- <-. rewrite (mof_fun _ _ _ Hm2 Hm) in *.
      intros m' Hm'. assert (m' = with_snap m (x_branch x) sn) as ->.
      { apply (mof_fun (step σ (CCommit tid))); [done|]. exists q'. by rewrite Hworld. }
      rewrite Hworld. rewrite <-Hid2 in *.
      eapply Hop; try done.
      * apply HP. rewrite (proj1 (ra_handle _ _ _ _ _ _ _ _ _ _ _ _ _ Hran)).
        exact (oe_base _ _ _ _ _ _ _ _ _ _ _ Heff).
      * apply Hi.
      * apply (ra_w2 _ _ _ _ _ _ _ _ _ _ _ _ _ Hran).
      * apply (ra_ok _ _ _ _ _ _ _ _ _ _ _ _ _ Hran).
      * by eapply wf_meta_keeps.
      * by eapply Hkeeps.
  - (* a crash *)
    cbn in Hok, Hf, Hst, Hrun.
    assert (Hok' : okc σ c).
    { split_and!; try done. by eapply HX. }
    destruct (step_sinv s σ c Hs Hok) as [_ Hg].
    intros m' Hm'. destruct (gstep_cut k _ _ Hg) as [Hw|Hw].
    + assert (Hsame : ∀ m', mof (step σ (CCrash c k)) m' → m' = m).
      { intros m2 Hm2. destruct Hm as [q Hq]. apply (mof_fun (step σ (CCrash c k))); [done|]. exists q.
        rewrite crash_world. by eapply stored_wnew. }
      by apply Hold.
    + rewrite crash_world, Hw. apply IH; [done|]. destruct Hm' as [q Hq]. exists q. by rewrite crash_world, Hw in Hq.
Qed.
Lemma okc_good σ : history okc init σ → ∀ s, sinv s σ → all_good s σ.
Proof.
  intros Hh. remember init as σi eqn:H0.
  induction Hh as [|σi σ c Hh IH Hok]; intros s Hs; subst.
  { destruct (sinv_mof s init Hs) as (m&[p [Hp _]]&_). done. }
  specialize (IH eq_refl HC).
  destruct (reachable_inv σ (okc_reachable _ Hh)) as [He|[s' Hs']].
  - constructor.
    + intros m Hm. destruct (create_first σ c He (proj1 Hok) m (mof_stored _ _ Hm)) as (s'&t&->).
      pose proof (wm_schema _ _ _ (sinv_wf _ _ _ Hs Hm)) as Hsc. cbn in Hsc. subst s'. apply Hfirst.
    + intros hid h Hhd. destruct (create_handle σ c hid h He Hhd) as (s'&t&Hm).
      pose proof (wm_schema _ _ _ (proj1 (si_handles _ _ Hs _ _ Hhd))) as Hsc. rewrite Hm in *. cbn in Hsc. subst s'. apply Hfirst.
  - destruct (sinv_mof s' σ Hs') as (m1&Hm1&Hwm1).
    assert (s' = s) as ->.
    { destruct (step_sinv s' σ c Hs' (proj1 Hok)) as [Hs2 _]. destruct (sinv_mof s _ Hs) as (m&Hm&_).
      by rewrite <-(wm_schema _ _ _ (sinv_wf _ _ _ Hs Hm)), <-(wm_schema _ _ _ (sinv_wf _ _ _ Hs2 Hm)). }
    specialize (IH s Hs').
    assert (Hk : keeps (w_fs (y_world σ)) (w_fs (y_world (step σ c)))).
    { destruct (step_sinv s σ c Hs' (proj1 Hok)) as [_ Hg]. pose proof (si_world _ _ Hs') as Hi.
      eapply gstep_keeps; [apply Hi|by eapply winv_fine|done]. }
    pose proof (okc_step s σ c m1 Hh Hs' Hok Hm1 IH) as Hst.
    constructor; [exact Hst|].
    intros hid h Hhd. destruct (step_handle s σ c m1 hid h Hs' (proj1 Hok) Hm1 Hhd) as [(h0&Hh0&<-)|[->|Hm']].
    + eapply Hkeeps; [apply (si_handles _ _ Hs' _ _ Hh0)|done|by eapply (ag_handles _ _ IH)].
    + eapply Hkeeps; [done|done|by apply (ag_stored _ _ IH)].
    + by apply Hst.
Qed.
Lemma okc_meta s σ m : history okc init σ → sinv s σ → mof σ m → Π s (w_fs (y_world σ)) m.
Proof. intros Hh Hs Hm. exact (ag_stored _ _ (okc_good σ Hh s Hs) m Hm). Qed.
End induction.

(** ** Orderly histories *)
Lemma runs_only_mono (P P' : schema → fsys → snapshot → op → Prop) c σ :
  (∀ s fs sn o, P s fs sn o → P' s fs sn o) → runs_only P σ c → runs_only P' σ c.
Proof. intros HP. revert σ. induction c; cbn; eauto. Qed.
Lemma orderly_mono (P Q : schema → fsys → snapshot → op → Prop) σ σ' :
  (∀ s fs sn o, P s fs sn o → Q s fs sn o) → orderly P σ σ' → orderly Q σ σ'.
Proof. intros HP. apply history_weaken. intros ? ? (?&?&?&?&?). split_and!; try done. by eapply runs_only_mono. Qed.
Lemma orderly_undisturbed P σ σ' : orderly P σ σ' → undisturbed P σ σ'.
Proof. apply history_weaken. intros ? ? (?&[?|?]&?&?&?); split_and!; try done; [by left|by right]. Qed.
Lemma undisturbed_reachable P σ : undisturbed P init σ → reachable σ.
Proof. apply history_weaken. by intros ? ? (?&_). Qed.
Lemma orderly_reachable P σ : orderly P init σ → reachable σ.
Proof. apply history_weaken. by intros ? ? (?&_). Qed.

(** While no branch is removed, no snapshot has a larger identifier than all
    branches. *)
Lemma keeping_covered σ : branch_keeping init σ → ∀ s, sinv s σ →
  (∀ m, mof σ m → covered m) ∧ (∀ hid h, y_handles σ !! hid = Some h → covered (h_meta h)).
Proof.
  intros Hh. unfold branch_keeping in Hh. remember init as σi eqn:H0.
  induction Hh as [|σi σ c Hh IH [Hok Hkb]]; intros s Hs; subst.
  { destruct (sinv_mof s init Hs) as (m&[p [Hp _]]&_). done. }
  specialize (IH eq_refl).
  assert (Hr : reachable σ) by (eapply history_weaken; [|exact Hh]; by intros ? ? [??]).
  destruct (reachable_inv σ Hr) as [He|[s' Hs']].
  - split.
    + intros m Hm. destruct (create_first σ c He Hok m (mof_stored _ _ Hm)) as (s'&t&->). apply first_covered.
    + intros hid h Hhd. destruct (create_handle σ c hid h He Hhd) as (s'&t&->). apply first_covered.
  - destruct (sinv_mof s' σ Hs') as (m1&Hm1&_). destruct (IH s' Hs') as [IHm IHh].
    assert (Hst : ∀ m, mof (step σ c) m → covered m).
    { intros m Hm. destruct Hm1 as [p Hp]. destruct (step_meta s' σ c p m1 Hs' Hok Hp) as (p'&m'&Hp'&Hch).
      assert (m' = m) as -> by (apply (mof_fun (step σ c)); [by exists p'|done]).
      assert (Hm1 : covered m1) by (apply IHm; by exists p). clear -Hch Hkb Hm1 IHh.
      induction Hch as [c|hid h d n r Hh' Hd Hs Hn1 Hn2 Hn3|hid h d n r Hh' Hd Hn|c b base sn Hc|c k m' _ IH].
      - done.
      - eapply covered_step; [by apply (FcAdd (CEdit hid d))|done|by eapply IHh].
      - eapply covered_step; [|done|by eapply IHh]. eapply (FcRemove (CEdit hid d)); [done|].
        destruct d; try done; cbn in Hd; destruct Hd as [<- Hk]; rewrite Hk; done.
      - eapply covered_step; [|done|done]. by eapply FcCommit.
      - by apply IH. }
    split; [exact Hst|].
    intros hid h Hhd. destruct (step_handle s' σ c m1 hid h Hs' Hok Hm1 Hhd) as [(h0&Hh0&<-)|[->|Hm']].
    + by eapply IHh.
    + by apply IHm.
    + by apply Hst.
Qed.

Section meta.
Context (P : schema → fsys → snapshot → op → Prop) (Π : schema → fsys → metadata → Prop).
Context (Hkeeps : ∀ s fs fs' m, wf_meta s fs m → keeps fs fs' → Π s fs m → Π s fs' m).
Context (Hfirst : ∀ s fs t, Π s fs (first_meta s t)).
Context (Hrefs : ∀ s fs m refs, Π s fs m → Π s fs (with_refs m refs)).
Context (Hop : ∀ E s o b m m1 w w' base sn p w1,
  P s (w_fs w) base o → wf_schema s → bounded w → op_ok s (w_fs w) o →
  op_effect E s o b m1 w w' base sn p w1 →
  wf_meta s (w_fs w') m → head_of m b = Some (sn_id base) → md_snaps m !! sn_id base = Some base →
  sn_parent sn = Some (sn_id base) → (∀ i, is_Some (md_snaps m !! i) → (i < sn_id sn)%Z) →
  Π s (w_fs w') m → Π s (w_fs w') (with_snap m b sn)).
Lemma orderly_meta s σ m : orderly P init σ → sinv s σ → mof σ m → Π s (w_fs (y_world σ)) m.
Proof.
  intros Ho Hs Hm. apply (okc_meta P keeps_branches) with (C := covered); try done.
  - intros σ' m' Hh Hm'. assert (Hr : reachable σ') by (eapply history_weaken; [|exact Hh]; by intros ? ? (?&_)).
    destruct (reachable_sinv σ' m' Hr (mof_stored _ _ Hm')) as (s'&Hs'&_).
    eapply (keeping_covered σ'); [|exact Hs'|done]. eapply history_weaken; [|exact Hh]. by intros ? ? (?&_&?&_).
  - intros E s' o b m' m1 w w' base sn p w1 ? ? ? ? ? ? ? ? ? Hcov Hlt HΠ. eapply Hop; try done.
    intros i Hi. pose proof (covered_max m' i Hcov Hi). lia.
  - eapply history_weaken; [|exact Ho]. intros ? ? (?&[?|?]&?&?&?); split_and!; try done; [by left|by right].
Qed.
End meta.

Section snapshots.
Context (P : schema → fsys → snapshot → op → Prop) (Q : schema → fsys → snapshot → Prop).
Context (HQkeeps : ∀ s fs fs' sn, wf_snap s fs sn → keeps fs fs' → Q s fs sn → Q s fs' sn).
Context (HQfirst : ∀ s fs t, Q s fs (Snapshot 0 None t [] [] stats0 None)).
Context (HQop : ∀ E s o b m1 w w' base sn p w1,
  P s (w_fs w) base o → wf_schema s → bounded w → op_ok s (w_fs w) o →
  op_effect E s o b m1 w w' base sn p w1 → Q s (w_fs w') base → Q s (w_fs w') sn).
Lemma undisturbed_snap s σ m i sn :
  undisturbed P init σ → sinv s σ → mof σ m → md_snaps m !! i = Some sn → Q s (w_fs (y_world σ)) sn.
Proof.
  intros Ho Hs Hm. revert i sn.
  refine (okc_meta P (fun _ => True) _ (fun _ => True) _ (fun s fs m => ∀ i sn, md_snaps m !! i = Some sn → Q s fs sn) _ _ _ _ s σ m _ Hs Hm); try done.
  - intros s' fs fs' m' Hm' Hk Ha i sn Hi. destruct (wm_snaps _ _ _ Hm' i sn Hi) as (_&Hw&_). eapply HQkeeps; [done|done|by eapply Ha].
  - intros s' fs t i sn Hi. cbn in Hi. apply lookup_singleton_Some in Hi as [_ <-]. apply HQfirst.
  - intros E s' o b m' m1 w w' base sn p w1 ? ? ? ? ? ? ? Hb ? _ _ Ha i sn' Hi. cbn in Hi.
    apply lookup_insert_Some in Hi as [[_ <-]|[_ Hi]]; [|by eapply Ha]. eapply HQop; try done. by eapply Ha.
  - eapply history_weaken; [|exact Ho]. intros ? ? (?&?&?&?). by split_and!.
Qed.
End snapshots.
