(** delete, insert and upsert observed through handles; calls that do not
    succeed. *)
From Verif.Model Require Import System.
From Verif.Spec Require Import Logical Api Pruning Keys Layout.
From Verif.Proofs Require Import Lib World Resolve AppendSpec SchemaFacts ReadSpec Wf OpSpec
  Inv FileSet Ops Bodies Txn SysInv ReadRun Effects Observe View Prune Keys DeleteEffect Mutations.

Lemma stored_meta_eq fs p m : stored fs p m → stored_meta fs = Some m.
Proof. intros [Hp Hm]. unfold stored_meta. by rewrite Hp, Hm. Qed.
Lemma current_eq s σ hid h p m : seen s σ hid h p m → current σ hid = snap_of m (h_branch h) None.
Proof.
  intros [_ Hh _ Hst _ _]. unfold current. rewrite Hh. cbn. by rewrite (stored_meta_eq _ _ _ Hst).
Qed.
Lemma layout_eq s σ hid h p m sn :
  seen s σ hid h p m → snap_of m (h_branch h) None = Some sn →
  layout σ hid = snap_layout (w_fs (y_world σ)) sn.
Proof. intros H Hsn. unfold layout. by rewrite (current_eq _ _ _ _ _ _ H), Hsn. Qed.

(** A succeeded mutating call with its schema and the rows before. *)
Lemma op_before σ hid s E fo o st before :
  reachable σ → env_ok σ (CRun hid E fo o) → schema_at σ hid = Some s → reads σ hid None before →
  result σ hid (run_op E fo o) = Some (Ok (JSucceeded st)) →
  ∃ h p m h' base sn pa w1 q,
    seen s σ hid h p m
    ∧ seen s (after σ hid (run_op E fo o)) hid h' q (with_snap m (h_branch h) sn)
    ∧ op_done E s o st h (y_world σ) h' (y_world (after σ hid (run_op E fo o))) m base sn pa w1
    ∧ snap_rows s (w_fs (y_world σ)) base before
    ∧ layout σ hid = snap_layout (w_fs (y_world σ)) base
    ∧ (∀ rows, snap_rows s (w_fs (y_world (after σ hid (run_op E fo o)))) sn rows →
         reads (after σ hid (run_op E fo o)) hid None rows).
Proof.
  intros Hr Hok Hsch Hb Hres.
  destruct (op_succeeded σ hid E fo o st Hr Hok Hres) as (s'&h&p&m&h'&base&sn&pa&w1&q&H1&H2&_&Hd).
  assert (s' = s) as -> by (rewrite (sn_schema _ _ _ _ _ _ H1) in Hsch; congruence).
  pose proof (reads_iff _ _ _ _ _ _ None before H1) as [Hiff _]. destruct (Hiff Hb) as (sn0&Hsn0&Hold).
  pose proof (od_base _ _ _ _ _ _ _ _ _ _ _ _ _ Hd) as Hbase.
  rewrite Hbase in Hsn0. injection Hsn0 as <-.
  exists h, p, m, h', base, sn, pa, w1, q. split_and!; try done.
  - by eapply layout_eq.
  - intros rows Hrows. eapply op_done_reads; [exact H1|exact H2|exact Hd|done|]. done.
Qed.
Lemma seen_schema s σ hid h p m : seen s σ hid h p m → wf_schema s.
Proof. intros H. apply (wi_schema _ _ (si_world _ _ (sn_inv _ _ _ _ _ _ H))). Qed.

Lemma delete_removes σ hid s E fo e st before :
  reachable σ → schema_at σ hid = Some s → reads σ hid None before →
  safe_filter s e → no_nan_keys (s_pks s) before → decided e before →
  result σ hid (run_delete E fo e) = Some (Ok (JSucceeded st)) →
  ∃ rows lost, reads (after σ hid (run_delete E fo e)) hid None rows
    ∧ filter (fun r => matches e r = false) before ≡ₚ rows ++ lost
    ∧ (lost = [] ↔ lossless (layout σ hid) (fun r => matches e r = true)).
Proof.
  intros Hr Hsch Hb Hsafe Hnan Hdec Hres.
  destruct (op_before σ hid s E fo (ODelete e) st before Hr) as (h&p&m&h'&base&sn&pa&w1&q&H1&H2&Hd&Hold&Hlay&Hrd); [by intros ??|done..|].
  destruct (delete_effect E s e _ _ _ _ _ _ _ _ before (seen_schema _ _ _ _ _ _ H1) Hd Hold Hsafe Hnan Hdec)
    as (new&lost&Hnew&Hperm&Hiff).
  exists new, lost. rewrite Hlay. split_and!; [|done|apply Hiff..]. by apply Hrd.
Qed.
Lemma delete_only_removes σ hid E fo e st before :
  reachable σ → reads σ hid None before →
  result σ hid (run_delete E fo e) = Some (Ok (JSucceeded st)) →
  ∃ rows, reads (after σ hid (run_delete E fo e)) hid None rows ∧ rows ⊆+ before.
Proof.
  intros Hr Hb Hres. destruct (result_handle _ _ _ _ Hres) as [h0 Hh0].
  assert (schema_at σ hid = Some (md_schema (h_meta h0))) as Hsch by (unfold schema_at; by rewrite Hh0).
  destruct (op_before σ hid (md_schema (h_meta h0)) E fo (ODelete e) st before Hr) as (h&p&m&h'&base&sn&pa&w1&q&H1&H2&Hd&Hold&Hlay&Hrd); [by intros ??|done..|].
  destruct (delete_effect_sub E _ e _ _ _ _ _ _ _ _ before Hd Hold) as (new&Hnew&Hsub).
  exists new. split; [by apply Hrd|done].
Qed.

Lemma insert_adds σ hid s E fo data st before :
  reachable σ → schema_at σ hid = Some s → plain_keys s → reads σ hid None before →
  proper_keys (s_pks s) before → key_nonnull (s_pks s) data →
  result σ hid (run_insert E fo MInsert data) = Some (Ok (JSucceeded st)) →
  ∃ input, tsel (read_columns s) data = Ok input
    ∧ reads (after σ hid (run_insert E fo MInsert data)) hid None (before ++ input)
    ∧ unique_keys (s_pks s) data
    ∧ ∀ y d, y ∈ before → d ∈ data → key_of (s_pks s) y ≠ key_of (s_pks s) d.
Proof.
  intros Hr Hsch Hpl Hb Hprop Hnn Hres.
  destruct (op_before σ hid s E fo (OInsert MInsert data) st before Hr) as (h&p&m&h'&base&sn&pa&w1&q&H1&H2&Hd&Hold&Hlay&Hrd); [by intros ??|done..|].
  destruct (insert_effect E s data _ _ _ _ _ _ _ _ before (seen_schema _ _ _ _ _ _ H1) Hpl Hd Hold Hnn Hprop)
    as (input&Hin&Hnew&Hnd&Hno).
  exists input. split_and!; try done. by apply Hrd.
Qed.
Lemma upsert_replaces σ hid s E fo data st before :
  reachable σ → schema_at σ hid = Some s → plain_keys s → reads σ hid None before →
  proper_keys (s_pks s) before → key_nonnull (s_pks s) data →
  result σ hid (run_insert E fo MUpsert data) = Some (Ok (JSucceeded st)) →
  ∃ input rows lost, tsel (read_columns s) data = Ok input
    ∧ reads (after σ hid (run_insert E fo MUpsert data)) hid None (rows ++ input)
    ∧ unique_keys (s_pks s) data
    ∧ filter (fun y => key_of (s_pks s) y ∉ key_of (s_pks s) <$> data) before ≡ₚ rows ++ lost
    ∧ (lost = [] ↔ lossless (layout σ hid) (fun r => key_of (s_pks s) r ∈ key_of (s_pks s) <$> data)).
Proof.
  intros Hr Hsch Hpl Hb Hprop Hnn Hres.
  destruct (op_before σ hid s E fo (OInsert MUpsert data) st before Hr) as (h&p&m&h'&base&sn&pa&w1&q&H1&H2&Hd&Hold&Hlay&Hrd); [by intros ??|done..|].
  destruct (upsert_effect E s data _ _ _ _ _ _ _ _ before (seen_schema _ _ _ _ _ _ H1)
      (wi_bounded _ _ (si_world _ _ (sn_inv _ _ _ _ _ _ H1))) Hpl Hd Hold Hnn Hprop)
    as (input&new&lost&Hin&Hnew&Hnd&Hperm&Hiff).
  exists input, new, lost. rewrite Hlay. split_and!; try done; [by apply Hrd|apply Hiff..].
Qed.

(** * Calls that do not succeed *)
Lemma run_op_unsuccessful s E fo o h w p m h' w' r :
  winv s w → wf_handle s w h → op_ok s (w_fs w) o → stored (w_fs w) p m → wf_meta s (w_fs w) m →
  run_op E fo o (h, w) = ((h', w'), r) → (∀ st, r ≠ Ok (JSucceeded st)) →
  wnew w w' ∧ stored (w_fs w') p m ∧ h_branch h' = h_branch h.
Proof.
  intros Hi Hh Hok Hst Hm Hrun Hns.
  destruct (run_op_run E fo s o h w p m Hi Hh Hok Hst Hm) as (h1&w1&r1&Hr1&Ht).
  rewrite Hrun in Hr1. injection Hr1 as <- <- <-.
  destruct (sync_spec s w p m h Hst Hm Hh) as (_&_&_&Hb0&_).
  assert (Hgo : wnew w w' ∧ h_branch h' = h_branch h).
  { destruct Ht as [Hn|w1 e _ _ Hw|w1 _ _ Hw|q w1 w2 _ Hw1 Hw|q w1 h1 w2 _ Hw1 Hc]; try (by split).
    - split; [apply wnew_refl|done].
    - by destruct (Hns (pa_stats q)). }
  destruct Hgo as [Hw Hb]. split_and!; try done. by eapply stored_wnew.
Qed.
Lemma seen_move s σ σ' hid h p m :
  seen s σ hid h p m → sinv s σ' → keeps (w_fs (y_world σ)) (w_fs (y_world σ')) →
  stored (w_fs (y_world σ')) p m →
  (∃ h', y_handles σ' !! hid = Some h' ∧ h_branch h' = h_branch h) →
  ∃ h', seen s σ' hid h' p m ∧ h_branch h' = h_branch h.
Proof.
  intros [Hs Hh Hwf Hst Hm Hsc] Hs' Hk Hst' (h'&Hh'&Hb). exists h'. split; [|done].
  pose proof (si_handles _ _ Hs' _ _ Hh') as Hwf'.
  constructor; try done; [by eapply wf_meta_keeps|]. unfold schema_at. rewrite Hh'. cbn. f_equal. apply Hwf'.
Qed.
(** Full reads are the same when the stored metadata and the branch are. *)
Lemma same_reads s σ σ' hid h h' p m v E b :
  seen s σ hid h p m → seen s σ' hid h' p m → h_branch h' = h_branch h →
  keeps (w_fs (y_world σ)) (w_fs (y_world σ')) →
  result σ' hid (run_read_all E None None v false b) = result σ hid (run_read_all E None None v false b).
Proof.
  intros [Hs Hh Hwf Hst Hm _] [Hs' Hh' Hwf' Hst' Hm' _] Hb Hk.
  rewrite (result_eq _ _ _ _ Hh), (result_eq _ _ _ _ Hh').
  destruct (run_read_all_run E v b s h (y_world σ) p m (si_world _ _ Hs) Hwf Hst Hm) as (r&->&Hr).
  destruct (run_read_all_run E v b s h' (y_world σ') p m (si_world _ _ Hs') Hwf' Hst' Hm') as (r'&->&Hr').
  rewrite Hb in Hr'. destruct (snap_of m (h_branch h) v) as [sn|] eqn:Hsn.
  - destruct Hr as (rows&->&Hrows), Hr' as (rows'&->&Hrows'). cbn. do 2 f_equal.
    eapply snap_rows_fun; [exact Hrows'|]. eapply snap_rows_keeps; [done| |done]. by eapply snap_of_wf.
  - by subst.
Qed.
Lemma unsuccessful_unchanged σ hid E fo o r :
  reachable σ → env_ok σ (CRun hid E fo o) →
  result σ hid (run_op E fo o) = Some r → (∀ st, r ≠ Ok (JSucceeded st)) →
  stored_meta (w_fs (y_world (after σ hid (run_op E fo o)))) = stored_meta (w_fs (y_world σ))
  ∧ ∀ hid' v E' b, result (after σ hid (run_op E fo o)) hid' (run_read_all E' None None v false b)
                   = result σ hid' (run_read_all E' None None v false b).
Proof.
  intros Hr Hok Hres Hns. destruct (result_handle _ _ _ _ Hres) as [h Hh].
  destruct (reachable_seen _ _ _ Hr Hh) as (s&p&m&Hseen). pose proof Hseen as [Hs _ Hwf Hst Hm _].
  rewrite (result_eq _ _ _ _ Hh) in Hres. injection Hres as Hres.
  destruct (run_op E fo o (h, y_world σ)) as [[h' w'] r'] eqn:Hrun. cbn in Hres. subst r'.
  assert (Hop : op_ok s (w_fs (y_world σ)) o).
  { specialize (Hok _ Hh). destruct Hwf as (Hwm&_). by rewrite (wm_schema _ _ _ Hwm) in Hok. }
  destruct (run_op_unsuccessful s E fo o h (y_world σ) p m h' w' r (si_world _ _ Hs) Hwf Hop Hst Hm Hrun Hns) as (Hw&Hst'&Hb).
  pose proof (after_eq σ hid h (run_op E fo o) h' w' _ Hh Hrun) as Haf.
  pose proof (step_sinv s σ (CRun hid E fo o) Hs Hok) as [Hs' _].
  change (step σ (CRun hid E fo o)) with (after σ hid (run_op E fo o)) in Hs'. rewrite Haf in *.
  pose proof (wnew_keeps _ _ (wi_bounded _ _ (si_world _ _ Hs)) Hw) as Hk.
  split. { cbn. by rewrite (stored_meta_eq _ _ _ Hst), (stored_meta_eq _ _ _ Hst'). }
  intros hid' v E' b. destruct (y_handles σ !! hid') as [hb|] eqn:Hh2.
  2:{ unfold result, with_handle. cbn. rewrite lookup_insert_ne, Hh2; [done|congruence]. }
  destruct (sinv_seen s σ hid' hb Hs Hh2) as (p2&m2&Hs2).
  destruct (stored_fun _ _ _ _ _ Hst (sn_stored _ _ _ _ _ _ Hs2)) as [<- <-].
  destruct (seen_move s σ _ hid' hb p m Hs2 Hs' Hk Hst') as (hb'&Hs3&Hb3).
  { cbn. destruct (decide (hid = hid')) as [<-|Hne].
    - rewrite lookup_insert. rewrite Hh in Hh2. injection Hh2 as <-. eauto.
    - rewrite lookup_insert_ne by done. eauto. }
  by eapply same_reads.
Qed.
