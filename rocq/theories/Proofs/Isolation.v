(** What a commit leaves alone. *)
From Verif.Model Require Import System.
From Verif.Spec Require Import Logical Api Layout.
From Verif.Proofs Require Import Lib World Resolve AppendSpec SchemaFacts ReadSpec Wf OpSpec Inv FileSet Ops Bodies Txn
  SysInv ReadRun Effects Observe View Calls Reads Adds.

Lemma same_snapshot_reads s σ σ' hid hid' h h' p m p' m' v v' E b :
  seen s σ hid h p m → seen s σ' hid' h' p' m' → snap_of m' (h_branch h') v' = snap_of m (h_branch h) v →
  keeps (w_fs (y_world σ)) (w_fs (y_world σ')) →
  result σ' hid' (run_read_all E None None v' false b) = result σ hid (run_read_all E None None v false b).
Proof.
  intros [Hs Hh Hwf Hst Hm _] [Hs' Hh' Hwf' Hst' Hm' _] Hb Hk.
  rewrite (result_eq _ _ _ _ Hh), (result_eq _ _ _ _ Hh').
  destruct (run_read_all_run E v b s h (y_world σ) p m (si_world _ _ Hs) Hwf Hst Hm) as (r&->&Hr).
  destruct (run_read_all_run E v' b s h' (y_world σ') p' m' (si_world _ _ Hs') Hwf' Hst' Hm') as (r'&->&Hr').
  rewrite Hb in Hr'. destruct (snap_of m (h_branch h) v) as [sn|] eqn:Hsn.
  - destruct Hr as (rows&->&Hrows), Hr' as (rows'&->&Hrows'). cbn. do 2 f_equal.
    eapply snap_rows_fun; [exact Hrows'|]. eapply snap_rows_keeps; [done| |done]. by eapply snap_of_wf.
  - by subst.
Qed.
(** One call: both systems keep the invariant, files are kept. *)
Lemma step_keeps s σ c :
  sinv s σ → env_ok σ c → sinv s (step σ c) ∧ keeps (w_fs (y_world σ)) (w_fs (y_world (step σ c))).
Proof.
  intros Hs Hok. destruct (step_sinv s σ c Hs Hok) as [Hs' Hg]. split; [done|].
  apply gstep_keeps; [apply (si_world _ _ Hs)|apply (winv_fine s), (si_world _ _ Hs)|done].
Qed.
Lemma step_handle_run σ hid E fo o hid' h :
  y_handles σ !! hid' = Some h → is_Some (y_handles (step σ (CRun hid E fo o)) !! hid').
Proof.
  intros Hh. cbn. unfold with_handle. destruct (y_handles σ !! hid) as [h0|]; [|eauto].
  destruct (run_op E fo o (h0, y_world σ)) as [[h' w'] r]. cbn. apply lookup_insert_is_Some'. eauto.
Qed.
Lemma isolated σ hid h E fo o st :
  reachable σ → env_ok σ (CRun hid E fo o) → y_handles σ !! hid = Some h →
  result σ hid (run_op E fo o) = Some (Ok (JSucceeded st)) →
  ∀ hid' h' E' b, y_handles σ !! hid' = Some h' → 
   (h_branch h' ≠ h_branch h →
    result (after σ hid (run_op E fo o)) hid' (run_read_all E' None None None false b)
    = result σ hid' (run_read_all E' None None None false b))
   ∧ (∀ n, n ≠ h_branch h →
    result (after σ hid (run_op E fo o)) hid' (run_read_all E' None None (Some (VName n)) false b)
    = result σ hid' (run_read_all E' None None (Some (VName n)) false b)).
Proof.
  intros Hr Hok Hh Hres hid' h' E' b Hh'.
  destruct (op_succeeded σ hid E fo o st Hr Hok Hres) as (s&h0&p&m&h1&base&sn&pa&w1&q&H1&H2&_&Hd).
  pose proof (sn_look _ _ _ _ _ _ H1) as Hl. rewrite Hh in Hl. injection Hl as <-.
  destruct (step_keeps s σ (CRun hid E fo o) (sn_inv _ _ _ _ _ _ H1) Hok) as [Hs' Hk].
  change (step σ (CRun hid E fo o)) with (after σ hid (run_op E fo o)) in *.
  destruct (sinv_seen s σ hid' h' (sn_inv _ _ _ _ _ _ H1) Hh') as (p'&m'&H3).
  destruct (stored_fun _ _ _ _ _ (sn_stored _ _ _ _ _ _ H1) (sn_stored _ _ _ _ _ _ H3)) as [<- <-].
  assert (∃ h2, y_handles (after σ hid (run_op E fo o)) !! hid' = Some h2 ∧ h_branch h2 = h_branch h') as (h2&Hh2&Hb2).
  { destruct (decide (hid' = hid)) as [->|Hne].
    - rewrite Hh in Hh'. injection Hh' as <-. exists h1. split; [apply H2|]. exact (od_branch _ _ _ _ _ _ _ _ _ _ _ _ _ Hd).
    - exists h'. split; [|done]. unfold after, with_handle. rewrite Hh.
      destruct (run_op E fo o (h, y_world σ)) as [[h3 w3] r3]. cbn. by rewrite lookup_insert_ne. }
  destruct (sinv_seen s _ hid' h2 Hs' Hh2) as (p2&m2&H4).
  destruct (stored_fun _ _ _ _ _ (sn_stored _ _ _ _ _ _ H2) (sn_stored _ _ _ _ _ _ H4)) as [<- <-].
  assert (Hlt : ∀ b i, head_of m b = Some i → (i < sn_id sn)%Z).
  { intros b' i Hi. destruct (od_body _ _ _ _ _ _ _ _ _ _ _ _ _ Hd) as (h3&_&_&_&Hmax&->).
    pose proof (head_of_max _ _ _ Hi). lia. }
  assert (Hsn : ∀ b', b' ≠ h_branch h → snap_of (with_snap m (h_branch h) sn) b' None = snap_of m b' None).
  { intros b' Hne. unfold snap_of. cbn [version_id].
    assert (head_of (with_snap m (h_branch h) sn) b' = head_of m b') as ->.
    { unfold head_of, with_snap. cbn. destruct (decide (h_branch h = MAIN)) as [Hm|Hm].
      + rewrite !decide_False by congruence. done.
      + case_decide; [done|]. rewrite lookup_insert_ne by done. done. }
    destruct (head_of m b') as [i|] eqn:Hi; [|done]. cbn. apply Hlt in Hi. rewrite lookup_insert_ne by lia. done. }
  split.
  - intros Hne. eapply same_snapshot_reads; [exact H3|exact H4| |done]. rewrite Hb2. by apply Hsn.
  - intros n Hn. eapply same_snapshot_reads; [exact H3|exact H4| |done].
    unfold snap_of. cbn [version_id].
    assert (md_refs (with_snap m (h_branch h) sn) !! n = md_refs m !! n) as ->.
    { unfold with_snap. cbn. case_decide; [done|]. by rewrite lookup_insert_ne. }
    destruct (md_refs m !! n) as [r|] eqn:Hn'; [|done]. cbn.
    rewrite lookup_insert_ne; [done|]. apply not_eq_sym, Z.lt_neq.
    apply (Hlt n). unfold head_of. rewrite decide_False; [by rewrite Hn'|].
    intros ->. by destruct (wm_refs _ _ _ (sn_meta _ _ _ _ _ _ H1) _ _ Hn') as (_&_&?).
Qed.

(** Snapshot ids along parent chains. *)
Lemma chain_decreases σ m :
  reachable σ → stored_meta (w_fs (y_world σ)) = Some m →
  ∀ i sn, md_snaps m !! i = Some sn → sn_id sn = i ∧
    match sn_parent sn with
    | None => i = 0%Z
    | Some j => (0 ≤ j < i)%Z ∧ is_Some (md_snaps m !! j)
    end.
Proof.
  intros Hr Hm. destruct (reachable_inv _ Hr) as [He|[s Hs]].
  - unfold stored_meta in Hm. by rewrite (se_entry _ He) in Hm.
  - destruct (si_world _ _ Hs) as [_ _ (p&m'&Hst&Hwm)]. rewrite (stored_meta_eq _ _ _ Hst) in Hm. injection Hm as ->.
    intros i sn Hi. destruct (wm_snaps _ _ _ Hwm i sn Hi) as (?&_&?). done.
Qed.
