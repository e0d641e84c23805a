(** Where new tags and branches point. *)
From Verif.Model Require Import System.
From Verif.Spec Require Import Api Layout Changes Evolution.
From Verif.Proofs Require Import Lib World Wf Inv Txn SysInv ReadRun Observe Durable Evolve History Serial Calls.

Definition edit_name (d : edit) : option (string * option Z * ref_kind) :=
  match d with
  | EdAddTag n sid => Some (n, sid, RTag)
  | EdAddBranch n => Some (n, None, RBranch)
  | _ => None
  end.
Lemma added_points σ hid h d n sid k :
  reachable σ → y_handles σ !! hid = Some h → edit_name d = Some (n, sid, k) →
  result σ hid (run_edit d) = Some (Ok tt) →
  ∃ m' u, stored (w_fs (y_world (after σ hid (run_edit d)))) (PGen KMeta u) m'
    ∧ y_handles (after σ hid (run_edit d)) !! hid = Some (Handle m' (MFull (PGen KMeta u)) (h_branch h) (h_max h))
    ∧ m' = with_refs (h_meta h) (<[n := SRef (default (md_current (h_meta h)) sid) k]> (md_refs (h_meta h)))
    ∧ wstep (y_world σ) (y_world (after σ hid (run_edit d))).
Proof.
  intros Hr Hl Hd Hok. destruct (reachable_seen _ _ _ Hr Hl) as (s&p&m&Hs).
  assert (Hrun : run_edit d = add_reference n k sid).
  { destruct d; cbn in Hd; try done; by injection Hd as <- <- <-. }
  rewrite (result_eq _ _ _ _ Hl), Hrun in Hok.
  destruct (add_reference_run s h (y_world σ) n k sid) as [(e&He&_)|(_&_&_&_&u&w'&He&Hws&_&Hst&_)];
    [apply Hs|apply Hs|by rewrite He in Hok|].
  rewrite <-Hrun in He. rewrite (after_eq _ _ _ _ _ _ _ Hl He). cbn. rewrite lookup_insert. eauto 10.
Qed.
Lemma reach_edit σ hid d : reachable σ → reachable (after σ hid (run_edit d)).
Proof. intros Hr. change (reachable (step σ (CEdit hid d))). apply HistStep; [done|exact I]. Qed.
Lemma added_at_head σ hid h d n k rows :
  reachable σ → y_handles σ !! hid = Some h → h_branch h = MAIN → up_to_date σ hid → edit_name d = Some (n, None, k) →
  result σ hid (run_edit d) = Some (Ok tt) → reads σ hid None rows →
  reads (after σ hid (run_edit d)) hid (Some (VName n)) rows.
Proof.
  intros Hr Hl Hb Hup Hd Hok Hrows. destruct (added_points _ _ _ _ _ _ _ Hr Hl Hd Hok) as (m'&u&Hst'&Hl'&Hm'&Hws).
  assert (Hr' : reachable (after σ hid (run_edit d))).
  { change (reachable (step σ (CEdit hid d))). apply HistStep; [done|exact I]. }
  destruct (reachable_seen _ _ _ Hr Hl) as (s&p&m&Hs). destruct (reachable_seen _ _ _ Hr' Hl') as (s'&p'&m1&Hs').
  assert (m1 = m') as ->.
  { destruct (sn_stored _ _ _ _ _ _ Hs') as [He1 Hm1], Hst' as [He2 Hm2]. congruence. }
  assert (Hm : h_meta h = m).
  { specialize (Hup h Hl). pose proof (stored_meta_eq _ _ _ (sn_stored _ _ _ _ _ _ Hs)). congruence. }
  assert (s' = s) as ->.
  { rewrite <-(wm_schema _ _ _ (sn_meta _ _ _ _ _ _ Hs)), <-(wm_schema _ _ _ (sn_meta _ _ _ _ _ _ Hs')). by subst m' m. }
  apply (reads_iff _ _ _ _ _ _ _ _ Hs) in Hrows as (sn&Hsn&Hrows).
  apply (reads_iff _ _ _ _ _ _ _ _ Hs'). exists sn. split.
  - subst m'. rewrite Hm. unfold snap_of, version_id in *. cbn. rewrite lookup_insert. cbn.
    rewrite Hb in Hsn. unfold head_of in Hsn. by rewrite decide_True in Hsn by done.
  - eapply snap_rows_keeps; [| |done]; [|exact (snap_of_wf _ _ _ _ _ _ (sn_meta _ _ _ _ _ _ Hs) Hsn)].
    assert (Hwi : winv s (y_world σ)) by apply Hs. eapply wstep_keeps; [apply Hwi|by eapply winv_fine|done].
Qed.
Lemma starts_at_head σ hid h d n rows :
  reachable σ → y_handles σ !! hid = Some h → h_branch h = MAIN → up_to_date σ hid → d = EdAddBranch n ∨ d = EdAddTag n None →
  result σ hid (run_edit d) = Some (Ok tt) → reads σ hid None rows →
  reads (after σ hid (run_edit d)) hid (Some (VName n)) rows.
Proof. intros Hr Hl Hb Hup [->| ->]; by eapply added_at_head. Qed.
Lemma starts_at σ hid h d n sid :
  reachable σ → y_handles σ !! hid = Some h → (d = EdAddBranch n ∧ sid = None) ∨ d = EdAddTag n sid →
  result σ hid (run_edit d) = Some (Ok tt) →
  ∃ m', stored_meta (w_fs (y_world (after σ hid (run_edit d)))) = Some m'
    ∧ named m' (VName n) = Some (match sid with Some i => i | None => md_current (h_meta h) end).
Proof.
  intros Hr Hl Hd Hok. assert (∃ k, edit_name d = Some (n, sid, k)) as [k Hk] by (destruct Hd as [[-> ->]| ->]; by eexists).
  destruct (added_points _ _ _ _ _ _ _ Hr Hl Hk Hok) as (m'&u&Hst&_&->&_). eexists. split; [by eapply stored_meta_eq|].
  cbn. rewrite lookup_insert. by destruct sid.
Qed.
