(** Commits whose check and write are apart. *)
From Verif.Model Require Import System.
From Verif.Spec Require Import Logical Layout Durable Evolution Serial Orderly Split.
From Verif.Proofs Require Import Lib World Resolve SchemaFacts Wf OpSpec Inv FileSet Ops Bodies Txn SysInv ReadRun
  Effects Observe Calls Adds Durable Evolve History Serial Orderly NewId.

Lemma check_after σ hid x p : reachable σ → after σ hid (txn_check x p) = step σ (CReload hid).
Proof.
  intros Hr. cbn [step]. unfold after, with_handle. destruct (y_handles σ !! hid) as [h|] eqn:Hh; [|done].
  destruct (reachable_seen _ _ _ Hr Hh) as (s&q&m&Hseen). pose proof Hseen as [Hs _ Hwf Hst Hm _].
  destruct (sync_spec s (y_world σ) q m h Hst Hm Hwf) as (_&Hm0&_).
  rewrite (txn_check_run q m x p h (y_world σ) Hst Hm0), (reload_run q m h (y_world σ) Hst). done.
Qed.

Lemma write_exact tid hid x p σ σ' m j :
  reachable σ → stored_meta (w_fs (y_world σ)) = Some m → checked tid hid x p σ σ' →
  result σ' hid (txn_write x p) = Some (Ok j) →
  ∃ m' base sn,
    stored_meta (w_fs (y_world (after σ' hid (txn_write x p)))) = Some m'
    ∧ head_snapshot m (x_branch x) = Some base ∧ sn_id base = x_snap x ∧ sn_parent sn = Some (sn_id base)
    ∧ (∀ b i, head_id m b = Some i → (i < sn_id sn)%Z)
    ∧ md_snaps m' = <[sn_id sn := sn]> (md_snaps m)
    ∧ head_id m' (x_branch x) = Some (sn_id sn)
    ∧ (∀ b, b ≠ x_branch x → head_id m' b = head_id m b)
    ∧ md_schema m' = md_schema m.
Proof.
  intros Hr Hm (Htx&Hck&Hh&Hhd) Hres. destruct (result_handle _ _ _ _ Hck) as [h Hh0].
  destruct (reachable_seen _ _ _ Hr Hh0) as (s&q&m0&Hseen). pose proof Hseen as [Hs _ Hwf Hst Hwm _].
  pose proof (stored_meta_eq _ _ _ Hst) as Heq. rewrite Hm in Heq. injection Heq as <-.
  destruct (sync_spec s (y_world σ) q m h Hst Hwm Hwf) as (Hwf0&Hm0&_&_&Hmax).
  rewrite (result_eq _ _ _ _ Hh0), (txn_check_run q m x (Some p) h (y_world σ) Hst Hm0) in Hck. cbn in Hck.
  destruct (head_of m (x_branch x)) as [i|] eqn:Hhead; [|done]. destruct (Z.eqb_spec (x_snap x) i) as [<-|]; [|done]. clear Hck.
  rewrite (check_after _ _ _ _ Hr) in Hh, Hhd.
  assert (Hok : env_ok σ (CReload hid)) by done.
  destruct (step_sinv s σ (CReload hid) Hs Hok) as [Hs1 Hg1].
  destruct (history_sinv s _ σ' Hs1 Hh) as [Hs2 Hk2].
  assert (Hw1 : y_world (step σ (CReload hid)) = y_world σ).
  { cbn [step]. unfold with_handle. rewrite Hh0, (reload_run q m h (y_world σ) Hst). done. }
  assert (Hl1 : y_handles (step σ (CReload hid)) !! hid = Some (sync q m h)).
  { cbn [step]. unfold with_handle. rewrite Hh0, (reload_run q m h (y_world σ) Hst). cbn. by rewrite lookup_insert. }
  rewrite Hl1 in Hhd. rewrite Hw1 in Hk2.
  pose proof (si_handles _ _ Hs2 _ _ Hhd) as Hwf2.
  pose proof (si_txns _ _ Hs _ _ (Some p) Htx eq_refl) as Hwp. cbn in Hwp.
  destruct (commit_run s p (x_branch x) (sync q m h) (y_world σ') (y_world σ')) as [(w'&e&Hrun&_)|(h'&w'&Hrun&Hc)].
  { apply Hs2. } { apply wnew_refl. } { done. } { by eapply wf_patch_keeps. } { by rewrite Hm0. }
  { rewrite (result_eq _ _ _ _ Hhd) in Hres. unfold txn_write in Hres. rewrite (bind_run' _ _ _ _ _ Hrun) in Hres. done. }
  assert (Hw' : y_world (after σ' hid (txn_write x p)) = w').
  { unfold after, with_handle. rewrite Hhd. unfold txn_write. by rewrite (bind_run' _ _ _ _ _ Hrun). }
  pose proof Hc as [(j0&base&sn&u&Hj&Hb&Hbr&(Hid&Hpar&_)&_&Hst'&_) _ _ _]. rewrite Hm0 in *.
  rewrite Hhead in Hj. injection Hj as <-. destruct (wm_snaps _ _ _ Hwm _ _ Hb) as [Hbi _].
  exists (with_snap m (x_branch x) sn), base, sn. rewrite Hw'. split_and!.
  - by eapply stored_meta_eq.
  - unfold head_snapshot. change (head_id m (x_branch x)) with (head_of m (x_branch x)). by rewrite Hhead.
  - done.
  - done.
  - intros b i Hi. apply head_of_max in Hi. lia.
  - done.
  - apply head_with_snap.
  - intros b Hne. unfold head_id, with_snap. cbn. destruct (decide (b = MAIN)) as [->|].
    + destruct (decide (x_branch x = MAIN)) as [Hx|]; [by destruct Hne|done].
    + destruct (decide (x_branch x = MAIN)); [done|]. by rewrite lookup_insert_ne.
  - done.
Qed.
Lemma write_loses_nothing tid hid x p σ σ' m j :
  branch_keeping init σ → stored_meta (w_fs (y_world σ)) = Some m → checked tid hid x p σ σ' →
  stored_meta (w_fs (y_world σ')) = Some m → result σ' hid (txn_write x p) = Some (Ok j) →
  ∃ m', stored_meta (w_fs (y_world (after σ' hid (txn_write x p)))) = Some m'
    ∧ (∀ i sn, md_snaps m !! i = Some sn → md_snaps m' !! i = Some sn)
    ∧ (∀ b, b ≠ x_branch x → head_id m' b = head_id m b).
Proof.
  intros Hk Hm Hc _ Hres.
  destruct (write_exact tid hid x p σ σ' m j (branch_keeping_ok _ _ Hk) Hm Hc Hres)
    as (m'&base&sn&Hm'&_&_&_&Hlt&Hs&_&Ho&_).
  exists m'. split_and!; [done| |done]. intros i sni Hi. rewrite Hs, lookup_insert_ne; [done|].
  intros <-. destruct (history_covered σ m Hk Hm (sn_id sn)) as (b&k&[Hb _]&Hle); [eauto|].
  specialize (Hlt b k Hb). lia.
Qed.
