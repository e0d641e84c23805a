(** The snapshot a call adds is new, and snapshots keep their rows, as long as no
    branch was removed. *)
From Verif.Model Require Import System.
From Verif.Spec Require Import Api Layout Durable Evolution Orderly.
From Verif.Proofs Require Import Lib World Resolve SchemaFacts Wf OpSpec Inv FileSet Ops Bodies Txn SysInv ReadRun
  Effects Observe Calls Adds Durable Evolve History Serial Orderly.

Lemma branch_keeping_ok σ σ' : branch_keeping σ σ' → history env_ok σ σ'.
Proof. apply history_weaken. by intros ? ? [??]. Qed.
Lemma history_covered σ m : branch_keeping init σ → stored_meta (w_fs (y_world σ)) = Some m → covered m.
Proof.
  intros Hk Hm. destruct (reachable_sinv σ m (branch_keeping_ok _ _ Hk) Hm) as (s&Hs&Hmof).
  by apply (keeping_covered σ Hk s Hs).
Qed.

Lemma success_new σ hid E fo o st :
  branch_keeping init σ → env_ok σ (CRun hid E fo o) →
  result σ hid (run_op E fo o) = Some (Ok (JSucceeded st)) →
  ∃ m m' sn,
    stored_meta (w_fs (y_world σ)) = Some m
    ∧ stored_meta (w_fs (y_world (after σ hid (run_op E fo o)))) = Some m'
    ∧ md_snaps m !! sn_id sn = None
    ∧ md_snaps m' = <[sn_id sn := sn]> (md_snaps m).
Proof.
  intros Hf Hok Hres.
  destruct (success_metadata σ hid E fo o st (branch_keeping_ok _ _ Hf) Hok Hres)
    as (h&m&m'&base&sn&_&Hm&Hm'&_&_&Hlt&Hs&_).
  exists m, m', sn. split_and!; [done|done| |done].
  destruct (md_snaps m !! sn_id sn) as [old|] eqn:Hold; [|done]. exfalso.
  destruct (history_covered σ m Hf Hm (sn_id sn)) as (b&j&[Hj _]&Hle); [by rewrite Hold|].
  specialize (Hlt b j Hj). lia.
Qed.
Lemma snapshots_immutable σ σ' hid hid' h' i rows :
  branch_keeping init σ → fresh_history keeps_branches σ σ' →
  y_handles σ' !! hid' = Some h' →
  reads σ hid (Some (VId i)) rows → reads σ' hid' (Some (VId i)) rows.
Proof.
  intros H0 Hh Hh' Hrd. assert (reachable σ) as Hr by by apply branch_keeping_ok.
  destruct (reads_handle _ _ _ _ Hrd) as [h Hh0]. destruct (reachable_handle σ hid h Hr Hh0) as (s&Hs&_).
  destruct (history_sinv s σ σ' Hs (fresh_history_ok _ _ _ Hh)) as [Hs' Hk].
  destruct (sinv_mof s σ Hs) as (m&Hm&_), (sinv_mof s σ' Hs') as (m'&Hm'&_).
  eapply (later_reads s σ σ' m m' hid hid' h h'); try done.
  pose proof (history_covered σ m H0 (mof_stored _ _ Hm)) as Hcov.
  pose proof (fresh_history_ind s σ keeps_branches
    (fun m m' => covered m → covered m' ∧ ∀ i, is_Some (md_snaps m !! i) → md_snaps m' !! i = md_snaps m !! i) Hs) as Hind.
  destruct (reads_meta s σ hid h _ rows m Hs Hh0 Hm Hrd) as [sn Hsn]. unfold snap_of in *. cbn in *.
  assert (is_Some (md_snaps m !! i)) as Hi by eauto.
  refine (proj2 (Hind _ _ σ' Hh m m' Hm Hm' Hcov) i Hi); [by intros|].
  intros c m0 m1 m2 Hkb IH Hch Hc0. destruct (IH Hc0) as [Hc1 Hs1]. split; [by eapply covered_step|].
  intros j Hj. rewrite <-(Hs1 j Hj). eapply fresh_snaps; [done|]. apply covered_max; [done|]. by rewrite Hs1.
Qed.
