(** The outcome of any operation run in a transaction. *)
From Verif.Model Require Import System.
From Verif.Spec Require Import Logical Api Layout.
From Verif.Proofs Require Import Lib World Resolve AppendSpec SchemaFacts ReadSpec Wf OpSpec Inv FileSet Ops Bodies Txn
  SysInv ReadRun Effects Observe View.

Definition body_ok (s : schema) (fn : H (option patch)) (w : world) (m : metadata) : Prop :=
  ∀ h0, wf_handle s w h0 → h_meta h0 = m →
    ∃ w' r, fn (h0, w) = ((h0, w'), r) ∧ wnew w w' ∧ match r with Ok op => wf_opatch s (w_fs w') op | _ => True end.

Record fn_done (s : schema) (fn : H (option patch)) (st : stats) (h : handle) (w : world)
    (h' : handle) (w' : world) (m : metadata) (base sn : snapshot) (p : patch) (w1 : world) : Prop := {
  fd_body : ∃ h0, wf_handle s w h0 ∧ h_branch h0 = h_branch h ∧ h_meta h0 = m ∧ fn (h0, w) = ((h0, w1), Ok (Some p));
  fd_patch : wf_patch s (w_fs w1) p;
  fd_new : wnew w w1;
  fd_stats : st = pa_stats p;
  fd_base : snap_of m (h_branch h) None = Some base;
  fd_wf_base : wf_snap s (w_fs w) base;
  fd_next : next_snap (w_fs w') p base (sn_id sn) (w_clock w) sn;
  fd_branch : h_branch h' = h_branch h;
  fd_keeps1 : keeps (w_fs w) (w_fs w1);
  fd_keeps2 : keeps (w_fs w1) (w_fs w') }.

Lemma fn_inv s fn h w p m :
  winv s w → wf_handle s w h → stored (w_fs w) p m → wf_meta s (w_fs w) m → body_ok s fn w m →
  ∃ h' w' r, transactional fn (h, w) = ((h', w'), r) ∧ txn_result s fn m (sync p m h) w h' w' r
    ∧ wstep w w' ∧ winv s w' ∧ wf_handle s w' h'.
Proof.
  intros Hi Hh Hst Hm Hfn. destruct (transactional_run s fn h w p m Hi Hh Hst Hm Hfn) as (h'&w'&r&Hr&Ht).
  destruct (sync_spec s w p m h Hst Hm Hh) as (Hh0&_).
  exists h', w', r. split_and!; try done; eapply txn_result_step; done.
Qed.
Lemma fn_succeeded s σ hid h p m fn st :
  seen s σ hid h p m → body_ok s fn (y_world σ) m →
  result σ hid (transactional fn) = Some (Ok (JSucceeded st)) →
  ∃ h' q base sn pa w1,
    seen s (after σ hid (transactional fn)) hid h' q (with_snap m (h_branch h) sn)
    ∧ fn_done s fn st h (y_world σ) h' (y_world (after σ hid (transactional fn))) m base sn pa w1.
Proof.
  intros Hseen Hok Hres. pose proof Hseen as [Hs Hh Hwf Hst Hm _].
  rewrite (result_eq _ _ _ _ Hh) in Hres. injection Hres as Hres.
  destruct (fn_inv s fn h (y_world σ) p m (si_world _ _ Hs) Hwf Hst Hm Hok) as (h'&w'&r&Hr&Ht&Hstep&Hi'&Hh').
  rewrite Hr in Hres. cbn in Hres. subst r.
  destruct (sync_spec s (y_world σ) p m h Hst Hm Hwf) as (Hh0&Hm0&Hf0&Hb0&Hmax).
  destruct (txn_done s _ m (sync p m h) (y_world σ) h' w' st (si_world _ _ Hs) Hh0 Hm0 Ht)
    as (pa&w1&j&base&sn&u&Hfn&Hw1&->&Hj&Hbase&Hn&->&Hsto&Hk1&Hk2&_&_).
  pose proof Hn as (Hid&_).
  pose proof (after_eq σ hid h (transactional fn) _ w' _ Hh Hr) as Haf.
  assert (Hs' : sinv s (after σ hid (transactional fn))).
  { unfold after. apply (with_handle_inv s σ hid (transactional fn) Hs). intros h2 Hl _.
    rewrite Hh in Hl. injection Hl as <-. eexists _, _, _. split; [exact Hr|]. done. }
  destruct (Hok _ Hh0 Hm0) as (w2&r2&Hr2&_&Hp). rewrite Hfn in Hr2. injection Hr2 as <- <-. cbn in Hp.
  rewrite Hb0 in *.
  eexists _, (PGen KMeta u), base, sn, pa, w1. split.
  - constructor; try done.
    + rewrite Haf. cbn. by rewrite lookup_insert.
    + by rewrite Haf.
    + by rewrite Haf.
    + rewrite Haf. cbn. apply Hh'.
    + rewrite Haf. unfold schema_at. cbn. rewrite lookup_insert. cbn. f_equal. apply Hh'.
  - rewrite Haf. cbn. constructor; try done.
    + exists (sync p m h). by split_and!.
    + unfold snap_of. cbn [version_id]. by rewrite Hj.
    + by apply (wm_snaps _ _ _ Hm) in Hbase as (_&?&_).
    + by rewrite Hid, <-(wle_clock _ _ _ Hw1).
Qed.
Lemma fn_done_reads s σ σ' hid h p m h' q fn st base sn pa w1 before rows :
  seen s σ hid h p m → seen s σ' hid h' q (with_snap m (h_branch h) sn) →
  fn_done s fn st h (y_world σ) h' (y_world σ') m base sn pa w1 →
  reads σ hid None before →
  (snap_rows s (w_fs (y_world σ)) base before → snap_rows s (w_fs (y_world σ')) sn rows) →
  reads σ' hid None rows.
Proof.
  intros Hseen Hseen' Hd Hb Hrows. apply (reads_iff _ _ _ _ _ _ _ _ Hseen) in Hb as (sn0&Hsn0&Hbefore).
  rewrite (fd_base _ _ _ _ _ _ _ _ _ _ _ _ Hd) in Hsn0. injection Hsn0 as <-.
  apply (reads_iff _ _ _ _ _ _ _ _ Hseen'). exists sn. rewrite (fd_branch _ _ _ _ _ _ _ _ _ _ _ _ Hd), snap_of_with_snap.
  eauto.
Qed.
Lemma fn_done_adds s fn st h w h' w' m base sn p w1 old rows l :
  fn_done s fn st h w h' w' m base sn p w1 → pa_del_idx p = [] →
  snap_rows s (w_fs w) base old →
  resolve_rows (records_in (w_fs w1)) (s_recs s) (man_rows (w_fs w1) (pa_add_idx p ≫= man_at (w_fs w1))) = Some l →
  tsel (out_names s) l = Ok rows →
  snap_rows s (w_fs w') sn (old ++ rows).
Proof.
  intros [_ ? _ _ _ ? Hn _ ? ?] Hdel Hold Hl Hr. eapply (commit_adds s w1 w' p base); try done.
  - by eapply wf_snap_keeps.
  - by eapply snap_rows_keeps.
Qed.
