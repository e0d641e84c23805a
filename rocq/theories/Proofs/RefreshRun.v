(** The materialized view after the transactions of a refresh. *)
From Verif.Model Require Import System Refresh.
From Verif.Spec Require Import Logical Pruning Keys Layout Changes Api.
From Verif.Proofs Require Import Lib World Resolve AppendSpec SchemaFacts ReadSpec Wf OpSpec
  Inv FileSet Ops Bodies Txn SysInv ReadRun Effects Observe View Prune Keys DeleteEffect Mutations Calls Diff Edge Replay AnyOp RayDiff Reads
  RefreshStep RefreshEffect RefreshLoop RefreshSource.

Record live (s : schema) (hw : handle * world) (p : path) (m : metadata) : Prop := {
  lv_world : winv s hw.2;
  lv_handle : wf_handle s hw.2 hw.1;
  lv_stored : stored (w_fs hw.2) p m;
  lv_meta : wf_meta s (w_fs hw.2) m }.
Definition counts (s : schema) (fs : fsys) (sn : snapshot) (rows : list row) : Prop :=
  snap_rows s fs sn rows ∧ st_rows (sn_stats sn) = Z.of_nat (length rows).
(** The next snapshot of the materialized view follows its current one. *)
Definition tight (h : handle) (p : path) (m : metadata) : Prop := h_max (sync p m h) = md_current m.

Lemma max_current m : (∀ k r, md_refs m !! k = Some r → (rf_id r ≤ md_current m)%Z) → max_snapshot_id m = md_current m.
Proof.
  unfold max_snapshot_id.
  apply (map_fold_ind (fun z M => (∀ k r, M !! k = Some r → (rf_id r ≤ md_current m)%Z) → z = md_current m)); [done|].
  intros k r M z Hk IH Hall. rewrite IH.
  - specialize (Hall k r). rewrite lookup_insert in Hall. specialize (Hall eq_refl). lia.
  - intros k' r' Hr'. apply (Hall k' r'). rewrite lookup_insert_ne; [done|]. congruence.
Qed.

Section run.
Context {F : Type} (map_fn : F → row → list row) (keep_fn : F → row → bool).
Context (E : env) (O : fopts) (n : nat) (blocks : bool) (v : view F).
Notation body := (refresh_body map_fn keep_fn E O n v).
Notation process := (process map_fn keep_fn).
Notation mv_chain := (mv_chain map_fn keep_fn E O n v).

(** [m'] extends the main branch of [m]. *)
Record extends (m m' : metadata) : Prop := {
  ex_old : ∀ k, (k ≤ md_current m)%Z → md_snaps m' !! k = md_snaps m !! k;
  ex_le : (md_current m ≤ md_current m')%Z;
  ex_refs : md_refs m' = md_refs m }.
Lemma extends_refl m : extends m m.
Proof. by split. Qed.
Lemma extends_trans m1 m2 m3 : extends m1 m2 → extends m2 m3 → extends m1 m3.
Proof.
  intros [A B C] [A' B' C']. split; [|lia|congruence]. intros k Hk. rewrite A' by lia. by apply A.
Qed.

Definition mv_effect (s : schema) (d : option (list (list row))) (a : option (list (list (list row))))
    (w w' : world) (base base' : snapshot) : Prop :=
  ∀ old, snap_rows s (w_fs w) base old → plain_keys s → key_nonnull (s_pks s) (del_rows d) → proper_keys (s_pks s) old →
    ∃ out new, process v (add_rows a) = Ok out ∧ snap_rows s (w_fs w') base' new
      ∧ (st_rows (sn_stats base) = Z.of_nat (length old) → st_rows (sn_stats base') = Z.of_nat (length new) →
         new ≡ₚ filter (fun y => key_of (s_pks s) y ∉ key_of (s_pks s) <$> del_rows d) old ++ (show s <$> out)).

Lemma mv_step s i d a h w p m h' w' j :
  1 ≤ n → live s (h, w) p m → h_branch h = MAIN →
  transactional (body (dels_of i d ++ adds_of i a)) (h, w) = ((h', w'), Ok j) → j ≠ JFailed →
  ∃ q m' base base', live s (h', w') q m' ∧ h_branch h' = MAIN ∧ keeps (w_fs w) (w_fs w') ∧ extends m m'
    ∧ md_snaps m !! md_current m = Some base ∧ md_snaps m' !! md_current m' = Some base'
    ∧ mv_effect s d a w w' base base'
    ∧ match j with
      | JSucceeded _ => (max_snapshot_id m < md_current m')%Z ∧ h_meta h' = m'
          ∧ (tight h p m → md_current m' = (md_current m + 1)%Z)
          ∧ (max_snapshot_id m = md_current m → tight h' q m' ∧ max_snapshot_id m' = md_current m')
      | _ => q = p ∧ m' = m ∧ h' = sync p m h
      end.
Proof.
  intros Hn [Hi Hh Hst Hm] Hb Hrun Hj. cbn [fst snd] in *.
  set (cs := dels_of i d ++ adds_of i a) in *. pose proof (wi_schema _ _ Hi) as Hs.
  pose proof (refresh_body_ok map_fn keep_fn E O n v s cs w m Hn Hi) as Hok.
  destruct (fn_inv s (body cs) h w p m Hi Hh Hst Hm Hok) as (h2&w2&r&Hr&Ht&Hstep&Hi'&Hh').
  rewrite Hrun in Hr. injection Hr as <- <- <-.
  destruct (sync_spec s w p m h Hst Hm Hh) as (Hh0&Hm0&Hf0&Hb0&Hmax).
  destruct (wm_current _ _ _ Hm) as [base Hbase].
  assert (Hwb : wf_snap s (w_fs w) base) by (by apply (wm_snaps _ _ _ Hm) in Hbase as (_&?&_)).
  assert (Hg : get_snapshot (sync p m h) None = Ok base).
  { apply (get_snapshot_snap_of _ m); [done|]. rewrite Hb0, Hb. unfold snap_of, version_id, head_of. by rewrite decide_True. }
  destruct j as [st| |]; [|done|].
  - destruct (txn_done s _ m (sync p m h) w h' w' st Hi Hh0 Hm0 Ht)
      as (pa&w1&j&base2&sn&u&Hfn&Hw1&->&Hj2&Hbase2&Hnext&->&Hsto&Hk1&Hk2&_&_).
    rewrite Hb0, Hb in *. unfold head_of in Hj2. rewrite decide_True in Hj2 by done. injection Hj2 as <-.
    rewrite Hbase in Hbase2. injection Hbase2 as <-. pose proof Hnext as (Hid&_).
    destruct (max_snapshot_id_ge m) as [Hge _].
    assert (Hcur : md_current (with_snap m MAIN sn) = sn_id sn) by (unfold with_snap; cbn; by rewrite decide_True).
    exists (PGen KMeta u), (with_snap m MAIN sn), base, sn.
    split. { constructor; try done. cbn. destruct Hh' as (H1&_). done. }
    split; [done|]. split; [by eapply keeps_trans|]. split.
    { split.
      - intros k Hk. unfold with_snap. cbn. rewrite lookup_insert_ne; [done|]. lia.
      - rewrite Hcur. lia.
      - unfold with_snap. cbn. by rewrite decide_True. }
    split; [done|]. split; [rewrite Hcur; unfold with_snap; cbn; by rewrite lookup_insert|]. split.
    + intros old Hold Hpl Hnn Hprop.
      destruct (refresh_some map_fn keep_fn E O n v s i d a (sync p m h) w w1 w' pa base (h_max (sync p m h) + 1) (w_clock w1) sn old)
        as (out&new&?&?&?); try done. eauto.
    + split; [lia|]. split; [done|]. split.
      * intros Htt. unfold tight in Htt. rewrite Hcur. lia.
      * intros Heq.
        assert (max_snapshot_id (with_snap m MAIN sn) = md_current (with_snap m MAIN sn)) as Hms.
        { destruct (max_snapshot_id_ge m) as [_ Hrefs].
          apply max_current. rewrite Hcur. unfold with_snap. cbn [md_refs]. rewrite decide_True by done.
          intros k r Hk. apply Hrefs in Hk. lia. }
        split; [|done]. unfold tight, sync. cbn [h_file]. rewrite decide_False by done. cbn. done.
  - inversion Ht as [ | w3 e _ _ _ Hc | w3 _ Hfn Hw3 | |]; subst; [by destruct e|].
    pose proof (wnew_keeps _ _ (wi_bounded _ _ Hi) Hw3) as Hk.
    exists p, m, base, base. split.
    { constructor; cbn [fst snd]; [done|done|exact (stored_wnew _ _ _ _ _ Hi Hw3 Hst)|exact (wf_meta_keeps _ _ _ _ Hk Hm)]. }
    split; [by rewrite Hb0|]. split; [done|]. split; [apply extends_refl|]. split; [done|]. split; [done|]. split; [|done].
    intros old Hold Hpl Hnn Hprop.
    destruct (refresh_none map_fn keep_fn E O n v s i d a (sync p m h) w w' base old) as (out&Hout&Heq); try done.
    exists out, old. split; [done|]. split; [by eapply snap_rows_keeps|]. by rewrite Heq.
Qed.
End run.
