(** Parents, change logs and row counts in histories in which no branch is
    removed; diffs replay in all of them. *)
From Verif.Model Require Import System.
From Verif.Spec Require Import Logical Layout Changes Orderly Free.
From Verif.Proofs Require Import Lib World Resolve AppendSpec SchemaFacts ReadSpec Wf OpSpec
  Inv FileSet Ops Bodies Txn SysInv ReadRun Effects Observe View Mutations DeleteEffect Calls Reads Durable Evolve History Serial Orderly Edge Replay
  Patches PatchFacts PatchEdge PatchMeta.

Lemma keeping_reachable P σ : keeping P init σ → reachable σ.
Proof. apply history_weaken. by intros ? ? [? _]. Qed.
Lemma keeping_free P σ : keeping P init σ → free P init σ.
Proof. apply history_weaken. by intros ? ? (?&_&?). Qed.
Lemma orderly_keeping P σ : orderly P init σ → keeping P init σ.
Proof. apply history_weaken. by intros ? ? (?&_&?&_&?). Qed.
Lemma keeping_within P σ : keeping P init σ →
  history (fun σ c => env_ok σ c ∧ keeps_branches c ∧ within (at_head P) σ c) init σ.
Proof. apply history_weaken. intros ? ? (?&?&?). split_and!; try done. by apply runs_within. Qed.

(** A patch committed on any snapshot that has the manifests it removes. *)
Lemma pedge_edge careful s fs p base i t sn :
  wf_snap s fs base → pedge careful s fs p → next_snap fs p base i t sn → edge s fs base sn careful.
Proof.
  intros Hwb (_&out&inn&kept&del&lost&add&Hout&Hinn&Ho&Hi&Hl&Hst&Hc) Hnext.
  destruct (snap_rows_some _ _ _ Hwb) as [old Hold]. destruct Hwb as (Hnd&_).
  destruct (next_idx p base _ _ _ sn Hnd Hnext) as (Hidx&Hsub&_).
  destruct (base_split s fs base (pa_del_idx p) old Hnd Hsub Hold) as (far&out'&Hfar&Hout'&Hfo).
  pose proof (shows_fun _ _ _ _ _ Hout' Hout) as ->.
  destruct Hnext as (_&_&_&_&Hstats&Hlog).
  exists old, (far ++ inn), (far ++ kept), del, lost, add. refine (conj Hold (conj _ (conj _ (conj _ (conj _ (conj _ Hc)))))).
  - by rewrite Hfo, Ho, <-app_assoc.
  - apply snap_rows_shows. unfold phys_rows, snap_mrows. rewrite Hidx, bind_app, man_rows_app. by apply Forall2_app.
  - by rewrite Hi, <-app_assoc.
  - destruct (pa_log p) as [c|], (sn_log sn) as [lp|]; try done. by exists c.
  - rewrite Hstats. cbn. rewrite Hst. lia.
Qed.
Lemma edges_keeping (P : schema → fsys → snapshot → op → Prop) (careful : Prop) s σ m :
  (∀ s fs sn o, careful → P s fs sn o → careful_op s fs sn o) → (∀ s fs sn o, P s fs sn o → separate_op s fs sn o) →
  keeping P init σ → sinv s σ → mof σ m → edges careful s (w_fs (y_world σ)) m.
Proof.
  intros HP HQ Hk%keeping_within Hs Hm.
  refine (history_meta (fun s fs b o => match b with Some sn => separate_op s fs sn o ∧ (careful → careful_op s fs sn o) | None => True end)
    (pedge careful) (edges careful) _ _ _ _ _ _ _ σ s m _ Hs Hm).
  - clear s σ m Hk Hs Hm. intros s fs fs' m Hm Hk He i sn Hi. specialize (He i sn Hi). destruct (wm_snaps _ _ _ Hm i sn Hi) as (_&Hw&Hpar).
    destruct (sn_parent sn) as [j|].
    + destruct He as (base&Hb&He). exists base. split; [done|]. destruct (wm_snaps _ _ _ Hm j base Hb) as (_&Hwb&_).
      by eapply edge_keeps.
    + destruct He as [He ?]. split; [|done]. by eapply snap_rows_keeps.
  - apply pedge_keeps.
  - intros s0 fs t i sn Hi. cbn in Hi. apply lookup_singleton_Some in Hi as [_ <-]. cbn. split; [|done]. by exists [].
  - intros s0 fs m0 refs He. exact He.
  - intros s0 fs o _ Ho. by destruct o.
  - intros E s0 o b m1 w w' base sn p w1 [Ho1 Ho2] Hs0 Hb Hok Heff. by eapply op_pedge.
  - intros s0 fs p m0 b j base i t sn Hwm Hbase Hlt Hwp Hp He Hnext k sn' Hi. cbn in Hi.
    pose proof Hnext as (Hid&Hpar&_). destruct (wm_snaps _ _ _ Hwm j base Hbase) as (Hbid&Hwb&_).
    assert (Hne : ∀ j, is_Some (md_snaps m0 !! j) → sn_id sn ≠ j) by (intros j' Hj; specialize (Hlt j' Hj); lia).
    apply lookup_insert_Some in Hi as [[<- <-]|[Hni Hi]].
    + rewrite Hpar, Hbid. exists base. split; [cbn; rewrite lookup_insert_ne; [done|]; apply Hne; eauto|].
      by eapply pedge_edge.
    + specialize (He k sn' Hi). destruct (sn_parent sn') as [j'|]; [|done]. destruct He as (base'&Hb'&He). exists base'.
      split; [|done]. cbn. rewrite lookup_insert_ne; [done|]. apply Hne. eauto.
  - eapply history_weaken; [|exact Hk]. intros σ' c (?&?&Hw). split_and!; try done. clear -Hw HP HQ.
    induction c as [| | | |hid E fo o|hid tid|tid E fo o| | | |c IH k]; try done; cbn in *.
    + intros s Hs. specialize (Hw s Hs). destruct (current σ' hid); [|done]. cbn in Hw. split; [by apply HQ|]. intros Hc. by eapply HP.
    + intros x h Hx Hh. specialize (Hw x h Hx Hh). destruct (head_snapshot _ _); [|done]. cbn in Hw. split; [by apply HQ|]. intros Hc. by eapply HP.
    + by apply IH.
Qed.

Lemma replay_diff σ hid h s m E a b batch i j l cs rows_a rows_b :
  keeping separate_op init σ → y_handles σ !! hid = Some h → schema_at σ hid = Some s → stored_meta (w_fs (y_world σ)) = Some m →
  named m a = Some i → named m b = Some j → path_to m i j l →
  (∀ k sn rows, k ∈ i :: l → md_snaps m !! k = Some sn → reads σ hid (Some (VId k)) rows →
     unique_keys (s_pks s) rows ∧ st_rows (sn_stats sn) = Z.of_nat (length rows)) →
  result σ hid (run_diff E a b batch) = Some (Ok cs) →
  reads σ hid (Some (VId i)) rows_a → reads σ hid (Some (VId j)) rows_b →
  apply_changes (s_pks s) rows_a cs ≡ₚ rows_b.
Proof.
  intros Ho Hh Hsch Hm. eapply replay_edges; [by eapply keeping_reachable| |done..].
  destruct (schema_seen σ hid h s (keeping_reachable _ _ Ho) Hh Hsch) as (p&m'&Hseen&Hm'). rewrite Hm in Hm'. injection Hm' as <-.
  eapply (edges_keeping separate_op False); [done|done|done|apply Hseen|exists p; apply Hseen].
Qed.
(** When the operations lose no rows, unique keys suffice. *)
Lemma replay_unique σ hid h s m E a b batch i j l cs rows_a rows_b :
  keeping careful_op init σ → y_handles σ !! hid = Some h → schema_at σ hid = Some s → stored_meta (w_fs (y_world σ)) = Some m →
  named m a = Some i → named m b = Some j → path_to m i j l →
  (∀ k rows, k ∈ i :: l → reads σ hid (Some (VId k)) rows → unique_keys (s_pks s) rows) →
  result σ hid (run_diff E a b batch) = Some (Ok cs) →
  reads σ hid (Some (VId i)) rows_a → reads σ hid (Some (VId j)) rows_b →
  apply_changes (s_pks s) rows_a cs ≡ₚ rows_b.
Proof.
  intros Ho Hh Hsch Hm Ha Hb Hp Hall. eapply (replay_diff σ hid h s m); try done.
  - eapply history_weaken; [|exact Ho]. intros ? ? (?&?&?). split_and!; try done. eapply runs_only_mono; [|done]. intros ????. apply careful_separate.
  - intros k sn rows Hk Hsn Hrd. split; [by eapply Hall|]. eapply (count_exact_free σ hid h m k); try done. by apply keeping_free.
Qed.
