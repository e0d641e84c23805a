(** Primary keys stay unique under insert, upsert and delete. *)
From Verif.Model Require Import System.
From Verif.Spec Require Import Logical Layout Pruning Keys Durable Serial Orderly Uniqueness.
From Verif.Proofs Require Import Shards RayAppend RayInsert RayDelete RayEffects.
From Verif.Proofs Require Import Lib World Resolve AppendSpec SchemaFacts ReadSpec Wf OpSpec Inv FileSet Ops Bodies Txn SysInv ReadRun
  Effects Observe View Prune Keys Mutations Calls Reads Durable Evolve History Serial Orderly Edge.

Lemma filter_sub {A} (P : A → Prop) `{∀ x, Decision (P x)} (l : list A) : filter P l ⊆+ l.
Proof.
  induction l as [|x l IH]; [done|]. rewrite filter_cons. destruct (decide (P x)); [by apply submseteq_skip|].
  by apply submseteq_cons.
Qed.
Section unique.
Context (s : schema) (Hs : wf_schema s) (Hpl : plain_keys s).
Definition distinct (rows : list row) : Prop := unique_keys (s_pks s) rows ∧ proper_keys (s_pks s) rows.
Definition dmeta (fs : fsys) (m : metadata) : Prop :=
  ∀ i sn rows, md_snaps m !! i = Some sn → snap_rows s fs sn rows → distinct rows.

Lemma dmeta_keeps fs fs' m : keeps fs fs' → wf_meta s fs m → dmeta fs m → dmeta fs' m.
Proof.
  intros Hk Hm Hd i sn rows Hi Hrows. destruct (wm_snaps _ _ _ Hm i sn Hi) as (_&Hw&_).
  destruct (snap_rows_some s fs sn Hw) as [rows' Hrows'].
  assert (rows = rows') as ->; [|by eapply Hd]. eapply snap_rows_fun; [exact Hrows|]. by eapply snap_rows_keeps.
Qed.
Lemma distinct_sub rows rows' : distinct rows → rows' ⊆+ rows → distinct rows'.
Proof.
  intros [Hu Hp] Hsub. split.
  - apply submseteq_Permutation in Hsub as [k Hk]. unfold unique_keys in *.
    rewrite Hk, fmap_app in Hu. by apply NoDup_app in Hu as (?&_).
  - intros r n Hr. apply Hp. by eapply elem_of_submseteq.
Qed.
Lemma key_shown r y : tsel (out_names s) [r] = Ok [y] → key_of (s_pks s) y = key_of (s_pks s) r.
Proof.
  intros Hsel. unfold key_of. apply map_ext_in. intros n Hn%elem_of_list_In. unfold row_look.
  cbn in Hsel. destruct (rsel (out_names s) r) as [y'|] eqn:Hy; [|done]. injection Hsel as <-.
  rewrite (rsel_look _ _ _ n Hy); [done|]. apply out_names_in. by apply Hs.
Qed.
Lemma keys_shown data input : tsel (out_names s) data = Ok input → key_of (s_pks s) <$> input = key_of (s_pks s) <$> data.
Proof.
  revert input. induction data as [|r data IH]; intros input Hsel; cbn in Hsel.
  - by injection Hsel as <-.
  - destruct (rsel (out_names s) r) as [y|] eqn:Hy; [|done]. cbn in Hsel.
    destruct (rmapM (rsel (out_names s)) data) as [ys|] eqn:Hys; [|done]. injection Hsel as <-. cbn. f_equal.
    + apply key_shown. cbn. by rewrite Hy.
    + by apply IH.
Qed.
Lemma proper_of_keys rows rows' :
  key_of (s_pks s) <$> rows' = key_of (s_pks s) <$> rows → proper_keys (s_pks s) rows → proper_keys (s_pks s) rows'.
Proof.
  intros Heq Hp r n Hr Hn. assert (Hin : key_of (s_pks s) r ∈ key_of (s_pks s) <$> rows).
  { rewrite <-Heq. by apply elem_of_list_fmap_1. }
  apply elem_of_list_fmap in Hin as (r'&Hk&Hr'). specialize (Hp r' n Hr' Hn).
  assert (row_look r n = row_look r' n) as ->; [|done].
  unfold key_of in Hk. apply elem_of_list_lookup in Hn as [i Hi].
  assert (Hl : (row_look r <$> s_pks s) !! i = (row_look r' <$> s_pks s) !! i) by by rewrite Hk.
  rewrite !list_lookup_fmap, Hi in Hl. by injection Hl.
Qed.
Lemma proper_app rows rows' : proper_keys (s_pks s) rows → proper_keys (s_pks s) rows' → proper_keys (s_pks s) (rows ++ rows').
Proof. intros H1 H2 r n [Hr|Hr]%elem_of_app; auto. Qed.

(** One operation. *)
Lemma effect_distinct E o b m w w' base sn p w1 before rows :
  bounded w → op_ok s (w_fs w) o → op_effect E s o b m w w' base sn p w1 → keyed_op s (w_fs w) base o →
  snap_rows s (w_fs w) base before → distinct before → snap_rows s (w_fs w') sn rows → distinct rows.
Proof.
  intros Hb Hok Heff Ho Hbase Hd Hrows. destruct o as [|mode data|e| | | | |n mode data|e]; [done| | |done..| |].
  - cbn in Ho. assert (Hkn : key_nonnull (s_pks s) data) by (intros ????; by apply Ho). destruct Hd as [Hu Hp].
    destruct mode.
    + destruct (insert_effect E s data b m w w' base sn p w1 before Hs Hpl Heff Hbase Hkn Hp) as (input&Hin&Hsn&Hnd&Hdis).
      assert (rows = before ++ input) as -> by by eapply snap_rows_fun. pose proof (keys_shown _ _ Hin) as Hks.
      split; [|apply proper_app; [done|by eapply proper_of_keys]].
      unfold unique_keys. rewrite fmap_app, Hks. apply NoDup_app. split_and!; [done| |done].
      intros k (y&->&Hy)%elem_of_list_fmap (d&Hk&Hd)%elem_of_list_fmap. by eapply Hdis.
    + destruct (upsert_effect E s data b m w w' base sn p w1 before Hs Hb Hpl Heff Hbase Hkn Hp)
        as (input&new&lost&Hin&Hsn&Hnd&Hperm&_).
      assert (rows = new ++ input) as -> by by eapply snap_rows_fun. pose proof (keys_shown _ _ Hin) as Hks.
      assert (Hsub : new ⊆+ before).
      { trans (filter (fun y => key_of (s_pks s) y ∉ key_of (s_pks s) <$> data) before).
        - rewrite Hperm. by apply submseteq_inserts_r.
        - apply filter_sub. }
      destruct (distinct_sub before new (conj Hu Hp) Hsub) as [Hu' Hp'].
      split; [|apply proper_app; [done|by eapply proper_of_keys]].
      unfold unique_keys. rewrite fmap_app, Hks. apply NoDup_app. split_and!; [done| |done].
      intros k (y&->&Hy)%elem_of_list_fmap Hk.
      assert (Hy' : y ∈ filter (fun y => key_of (s_pks s) y ∉ key_of (s_pks s) <$> data) before).
      { rewrite Hperm. apply elem_of_app. by left. }
      apply elem_of_list_filter in Hy' as [Hno _]. by apply Hno.
  - destruct (delete_effect_sub E s e b m w w' base sn p w1 before Heff Hbase) as (new&Hnew&Hsub).
    assert (rows = new) as -> by by eapply snap_rows_fun. by eapply distinct_sub.
  - cbn in Ho. assert (Hkn : key_nonnull (s_pks s) data) by (intros ????; by apply Ho). destruct Hd as [Hu Hp].
    assert (Hkp : key_of (s_pks s) <$> written_by n data ≡ₚ key_of (s_pks s) <$> data) by (apply Permutation_map; by apply written_by_perm).
    assert (Hpw : proper_keys (s_pks s) (written_by n data)).
    { intros r k Hr Hk. apply Ho; [|done]. by rewrite <-(written_by_perm n data Hok). }
    destruct mode.
    + destruct (ray_insert_effect E s n data b m w w' base sn p w1 before Hs Hpl Heff Hbase Hkn Hp) as (input&Hin&Hsn&Hnd&Hdis).
      assert (rows = before ++ input) as -> by by eapply snap_rows_fun. pose proof (keys_shown _ _ Hin) as Hks.
      split; [|apply proper_app; [done|by eapply proper_of_keys]].
      unfold unique_keys. rewrite fmap_app, Hks, Hkp. apply NoDup_app. split_and!; [done| |done].
      intros k (y&->&Hy)%elem_of_list_fmap (d&Hk&Hd)%elem_of_list_fmap. by eapply Hdis.
    + destruct (ray_upsert_effect E s n data b m w w' base sn p w1 before Hs Hb Hpl Hok Heff Hbase Hkn Hp)
        as (input&new&lost&Hin&Hsn&Hnd&Hperm&_).
      assert (rows = new ++ input) as -> by by eapply snap_rows_fun. pose proof (keys_shown _ _ Hin) as Hks.
      assert (Hsub : new ⊆+ before).
      { trans (filter (fun y => key_of (s_pks s) y ∉ key_of (s_pks s) <$> data) before).
        - rewrite Hperm. by apply submseteq_inserts_r.
        - apply filter_sub. }
      destruct (distinct_sub before new (conj Hu Hp) Hsub) as [Hu' Hp'].
      split; [|apply proper_app; [done|by eapply proper_of_keys]].
      unfold unique_keys. rewrite fmap_app, Hks, Hkp. apply NoDup_app. split_and!; [done| |done].
      intros k (y&->&Hy)%elem_of_list_fmap Hk.
      assert (Hy' : y ∈ filter (fun y => key_of (s_pks s) y ∉ key_of (s_pks s) <$> data) before).
      { rewrite Hperm. apply elem_of_app. by left. }
      apply elem_of_list_filter in Hy' as [Hno _]. by apply Hno.
  - destruct (separate_splits _ _ _ _ _ Hs (oe_wf_base _ _ _ _ _ _ _ _ _ _ _ Heff) Hbase Ho) as (Hsafe&Hnan&Hdec&Hsep).
    destruct (ray_delete_effect _ _ _ _ _ _ _ _ _ _ _ _ Heff Hbase Hsafe Hnan Hdec Hsep) as (new&Hnew&Hperm).
    assert (rows = new) as -> by by eapply snap_rows_fun. eapply distinct_sub; [done|]. rewrite <-Hperm. apply filter_sub.
Qed.

End unique.

Lemma unique_history σ hid s v rows :
  undisturbed keyed_op init σ → schema_at σ hid = Some s → plain_keys s → reads σ hid v rows →
  unique_keys (s_pks s) rows ∧ proper_keys (s_pks s) rows.
Proof.
  intros Hh Hsch Hpl Hrd. pose proof (undisturbed_reachable _ _ Hh) as Hr.
  unfold schema_at in Hsch. destruct (y_handles σ !! hid) as [h|] eqn:Hhd; [|done].
  destruct (reachable_seen σ hid h Hr Hhd) as (s'&q&m&Hseen).
  assert (s' = s) as ->.
  { pose proof (sn_schema _ _ _ _ _ _ Hseen) as H'. unfold schema_at in H'. rewrite Hhd in H'. cbn in *. congruence. }
  apply (reads_iff _ _ _ _ _ _ v rows Hseen) in Hrd as (sn&Hsn&Hrows).
  unfold snap_of in Hsn. destruct (version_id m (h_branch h) v) as [i|]; [|done]. cbn in Hsn.
  refine (undisturbed_snap keyed_op (fun s fs sn => plain_keys s → ∀ rows, snap_rows s fs sn rows → unique_keys (s_pks s) rows ∧ proper_keys (s_pks s) rows)
    _ _ _ s σ m i sn Hh (sn_inv _ _ _ _ _ _ Hseen) _ Hsn Hpl rows Hrows).
  - intros s0 fs fs' sn0 Hw Hk Hd Hp rows' Hrows'. destruct (snap_rows_some _ _ _ Hw) as [rows0 Hrows0].
    rewrite (snap_rows_fun _ _ _ _ _ Hrows' (snap_rows_keeps _ _ _ _ _ Hk Hw Hrows0)). by apply Hd.
  - intros s0 fs t _ rows0 (l&Hl&Hsel). cbn in Hl. injection Hl as <-.
    injection Hsel as <-. split; [constructor|]. by intros ?? ?%elem_of_nil.
  - intros E s0 o b m1 w w' base sn0 p w1 Ho Hs0 Hb Hok Heff Hd Hp rows1 Hrows1.
    destruct (snap_rows_some _ _ _ (oe_wf_base _ _ _ _ _ _ _ _ _ _ _ Heff)) as [before Hbefore].
    eapply (effect_distinct s0 Hs0 Hp); try done. apply Hd; [done|].
    assert (Hk : keeps (w_fs w) (w_fs w')).
    { intros pp ff Hff Hne. apply (oe_keeps2 _ _ _ _ _ _ _ _ _ _ _ Heff); [|done].
      by apply (oe_keeps1 _ _ _ _ _ _ _ _ _ _ _ Heff). }
    eapply snap_rows_keeps; [exact Hk| |done]. apply (oe_wf_base _ _ _ _ _ _ _ _ _ _ _ Heff).
  - exists q. apply Hseen.
Qed.
