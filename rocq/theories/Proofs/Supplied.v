(** Every row read was supplied by an operation; addresses resolve for ever. *)
From Verif.Model Require Import System.
From Verif.Spec Require Import Logical Layout Changes Orderly Supplied.
From Verif.Proofs Require Import Shards Merge RayAppend RayInsert RayDelete RayEffects RayAccounts.
From Verif.Proofs Require Import Lib World Resolve AppendSpec SchemaFacts ReadSpec Wf OpSpec
  Inv FileSet Ops Bodies Txn SysInv ReadRun Effects Observe View Mutations DeleteEffect Calls Reads Adds Durable Evolve History Serial Orderly Edge Replay.

Lemma op_supplied E s o b m w w' base sn p w1 old :
  wf_schema s → bounded w → op_ok s (w_fs w) o → op_effect E s o b m w w' base sn p w1 →
  snap_rows s (w_fs w) base old →
  ∃ kept sup, (∀ r : row, r ∈ kept → r ∈ old) ∧ sup ≡ₚ supplied s (w_fs w) o ∧ snap_rows s (w_fs w') sn (kept ++ sup).
Proof.
  intros Hs Hbw Hok Hd Hold. pose proof Hd as [(h0&Hb0&Hm0&Hout) Hwp Hw1 _ Hwb _ Hk1 Hk2].
  pose proof (od_idx _ _ _ _ _ _ _ _ _ _ _ Hd) as Hidx.
  assert (Hlocal : (∃ kept, kept ⊆+ old ∧ snap_rows s (w_fs w') sn (kept ++ supplied s (w_fs w) o)) →
    ∃ kept sup, (∀ r : row, r ∈ kept → r ∈ old) ∧ sup ≡ₚ supplied s (w_fs w) o ∧ snap_rows s (w_fs w') sn (kept ++ sup)).
  { intros (kept&Hk&Hsn). exists kept, (supplied s (w_fs w) o). split_and!; [|done|done]. intros r Hr. by eapply elem_of_submseteq. }
  destruct o as [batches|mode data|e|paths|paths index_fn nbytes|n data|n sources|n mode data|e].
  1,2,3,4,5: apply Hlocal; clear Hlocal; cbn [supplied].
  - destruct (append_effect _ _ _ _ _ _ _ _ _ _ _ _ Hs Hd Hold) as (input&Hin&Hsn).
    exists old. split; [done|]. by rewrite (tsel_columns _ _ _ Hin) in Hsn.
  - destruct Hout as [(_&?&_)|(Hne&sn0&e&mf&w2&dop&rows&aop&Hpk&Hg&Hmf&Hmode&Hw2&Hsel&Haop&Hp)]; [done|].
    rewrite (od_same_base _ _ _ _ _ _ _ _ _ _ _ _ _ Hd Hb0 Hm0 Hg) in Hmode, Hp. cbv beta iota zeta in Hmode, Hp.
    destruct aop as [pa|].
    2:{ destruct data; [done|]. apply tsel_ok in Hsel. rewrite Haop in Hsel. inversion Hsel. }
    assert (show s <$> data = rows) as -> by (symmetry; by apply tsel_columns).
    destruct (patch_adds_rows s _ _ _ _ Hs Haop) as (Hres&Hsel'&Hdelp&Hwpa).
    assert (Hone : p = merge_two patch0 pa → ∃ kept, kept ⊆+ old ∧ snap_rows s (w_fs w') sn (kept ++ rows)).
    { intros ->. exists old. split; [done|].
      eapply op_done_adds; [exact Hd|cbn; by rewrite Hdelp|done|cbn; exact Hres|done]. }
    destruct mode.
    + apply Hone. by injection Hp.
    + destruct Hmode as [Hw02 Hdel].
      assert (Hb2 : bounded w2) by by eapply wle_bounded.
      pose proof (wnew_keeps _ _ Hbw Hw02) as Hk02. pose proof (wnew_keeps _ _ Hb2 Hw2) as Hk21.
      destruct Hdel as [(Hf&->&->)|(Hf&Hdel)]; [rewrite Hf in Hp; apply Hone; by injection Hp|].
      destruct (fset_files (fset_at (w_fs w) mf (sn_idx base))) as [|d0 ds] eqn:Hfs; [done|]. clear Hf.
      destruct dop as [pd|]; [|apply Hone; by injection Hp].
      injection Hp as Hp. cbn [omap list_omap id foldl] in Hp.
      pose proof (patch_adds_shows s _ _ _ _ Hs Haop) as Hsha.
      destruct (delete_edge s e w mf base pd w2 (w_fs w') sn (pa_add_idx pa) rows old)
        as (kept&del&lost&bs&Hperm&Hnew&_); try done.
      * by eapply keeps_trans.
      * rewrite Hidx, Hp. cbn. by rewrite Hdelp, app_nil_r.
      * eapply shows_man_keeps; [exact Hk2|apply Hwpa|done].
      * exists kept. split; [|done]. rewrite Hperm. apply submseteq_inserts_r. done.
  - destruct Hout as (sn0&mf&Hg&Hmf&Hdo).
    rewrite (od_same_base _ _ _ _ _ _ _ _ _ _ _ _ _ Hd Hb0 Hm0 Hg) in Hdo.
    destruct (delete_edge s e w mf base p w1 (w_fs w') sn [] [] old)
      as (kept&del&lost&bs&Hperm&Hnew&_); try done.
    + by rewrite app_nil_r.
    + constructor.
    + exists kept. split; [|done]. rewrite Hperm. apply submseteq_inserts_r. done.
  - destruct (parquet_effect _ _ _ _ _ _ _ _ _ _ _ _ Hs Hd Hok Hold) as (input&Hin&Hsn).
    exists old. split; [done|]. by rewrite (tsel_columns _ _ _ Hin) in Hsn.
  - destruct (array_record_effect _ _ _ _ _ _ _ _ _ _ _ _ _ _ Hs Hd Hold) as (f&fid&input&Hf&_&Hin&Hsn).
    exists old. split; [done|]. rewrite Hf. rewrite (tsel_columns _ _ _ Hin) in Hsn.
    match goal with H : snap_rows _ _ _ (_ ++ ?a) |- snap_rows _ _ _ (_ ++ ?b) => assert (b = a) as ->; [|done] end.
    change (columns (out_names s)) with (show s). f_equal.
    clear. induction paths as [|q paths IH]; [done|]. rewrite !bind_cons, fmap_app, IH, loaded_rows_spec. done.
  - destruct (ray_append_effect _ _ _ _ _ _ _ _ _ _ _ _ _ Hs Hbw Hd Hold) as (input&Hin&_&Hsn).
    exists old, input. split_and!; [done| |done]. cbn [supplied]. rewrite (tsel_columns _ _ _ Hin).
    apply Permutation_map. by apply written_by_perm.
  - destruct (ray_append_from_effect _ _ _ _ _ _ _ _ _ _ _ _ _ Hs Hbw Hd Hold) as (input&Hin&_&Hsn).
    exists old, input. split_and!; [done| |done]. cbn [supplied]. rewrite (tsel_columns _ _ _ Hin).
    apply Permutation_map. by apply sources_perm.
  - clear Hout h0 Hb0 Hm0. destruct (ray_insert_ran _ _ _ _ _ _ _ _ _ _ _ _ _ Hd) as (h0&Hbase&Hm0&Hout).
    destruct Hout as [(_&?&_)|(Hne&sn0&e&mf&w2&dop&rows&aop&Hpk&Hg&Hmf&Hmode&Hw2&Hsel&Haop&_&Hp)]; [done|].
    apply (get_snapshot_snap_of h0 m) in Hg; [|done].
    assert (sn0 = base) as -> by congruence. cbv beta iota zeta in Hmode, Hp.
    assert (Hw02 : wnew w w2).
    { destruct mode; [destruct Hmode as [-> _]; apply wnew_refl|]. by destruct Hmode as [? _]. }
    assert (Hb2 : bounded w2) by by eapply wle_bounded.
    pose proof (wnew_keeps _ _ Hbw Hw02) as Hk02. pose proof (wnew_keeps _ _ Hb2 Hw2) as Hk21.
    destruct aop as [pa|].
    2:{ exfalso. cbn in Haop. rewrite Haop in Hsel. apply tsel_length in Hsel. cbn in Hsel.
        rewrite (written_by_perm n data Hok) in Hsel. by destruct data. }
    pose proof Haop as (Hwpa&Hdelp&Hres&_&Htr).
    assert (Hsup : rows ≡ₚ supplied s (w_fs w) (ORayInsert n mode data)).
    { cbn [supplied]. rewrite (tsel_columns _ _ _ Hsel). apply Permutation_map. by apply written_by_perm. }
    assert (Hone : p = merge_two patch0 pa → ∃ kept sup, (∀ r : row, r ∈ kept → r ∈ old)
      ∧ sup ≡ₚ supplied s (w_fs w) (ORayInsert n mode data) ∧ snap_rows s (w_fs w') sn (kept ++ sup)).
    { intros ->. exists old, rows. split_and!; [done|done|].
      eapply op_done_adds; [exact Hd|cbn; by rewrite Hdelp|done|cbn; exact Hres|done]. }
    destruct mode.
    + apply Hone. by injection Hp.
    + destruct Hmode as [_ Hdel].
      destruct Hdel as [(Hf&->&->)|(Hf&Hdel)]; [rewrite Hf in Hp; apply Hone; by injection Hp|].
      destruct (fset_files (fset_at (w_fs w) mf (sn_idx base))) as [|d0 ds] eqn:Hfs; [done|]. clear Hf.
      destruct dop as [pd|]; [|apply Hone; by injection Hp].
      injection Hp as Hp. cbn [omap list_omap id foldl] in Hp.
      assert (Hsha : shows s (w_fs w1) (man_rows (w_fs w1) (pa_add_idx pa ≫= man_at (w_fs w1))) rows) by (apply shows_iff; eauto).
      destruct (delete_edge s e w mf base pd w2 (w_fs w') sn (pa_add_idx pa) rows old)
        as (kept&del&lost&bs&Hperm&Hnew&_); try done.
      * by eapply keeps_trans.
      * rewrite Hidx, Hp. cbn. by rewrite Hdelp, app_nil_r.
      * eapply shows_man_keeps; [exact Hk2|apply Hwpa|done].
      * exists kept, rows. split_and!; [|done|done]. intros r Hr. rewrite Hperm. apply elem_of_app. by left.
  - destruct (ray_delete_sub _ _ _ _ _ _ _ _ _ _ _ _ Hd Hold) as (rows&Hrows&Hin).
    exists rows, []. rewrite app_nil_r. by split_and!.
Qed.

Lemma supplied_history R s σ m : orderly (supplies R) init σ → sinv s σ → mof σ m →
  ∀ i sn rows, md_snaps m !! i = Some sn → snap_rows s (w_fs (y_world σ)) sn rows → Forall R rows.
Proof.
  apply (orderly_meta (supplies R) (fun s fs m => ∀ i sn rows, md_snaps m !! i = Some sn → snap_rows s fs sn rows → Forall R rows)); clear s σ m.
  - intros s fs fs' m Hm Hk He i sn rows Hi Hr. destruct (wm_snaps _ _ _ Hm i sn Hi) as (_&Hw&_).
    destruct (snap_rows_some _ _ _ Hw) as [rows0 Hr0]. pose proof (snap_rows_keeps _ _ _ _ _ Hk Hw Hr0) as Hr1.
    rewrite (snap_rows_fun _ _ _ _ _ Hr Hr1). by eapply He.
  - intros s fs t i sn rows Hi Hr. cbn in Hi. apply lookup_singleton_Some in Hi as [_ <-].
    assert (Hnil : snap_rows s fs (Snapshot 0 None t [] [] stats0 None) []).
    { by exists []. }
    rewrite (snap_rows_fun _ _ _ _ _ Hr Hnil). constructor.
  - done.
  - intros E s o b m m1 w w' base sn p w1 Ho Hs Hb Hok Heff Hm Hhead Hbase Hpar Hlt He i sn' rows Hi Hr. cbn in Hi.
    apply lookup_insert_Some in Hi as [[<- <-]|[Hni Hi]]; [|by eapply He].
    pose proof Heff as [_ _ _ _ Hwb _ Hk1 Hk2].
    destruct (snap_rows_some _ _ _ Hwb) as [old Hold].
    destruct (op_supplied _ _ _ _ _ _ _ _ _ _ _ _ Hs Hb Hok Heff Hold) as (kept&sup&Hkept&Hsup&Hnew).
    rewrite (snap_rows_fun _ _ _ _ _ Hr Hnew). apply Forall_app. split; [|rewrite Hsup; exact Ho].
    assert (Forall R old).
    { eapply He; [exact Hbase|]. eapply snap_rows_keeps; [|done|done]. by eapply keeps_trans. }
    apply Forall_forall. intros r Hrk. eapply Forall_forall; [done|]. by apply Hkept.
Qed.
Lemma rows_supplied R σ hid v rows : orderly (supplies R) init σ → reads σ hid v rows → Forall R rows.
Proof.
  intros Ho Hrd. pose proof (orderly_reachable _ _ Ho) as Hr. destruct (reads_handle _ _ _ _ Hrd) as [h Hh].
  destruct (reachable_seen _ _ _ Hr Hh) as (s&p&m&Hseen).
  apply (reads_iff _ _ _ _ _ _ _ _ Hseen) in Hrd as (sn&Hsn&Hrows).
  pose proof Hseen as [Hs _ _ Hst _ _].
  assert (∃ i, md_snaps m !! i = Some sn) as [i Hi].
  { unfold snap_of in Hsn. destruct v as [v|].
    - destruct v; cbn in Hsn; repeat (match goal with H : context [match ?x with _ => _ end] |- _ => destruct x eqn:? | H : _ ≫= _ = Some _ |- _ => apply bind_Some in H as (?&?&?) end); eauto.
    - apply bind_Some in Hsn as (i&_&?). eauto. }
  eapply supplied_history; try done. by exists p.
Qed.
(** Addresses resolve to the same rows ever after. *)
Lemma addresses_stay σ σ' hid s E v b addrs rows :
  reachable σ → schema_at σ hid = Some s → history env_ok σ σ' →
  result σ hid (run_read_all E None None v true b) = Some (Ok addrs) → reads σ hid v rows →
  ∃ full, mapM (resolve_row (records_in (w_fs (y_world σ'))) (s_recs s)) addrs = Some full
    ∧ rows = show s <$> full.
Proof.
  intros Hr Hsch Hh Hres Hrd. destruct (read_reference σ hid s E E None None v b b addrs Hr Hsch (fun _ H => H) Hres) as (full&Hfull&Hrows).
  exists full. split.
  - apply mapM_Some. apply mapM_Some in Hfull. eapply Forall2_impl; [exact Hfull|].
    intros r x Hx. unfold resolve_row in *. apply mapM_Some. apply mapM_Some in Hx. eapply Forall2_impl; [exact Hx|].
    intros [n c] y Hy. unfold resolve_field in *. cbn in *. case_decide; [|done].
    destruct c; cbn in *; try done. case_decide; [|done]. unfold records_in in *.
    match goal with |- context [w_fs (y_world σ') !! ?q] =>
      destruct (w_fs (y_world σ) !! q) as [f|] eqn:Hp; [|done]; rewrite (files_kept_history σ σ' q f Hr Hh Hp); [done|] end.
    by intros ? ->.
  - rewrite (Hrd E b) in Hrows. injection Hrows as ->. done.
Qed.
