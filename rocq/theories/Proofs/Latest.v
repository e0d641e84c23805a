(** Reads through any handle show the stored metadata; version names. *)
From stdpp Require Import sorting.
From Verif.Model Require Import System Versions.
From Verif.Spec Require Import Api Layout Changes Versions Evolution.
From Verif.Proofs Require Import Lib World Wf Inv Txn SysInv ReadRun ReadSpec Observe Reads Durable Evolve History Serial Diff Calls FileSet.

Lemma read_from_meta E flt fields v ref b p m br h w :
  h_meta (sync p m h) = m → h_branch (sync p m h) = br → stored (w_fs w) p m →
  (run_read E flt fields v ref b (h, w)).2 = (run_read E flt fields v ref b (init_handle (MShort p) m br, w)).2.
Proof.
  intros Hm Hb Hst. unfold run_read.
  rewrite !(bind_run reload _ _ _ _ (reload_run p m _ w Hst)).
  rewrite (sync_synced p m (init_handle _ _ _)) by done.
  destruct (sync p m h) as [m' f b' x]. cbn in Hm, Hb. subst m' b'. unfold init_handle.
  rewrite !get_handle_bind, !lift_bind.
  assert (Hv : version_to_snapshot_id (Handle m f br x) = version_to_snapshot_id (Handle m (MShort p) br (max_snapshot_id m))) by done.
  destruct v as [v|]; [rewrite <-Hv; destruct (rmap Some _) as [sid|]; [|done]|];
    unfold data_files, bind, lift, get_handle, gets; cbn -[get_snapshot build_manifest_filter];
    match goal with |- context [get_snapshot (Handle _ _ _ (max_snapshot_id m)) ?i] =>
      change (get_snapshot (Handle m (MShort p) br (max_snapshot_id m)) i) with (get_snapshot (Handle m f br x) i);
      destruct (get_snapshot (Handle m f br x) i) as [sn|]; [|done] end;
    destruct (match flt with Some e => _ | None => _ end) as [mf|]; try done;
    unfold liftM; destruct (collect_files _ _ _ _ _) as [w1 [fset|]]; try done;
    by destruct (read_files _ _ _ _ _).
Qed.

Lemma ancestors_meta h h' start fuel : ∀ cur acc, h_meta h = h_meta h' → ancestors fuel h start cur acc = ancestors fuel h' start cur acc.
Proof.
  induction fuel as [|fuel IH]; intros cur acc Hm; cbn; [done|].
  destruct (_ <=? _)%Z; [|done]. destruct (sn_parent cur) as [p|]; [|done].
  unfold get_snapshot. cbn. rewrite Hm. destruct (of_opt _ _); [|done]. by apply IH.
Qed.
Lemma ordered_ids_meta h h' i j : h_meta h = h_meta h' → ordered_snapshot_ids h i j = ordered_snapshot_ids h' i j.
Proof.
  intros Hm. unfold ordered_snapshot_ids. unfold get_snapshot. cbn. rewrite Hm.
  destruct (_ <=? _)%Z; [done|]. destruct (of_opt _ _) as [cur|]; [|done]. cbn. by rewrite (ancestors_meta h h').
Qed.
Lemma read_changes_meta E h h' i batch : h_meta h = h_meta h' → read_changes E h i batch = read_changes E h' i batch.
Proof. intros Hm. unfold read_changes. by rewrite Hm. Qed.

(** * Every handle sees the stored metadata *)
Lemma handles_agree σ hid1 hid2 h1 h2 :
  reachable σ → y_handles σ !! hid1 = Some h1 → y_handles σ !! hid2 = Some h2 → h_branch h1 = h_branch h2 →
  (∀ E flt fields v ref b, result σ hid1 (run_read E flt fields v ref b) = result σ hid2 (run_read E flt fields v ref b))
  ∧ (∀ E a b batch, result σ hid1 (run_diff E a b batch) = result σ hid2 (run_diff E a b batch)).
Proof.
  intros Hr H1 H2 Hb. destruct (reachable_seen _ _ _ Hr H1) as (s&p&m&Hs1).
  destruct (reachable_seen _ _ _ Hr H2) as (s'&p'&m'&Hs2).
  assert (s' = s ∧ p' = p ∧ m' = m) as (->&->&->).
  { destruct (sn_stored _ _ _ _ _ _ Hs1) as [He1 Hm1], (sn_stored _ _ _ _ _ _ Hs2) as [He2 Hm2].
    assert (p' = p) as -> by congruence. assert (m' = m) as -> by congruence.
    split; [|done]. by rewrite <-(wm_schema _ _ _ (sn_meta _ _ _ _ _ _ Hs1)), <-(wm_schema _ _ _ (sn_meta _ _ _ _ _ _ Hs2)). }
  destruct (sync_spec s (y_world σ) p m h1) as (_&Hm1&_&Hb1&_); [by destruct Hs1..|].
  destruct (sync_spec s (y_world σ) p m h2) as (_&Hm2&_&Hb2&_); [by destruct Hs2..|].
  split.
  - intros. rewrite (result_eq _ _ _ _ H1), (result_eq _ _ _ _ H2). f_equal.
    rewrite (read_from_meta _ _ _ _ _ _ p m (h_branch h1) h1) by (done || apply Hs1).
    by rewrite (read_from_meta _ _ _ _ _ _ p m (h_branch h1) h2) by (congruence || apply Hs1).
  - intros. rewrite (diff_eq _ _ _ _ _ _ _ _ _ _ Hs1), (diff_eq _ _ _ _ _ _ _ _ _ _ Hs2).
    unfold changes_of. destruct (named m a) as [i|], (named m b) as [j|]; try done. f_equal.
    rewrite (ordered_ids_meta (sync p m h1) (sync p m h2)) by congruence.
    destruct (ordered_snapshot_ids _ _ _) as [ids|]; [|done]. do 2 f_equal.
    apply list_fmap_ext. intros k l Hk. by rewrite (read_changes_meta E (sync p m h1) (sync p m h2)) by congruence.
Qed.

(** * load and reload *)
Lemma load_latest σ hid h :
  reachable σ → y_handles (step σ (CLoad hid)) !! hid = Some h → stored_meta (w_fs (y_world σ)) ≠ None →
  stored_meta (w_fs (y_world σ)) = Some (h_meta h) ∧ h_branch h = MAIN.
Proof.
  intros Hr Hl Hne. unfold stored_meta in *. cbn in Hl.
  destruct (w_fs (y_world σ) !! PEntry) as [[]|] eqn:He; try done.
  match type of He with _ = Some (FEntry ?p) => destruct (w_fs (y_world σ) !! p) as [[]|] eqn:Hp; try done end.
  unfold load, read_entry, read_meta, read_file, bind in Hl. rewrite He in Hl. cbn in Hl. rewrite Hp in Hl. cbn in Hl.
  rewrite lookup_insert in Hl. by injection Hl as <-.
Qed.
Lemma reload_result σ hid h s p m : seen s σ hid h p m →
  with_handle σ hid reload = (Sys (y_world σ) (<[hid := sync p m h]> (y_handles σ)) (y_txns σ),
                              Some (Ok (bool_decide (h_file h ≠ MShort p)))).
Proof.
  intros Hs. unfold with_handle. rewrite (sn_look _ _ _ _ _ _ Hs). by rewrite (reload_run p m) by apply Hs.
Qed.
Lemma reload_latest σ hid h b :
  reachable σ → y_handles σ !! hid = Some h → result σ hid reload = Some (Ok b) →
  ∃ h', y_handles (after σ hid reload) !! hid = Some h' ∧ stored_meta (w_fs (y_world (after σ hid reload))) = Some (h_meta h')
    ∧ y_world (after σ hid reload) = y_world σ
    ∧ h_branch h' = h_branch h
    ∧ result (after σ hid reload) hid reload = Some (Ok false)
    ∧ (b = false → h' = h).
Proof.
  intros Hr Hl Hb. destruct (reachable_seen _ _ _ Hr Hl) as (s&p&m&Hs).
  destruct (sync_spec s (y_world σ) p m h) as (Hwf&Hm&Hf&Hbr&_); [by destruct Hs..|].
  assert (Hst := sn_stored _ _ _ _ _ _ Hs).
  unfold result, after in *. rewrite (reload_result _ _ _ _ _ _ Hs) in *. cbn [fst snd y_world y_handles] in *. injection Hb as <-.
  exists (sync p m h). rewrite lookup_insert. split; [done|]. rewrite Hm. split; [by apply (stored_meta_eq _ p)|].
  split; [done|]. split; [done|]. split.
  - unfold with_handle. cbn [y_handles y_world]. rewrite lookup_insert. rewrite (reload_run p m) by done. cbn.
    by rewrite Hf, bool_decide_false by (intros H; by apply H).
  - intros Hd%bool_decide_eq_false. apply sync_synced. by destruct (decide (h_file h = MShort p)).
Qed.
(** Since the last reload through this handle. *)
Lemma reload_foreign σ σ' hid h h0 :
  reachable σ → history env_ok σ σ' → y_handles σ !! hid = Some h0 →
  y_handles (after σ hid reload) !! hid = Some h → y_handles σ' !! hid = Some h →
  ∃ b, result σ' hid reload = Some (Ok b)
    ∧ (b = true ↔ w_fs (y_world σ') !! PEntry ≠ w_fs (y_world σ) !! PEntry)
    ∧ (b = false → stored_meta (w_fs (y_world σ')) = stored_meta (w_fs (y_world σ))).
Proof.
  intros Hr Hh H0 H1 H2. assert (Hr' : reachable σ') by (by eapply history_trans).
  destruct (reachable_seen _ _ _ Hr H0) as (s&p&m&Hs). destruct (reachable_seen _ _ _ Hr' H2) as (s'&p'&m'&Hs').
  destruct (sync_spec s (y_world σ) p m h0) as (Hwf&Hm&Hf&Hbr&_); [by destruct Hs..|].
  unfold after in H1. rewrite (reload_result _ _ _ _ _ _ Hs) in H1. cbn in H1. rewrite lookup_insert in H1. injection H1 as <-.
  unfold result. rewrite (reload_result _ _ _ _ _ _ Hs'). cbn. rewrite Hf.
  destruct (sn_stored _ _ _ _ _ _ Hs) as [He Hp], (sn_stored _ _ _ _ _ _ Hs') as [He' Hp'].
  eexists. split; [done|]. split.
  - rewrite bool_decide_eq_true, He, He'. split; congruence.
  - intros Hd%bool_decide_eq_false. unfold stored_meta. rewrite He, He'.
    assert (p' = p) as -> by (destruct (decide (p' = p)); [done|]; exfalso; apply Hd; congruence).
    rewrite Hp, Hp'. f_equal.
    pose proof (sn_handle _ _ _ _ _ _ Hs') as (_&Hf'&_). rewrite Hf in Hf'. cbn in Hf'. rewrite Hm in Hf'. congruence.
Qed.

(** * Version resolution *)
Lemma read_named σ hid h m v i :
  reachable σ → y_handles σ !! hid = Some h → stored_meta (w_fs (y_world σ)) = Some m → named m v = Some i →
  ∀ E flt fields ref b,
  result σ hid (run_read E flt fields (Some v) ref b) = result σ hid (run_read E flt fields (Some (VId i)) ref b).
Proof.
  intros Hr Hl Hm Hv E flt fields ref b. destruct (reachable_seen _ _ _ Hr Hl) as (s&p&m'&Hs).
  assert (m' = m) as -> by (pose proof (stored_meta_eq _ _ _ (sn_stored _ _ _ _ _ _ Hs)); congruence).
  destruct (sync_spec s (y_world σ) p m h) as (Hwf&Hsm&_); [by destruct Hs..|].
  rewrite !(result_eq _ _ _ _ Hl). unfold run_read.
  rewrite !(bind_run reload _ _ _ _ (reload_run p m _ _ (sn_stored _ _ _ _ _ _ Hs))).
  rewrite !get_handle_bind, !lift_bind. destruct v as [j|n]; cbn in Hv; [by injection Hv as <-|].
  unfold version_to_snapshot_id at 1, lookup_reference. rewrite Hsm.
  destruct (md_refs m !! n) as [r|]; [|done]. cbn in Hv. by injection Hv as <-.
Qed.
Lemma man_filter_error s flt e : man_filter s flt = Err e → ∃ x, e = EOther x.
Proof.
  unfold man_filter. destruct flt as [f|]; [|done]. unfold build_manifest_filter.
  destruct (fields_exist _ _); [|intros [= <-]; eauto].
  destruct (falsify _ _ _) as [[]| |]; try done. intros [= <-]; eauto.
Qed.
Lemma read_not_found σ hid h s m v :
  reachable σ → y_handles σ !! hid = Some h → schema_at σ hid = Some s → stored_meta (w_fs (y_world σ)) = Some m →
  ∀ E flt fields ref b, (∀ n, n ∈ read_names s fields → n ∈ s_names s) →
  result σ hid (run_read E flt fields (Some v) ref b) = Some (Err (EUser UVersionNotFound))
  ↔ (i ← named m v; md_snaps m !! i) = None.
Proof.
  intros Hr Hl Hsc Hm E flt fields ref b Hf. destruct (reachable_seen _ _ _ Hr Hl) as (s'&p&m'&Hs).
  assert (m' = m) as -> by (pose proof (stored_meta_eq _ _ _ (sn_stored _ _ _ _ _ _ Hs)); congruence).
  assert (s' = s) as -> by (pose proof (sn_schema _ _ _ _ _ _ Hs); congruence).
  rewrite (result_eq _ _ _ _ Hl).
  destruct (run_read_run E flt fields (Some v) ref b s h (y_world σ) p m) as (r&Heq&Hcase);
    [apply Hs|apply Hs|apply Hs|apply Hs|]. rewrite Heq. cbn [snd].
  assert (Hsn : snap_of m (h_branch h) (Some v) = (i ← named m v; md_snaps m !! i)) by (by destruct v).
  rewrite Hsn in Hcase. destruct (i ← named m v; md_snaps m !! i) as [sn|]; [|by subst r].
  split; [|done]. intros [= Hbad]. destruct (man_filter s flt) as [mf|e] eqn:Hmf.
  - destruct (Hcase Hf) as (ts&l&Hok&_). congruence.
  - apply man_filter_error in Hmf as [x ->]. congruence.
Qed.
Lemma diff_named σ hid h m a b i j :
  reachable σ → y_handles σ !! hid = Some h → stored_meta (w_fs (y_world σ)) = Some m →
  named m a = Some i → named m b = Some j →
  ∀ E batch, result σ hid (run_diff E a b batch) = result σ hid (run_diff E (VId i) (VId j) batch).
Proof.
  intros Hr Hl Hm Ha Hb E batch. destruct (reachable_seen _ _ _ Hr Hl) as (s'&p&m'&Hs).
  assert (m' = m) as -> by (pose proof (stored_meta_eq _ _ _ (sn_stored _ _ _ _ _ _ Hs)); congruence).
  rewrite !(diff_eq _ _ _ _ _ _ _ _ _ _ Hs). by rewrite Ha, Hb.
Qed.

(** * versions() *)
Lemma joined_spec m i sn r :
  r ∈ joined m i sn ↔ r.1 = (i, sn_time sn)
    ∧ match r.2 with
      | Some n => ∃ ref, md_refs m !! n = Some ref ∧ rf_id ref = i
      | None => ∀ n ref, md_refs m !! n = Some ref → rf_id ref ≠ i
      end.
Proof.
  unfold joined. set (P := fun nr : string * sref => rf_id nr.2 = i).
  assert (Hin : ∀ n ref, (n, ref) ∈ filter P (map_to_list (md_refs m)) ↔ rf_id ref = i ∧ md_refs m !! n = Some ref).
  { intros n ref. by rewrite elem_of_list_filter, elem_of_map_to_list. }
  destruct (filter P (map_to_list (md_refs m))) as [|x l] eqn:Hf.
  - rewrite elem_of_list_singleton. destruct r as [[i' t] o]. cbn. split.
    + intros [= -> -> ->]. split; [done|]. intros n ref Hn Hi. destruct (Hin n ref) as [_ H]. specialize (H (conj Hi Hn)).
      by apply elem_of_nil in H.
    + intros [[= -> ->] Ho]. destruct o as [n|]; [|done]. destruct Ho as (ref&Hn&Hi).
      destruct (Hin n ref) as [_ H]. specialize (H (conj Hi Hn)). by apply elem_of_nil in H.
  - rewrite elem_of_list_fmap. destruct r as [[i' t] o]. cbn. split.
    + intros ([n ref]&[= -> -> ->]&Hn). split; [done|]. apply Hin in Hn as [? ?]. eauto.
    + intros [[= -> ->] Ho]. destruct o as [n|].
      * destruct Ho as (ref&Hn&Hi). exists (n, ref). split; [done|]. by apply Hin.
      * exfalso. destruct x as [n ref]. destruct (Hin n ref) as [H _]. destruct H as [Hi Hn]; [left|]. by eapply Ho.
Qed.
Lemma joined_nodup m i sn : NoDup (joined m i sn).
Proof.
  unfold joined. destruct (filter _ _) as [|x l] eqn:Hf; [apply NoDup_singleton|]. rewrite <-Hf. clear x l Hf.
  assert (Hn : NoDup (filter (fun nr : string * sref => rf_id nr.2 = i) (map_to_list (md_refs m))).*1).
  { pose proof (NoDup_fst_map_to_list (md_refs m)) as Hd. revert Hd. generalize (map_to_list (md_refs m)).
    induction l as [|[n r] l IH]; intros Hd; [constructor|]. rewrite fmap_cons in Hd. apply NoDup_cons in Hd as [Hn Hd].
    rewrite filter_cons. cbn [snd]. case_decide; [|by apply IH]. cbn. constructor; [|by apply IH].
    intros (y&->&Hy)%elem_of_list_fmap. apply Hn. apply elem_of_list_filter in Hy as [_ Hy].
    apply elem_of_list_fmap. by exists y. }
  assert (Hx : (fun nr : string * sref => (i, sn_time sn, Some nr.1)) <$> filter (fun nr : string * sref => rf_id nr.2 = i) (map_to_list (md_refs m))
    = (fun n => (i, sn_time sn, Some n)) <$> (filter (fun nr : string * sref => rf_id nr.2 = i) (map_to_list (md_refs m))).*1).
  { by rewrite <-list_fmap_compose. }
  rewrite Hx. apply NoDup_fmap_2; [|done]. by intros ? ? [= ->].
Qed.
Lemma versions_listed m : lists_versions m (versions m).
Proof.
  set (J := map_to_list (md_snaps m) ≫= fun x => joined m x.1 x.2).
  assert (Hperm : versions m ≡ₚ J) by apply merge_sort_Permutation.
  split_and!.
  - rewrite Hperm. subst J. pose proof (NoDup_fst_map_to_list (md_snaps m)) as Hd. revert Hd.
    generalize (map_to_list (md_snaps m)). induction l as [|[i sn] l IH]; cbn; intros Hd; [constructor|].
    apply NoDup_cons in Hd as [Hn Hd]. apply NoDup_app. split_and!; [apply joined_nodup| |by apply IH].
    intros r Hr (y&Hy&Hly)%elem_of_list_bind. destruct y as [i' sn']. cbn in Hy.
    apply joined_spec in Hr as [Hr _]. apply joined_spec in Hy as [Hy _].
    assert (i' = i) as -> by congruence. apply Hn. apply elem_of_list_fmap. by exists (i, sn').
  - intros r. rewrite Hperm. subst J. rewrite elem_of_list_bind. destruct r as [[i t] o]. cbn. split.
    + intros ([i' sn]&Hr&Hi). apply joined_spec in Hr as [Hr Ho]. cbn in Hr, Ho, Hi. injection Hr as -> ->.
      apply elem_of_map_to_list in Hi. split; [by exists sn|done].
    + intros ((sn&Hi&<-)&Ho). exists (i, sn). split; [|by apply elem_of_map_to_list].
      apply joined_spec. done.
  - assert (Ht : Transitive later) by (intros a b c; unfold later; lia).
    assert (Hto : Total later) by (intros a b; unfold later; lia).
    exact (StronglySorted_merge_sort later _).
Qed.
Lemma versions_of_handle σ hid h :
  y_handles σ !! hid = Some h → ∃ rows, result σ hid run_versions = Some (Ok rows) ∧ lists_versions (h_meta h) rows.
Proof. intros Hl. exists (versions (h_meta h)). rewrite (result_eq _ _ _ _ Hl). split; [done|]. apply versions_listed. Qed.

Lemma snapshot_ids_spec (m : metadata) : NoDup (snapshot_ids m) ∧ ∀ i, i ∈ snapshot_ids m ↔ is_Some (md_snaps m !! i).
Proof.
  split; [apply NoDup_fst_map_to_list|]. intros i. unfold snapshot_ids. rewrite elem_of_list_fmap. split.
  - intros ([j sn]&->&Hj%elem_of_map_to_list). by exists sn.
  - intros [sn Hi]. exists (i, sn). split; [done|]. by apply elem_of_map_to_list.
Qed.
