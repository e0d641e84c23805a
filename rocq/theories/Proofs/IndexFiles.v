(** Dataset.index_files. *)
From Verif.Model Require Import System Versions.
From Verif.Spec Require Import Logical Api Layout Versions.
From Verif.Proofs Require Import Lib World Bounds Resolve AppendSpec SchemaFacts ReadSpec Wf OpSpec Inv FileSet Ops Bodies Txn SysInv ReadRun Effects
  Observe View Prune Calls Reads Total.

Lemma index_files_run s h w v :
  wf_meta s (w_fs w) (h_meta h) →
  run_index_files v (h, w) = ((h, w), match snap_of (h_meta h) (h_branch h) v with
                                      | None => Err (EUser UVersionNotFound)
                                      | Some sn => Ok (mr_path <$> snap_mrows (w_fs w) sn)
                                      end).
Proof.
  intros Hm. unfold run_index_files. rewrite get_handle_bind, lift_bind.
  set (sid := match v with None => Ok None | Some v => rmap Some (version_to_snapshot_id h v) end).
  assert (Hsid : (let? i := sid in get_snapshot h i) = of_opt (EUser UVersionNotFound) (snap_of (h_meta h) (h_branch h) v)).
  { unfold sid, snap_of, version_id, get_snapshot, version_to_snapshot_id, lookup_reference, head_of.
    destruct v as [[i|n]|]; cbn.
    - done.
    - destruct (md_refs (h_meta h) !! n); cbn; done.
    - case_decide; cbn; [done|]. by destruct (md_refs (h_meta h) !! h_branch h). }
  destruct sid as [i|e]; cbn [rbind] in Hsid.
  - unfold bind. rewrite (data_files_run s) by done. rewrite Hsid.
    destruct (snap_of _ _ _) as [sn|]; [|done]. cbn [of_opt man_filter rmap ret]. unfold ret. do 2 f_equal.
    rewrite fset_files_filter. f_equal. unfold snap_mrows. generalize (sn_idx sn ≫= man_at (w_fs w)). intros l.
    induction l as [|x l IH]; [done|]. rewrite filter_cons, decide_True by done. by rewrite IH.
  - destruct (snap_of _ _ _); [done|]. by injection Hsid as ->.
Qed.

Lemma index_files_rows σ hid s v E b :
  reachable σ → schema_at σ hid = Some s → h_meta <$> y_handles σ !! hid = stored_meta (w_fs (y_world σ)) →
  match result σ hid (run_read_all E None None v true b) with
  | Some (Ok rows) =>
      ∃ ps, result σ hid (run_index_files v) = Some (Ok ps)
      ∧ columns (names_of (s_fields s)) <$> (ps ≫= file_table (w_fs (y_world σ))) = rows
      ∧ ∀ p, p ∈ ps → ∃ cols groups, w_fs (y_world σ) !! p = Some (FIndex cols groups)
  | Some (Err e) => result σ hid (run_index_files v) = Some (Err e)
  | None => False
  end.
Proof.
  intros Hr Hsc Hrel. pose proof Hsc as Hsc'. unfold schema_at in Hsc'. destruct (y_handles σ !! hid) as [h|] eqn:Hh; [|done]. clear Hsc'.
  destruct (reachable_seen _ _ _ Hr Hh) as (s'&p&m&Hse).
  assert (s' = s) as -> by (pose proof (sn_schema _ _ _ _ _ _ Hse); congruence).
  pose proof Hse as [Hi _ Hwf Hst Hm _]. pose proof (si_world _ _ Hi) as Hwi.
  assert (Hm' : h_meta h = m). { rewrite (stored_meta_eq _ _ _ Hst) in Hrel. by injection Hrel. }
  rewrite !(result_eq _ _ _ _ Hh). rewrite (index_files_run s) by by rewrite Hm'. rewrite Hm'. cbn [snd].
  destruct (run_read_run E None None v true b s h (y_world σ) p m Hwi Hwf Hst Hm) as (r&Hrun&Hc).
  unfold run_read_all. unfold bind. rewrite Hrun. destruct (snap_of m (h_branch h) v) as [sn|] eqn:Hsn; [|by subst r].
  cbn [man_filter] in Hc. destruct Hc as (ts&lrows&->&_&Ht); [by intros n|]. cbn [filter_rows] in Ht. rewrite picked_rows_none in Ht.
  cbn. eexists. split; [done|]. split.
  - apply tsel_columns in Ht. rewrite Ht. cbn. f_equal. unfold phys_rows, man_rows. generalize (snap_mrows (w_fs (y_world σ)) sn).
    intros l. induction l as [|x l IH]; [done|]. rewrite fmap_cons, !bind_cons, IH. done.
  - intros q (x&->&Hx)%elem_of_list_fmap. pose proof (wf_snap_mrows _ _ _ (snap_of_wf _ _ _ _ _ _ Hm Hsn)) as Hall.
    rewrite Forall_forall in Hall. destruct (Hall x Hx) as (cols&gs&?&Hp&_). by eauto.
Qed.
Lemma index_files_exact σ hid s v E b rows :
  reachable σ → schema_at σ hid = Some s → h_meta <$> y_handles σ !! hid = stored_meta (w_fs (y_world σ)) →
  result σ hid (run_read_all E None None v true b) = Some (Ok rows) →
  ∃ ps, result σ hid (run_index_files v) = Some (Ok ps)
  ∧ columns (names_of (s_fields s)) <$> (ps ≫= file_table (w_fs (y_world σ))) = rows
  ∧ ∀ p, p ∈ ps → ∃ cols groups, w_fs (y_world σ) !! p = Some (FIndex cols groups).
Proof. intros Hr Hs Hl H. pose proof (index_files_rows σ hid s v E b Hr Hs Hl) as Hx. by rewrite H in Hx. Qed.
Lemma index_files_error σ hid s v E b e :
  reachable σ → schema_at σ hid = Some s → h_meta <$> y_handles σ !! hid = stored_meta (w_fs (y_world σ)) →
  result σ hid (run_read_all E None None v true b) = Some (Err e) ↔ result σ hid (run_index_files v) = Some (Err e).
Proof.
  intros Hr Hs Hl. pose proof (index_files_rows σ hid s v E b Hr Hs Hl) as Hx.
  destruct (result σ hid (run_read_all E None None v true b)) as [[rows|e']|]; [|rewrite Hx; by split; intros [= ->]|done].
  destruct Hx as (ps&->&_). by split.
Qed.
