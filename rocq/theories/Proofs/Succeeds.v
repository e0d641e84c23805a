(** When mutations succeed. *)
From Verif.Model Require Import System.
From Verif.Spec Require Import Logical Layout Pruning Keys Typed Durable Serial.
From Verif.Proofs Require Import Lib World Resolve SchemaFacts ReadSpec Wf OpSpec Inv FileSet Ops Bodies Txn SysInv ReadRun
  Effects Observe View Prune Keys Mutations Calls Total AppendTotal Reads Adds Durable Evolve History Serial.

Lemma handle_seen σ hid h s m :
  reachable σ → y_handles σ !! hid = Some h → schema_at σ hid = Some s →
  stored_meta (w_fs (y_world σ)) = Some m → ∃ q, seen s σ hid h q m.
Proof.
  intros Hr Hh Hsc Hm. destruct (reachable_seen σ hid h Hr Hh) as (s'&q&m'&Hseen).
  assert (s' = s) as -> by (pose proof (sn_schema _ _ _ _ _ _ Hseen); congruence).
  assert (m' = m) as ->; [|by exists q].
  pose proof (stored_meta_eq _ _ _ (sn_stored _ _ _ _ _ _ Hseen)). congruence.
Qed.
Lemma seen_sync s σ hid h q m :
  seen s σ hid h q m → h_meta (sync q m h) = m ∧ h_branch (sync q m h) = h_branch h
    ∧ wf_handle s (y_world σ) (sync q m h) ∧ md_schema m = s.
Proof.
  intros Hseen. destruct Hseen as [Hs Hh Hwf Hst Hm Hsc].
  destruct (sync_spec s (y_world σ) q m h Hst Hm Hwf) as (?&?&?&?&?). split_and!; try done. apply Hm.
Qed.

(** * Appends *)
Lemma append_runs E fo s batches w :
  wf_schema s → plain_keys s → records_last s →
  Forall (typed_row s) (concat batches) → proper_keys (s_pks s) (concat batches) →
  ∃ w' op, append_op E fo s batches w = (w', Ok op).
Proof.
  intros Hs Hp Hrl Ht Hk.
  assert (Hall : Forall (Forall (input_ok s)) batches).
  { apply Forall_forall. intros b Hb. apply Forall_forall. intros r Hr.
    assert (r ∈ concat batches) by (apply elem_of_list_In, in_concat; exists b; by rewrite <-!elem_of_list_In).
    split; [by eapply Forall_forall in Ht|]. intros n Hn. by apply Hk. }
  destruct (append_op_total E fo s Hs Hp batches Hrl Hall w) as (w'&op&Hop&_). eauto.
Qed.
Lemma append_succeeds σ hid h s m E fo batches :
  reachable σ → y_handles σ !! hid = Some h → schema_at σ hid = Some s →
  stored_meta (w_fs (y_world σ)) = Some m → is_branch m (h_branch h) →
  plain_keys s → records_last s →
  Forall (typed_row s) (concat batches) → proper_keys (s_pks s) (concat batches) →
  match concat batches with
  | [] => result σ hid (run_append E fo batches) = Some (Ok JSkipped)
  | _ => ∃ st, result σ hid (run_append E fo batches) = Some (Ok (JSucceeded st))
           ∧ st_rows st = Z.of_nat (length (concat batches))
  end.
Proof.
  intros Hr Hh Hsc Hm Hbr Hp Hrl Ht Hk. destruct (handle_seen _ _ _ _ _ Hr Hh Hsc Hm) as [q Hseen].
  destruct (seen_sync _ _ _ _ _ _ Hseen) as (Hm0&Hb0&Hwf0&Hms).
  destruct (run_op_outcome s σ hid h q m E fo (OAppend batches) Hseen I Hbr) as (w1&r&Hbody&Hres).
  change (run_append E fo batches) with (run_op E fo (OAppend batches)).
  cbn [op_body] in Hbody. rewrite get_handle_bind, Hm0, Hms in Hbody.
  destruct (append_runs E fo s batches (y_world σ) (seen_schema _ _ _ _ _ _ Hseen) Hp Hrl Ht Hk) as (w'&op&Hop).
  rewrite (liftM_run _ _ _ _ _ Hop) in Hbody. injection Hbody as <- <-.
  pose proof (append_op_out E fo s batches (y_world σ) (reachable_bounded _ Hr)) as Hout. rewrite Hop in Hout.
  destruct Hout as (_&_&rows&Hrows&Hout). pose proof (tsel_length _ _ _ Hrows) as Hlen.
  destruct op as [p|].
  - destruct Hout as (ms&rms&u&Hne&Hout). assert (Hst : st_rows (pa_stats p) = Z.of_nat (length rows)) by apply Hout.
    destruct (concat batches) as [|r0 rs]; [by destruct rows|].
    exists (pa_stats p). split; [done|]. by rewrite Hst, Hlen.
  - subst rows. destruct (concat batches); [done|by cbn in Hlen].
Qed.

(** * Inserts *)
Lemma key_filter_total pks keys seen acc :
  pks ≠ [] → Forall (fun k => length k = length pks) keys →
  (∃ e, key_filter_loop pks keys seen acc = Ok e ∧ (acc ≠ None ∨ keys ≠ [] → e ≠ None))
  ∨ (key_filter_loop pks keys seen acc = Err (EUser UPrimaryKeyExists) ∧ (¬ NoDup keys ∨ ∃ k, k ∈ keys ∧ k ∈ seen)).
Proof.
  intros Hp. revert seen acc. induction keys as [|k keys IH]; intros seen acc Hl; cbn.
  - left. exists acc. split; [done|]. intros [?|?]; done.
  - inversion_clear Hl as [|? ? Hk Hl']. case_decide as Hin.
    { right. split; [done|]. right. exists k. split; [by left|done]. }
    assert (∃ e, row_key_filter pks k = Some e) as [e He].
    { unfold row_key_filter. destruct pks as [|n pks], k as [|v k]; [done..|]. cbn.
      clear. generalize (key_expr n v). generalize (zip pks k).
      intros l. induction l as [|[a b] l IH]; intros e; cbn; [eauto|]. apply IH. }
    rewrite He.
    destruct (IH (k :: seen) (Some (match acc with None => e | Some a => EBin FnOr a e end)) Hl')
      as [(e'&He'&Hne)|[He' Hd]].
    + left. exists e'. split; [done|]. intros _. apply Hne. by left.
    + right. split; [done|]. destruct Hd as [Hd|(k'&Hk'&Hs)]; [left; by inversion 1|].
      apply elem_of_cons in Hs as [->|Hs]; [left; by inversion 1|right; exists k'; split; [by right|done]].
Qed.
Lemma row_keys pks data :
  key_nonnull pks data → rmapM (row_key pks) data = Ok (key_of pks <$> data).
Proof.
  intros Hn. assert (Hrow : ∀ r, r ∈ data → row_key pks r = Ok (key_of pks r)).
  { intros r Hr. assert (Hx : ∃ v, row_key pks r = Ok v).
    { apply rmapM_total. intros n Hn'. specialize (Hn r n Hr Hn'). unfold row_look in Hn.
      destruct (rget n r); [eauto|done]. }
    destruct Hx as [v Hv]. by rewrite Hv, (row_key_ok _ _ _ Hv). }
  clear Hn. induction data as [|r data IH]; [done|]. cbn. rewrite Hrow by by left. cbn.
  rewrite IH by (intros; apply Hrow; by right). done.
Qed.
Lemma pks_not_nil s : wf_schema s → s_pks s ≠ [].
Proof. intros Hs. apply Hs. Qed.

Lemma insert_unfold E fo s data h w :
  winv s w → wf_handle s w h → data ≠ [] →
  insert_op E fo MInsert data (h, w) =
    match primary_key_filter (s_pks s) data with
    | Err x => ((h, w), Err x)
    | Ok None => ((h, w), Err (EOther "AssertionError"))
    | Ok (Some e) =>
        match get_snapshot h None with
        | Err x => ((h, w), Err x)
        | Ok sn =>
            match build_manifest_filter (fenv_of s) e with
            | Err x => ((h, w), Err x)
            | Ok mf =>
                if bool_decide (filter_rows (Some e) (picked_rows (w_fs w) mf sn) = [])
                then let '(w', r) := append_op E fo s [data] w in
                     ((h, w'), rmap (fun p => merge_patches [p]) r)
                else ((h, w), Err (ERuntime "Primary key to insert already exist"))
            end
        end
    end.
Proof.
  intros Hi Hh Hne. pose proof Hh as (Hm&_&_). pose proof Hi as [Hb Hs _]. unfold insert_op.
  destruct data as [|d0 d1]; [done|]. cbv iota. clear Hne. generalize (d0 :: d1). clear d0 d1. intros data.
  rewrite get_handle_bind, lift_bind. rewrite (wm_schema _ _ _ Hm).
  destruct (primary_key_filter (s_pks s) data) as [[e|]|] eqn:Hpk; [|done..].
  unfold bind at 1. rewrite (data_files_run s) by done.
  destruct (get_snapshot h None) as [sn|] eqn:Hsn; [|done]. cbn [man_filter].
  destruct (build_manifest_filter (fenv_of s) e) as [mf|] eqn:Hmf; [|done]. cbn [rmap].
  pose proof (get_snapshot_wf _ _ _ _ _ Hm Hsn) as Hwsn.
  pose proof (filter_matched_run E s w mf sn e Hs Hwsn) as Hfm.
  pose proof (picked_none (w_fs w) mf sn) as Hnone.
  set (fset := fset_at (w_fs w) mf (sn_idx sn)) in *.
  assert (Happ : bind (liftM (append_op E fo s [data])) (fun p => ret (merge_patches ([] ++ [p]))) (h, w)
    = let '(w', r) := append_op E fo s [data] w in ((h, w'), rmap (fun p => merge_patches [p]) r)).
  { destruct (append_op E fo s [data] w) as [w' r] eqn:Ha. unfold bind. rewrite (liftM_run _ h w _ _ Ha). by destruct r. }
  destruct (fset_files fset) as [|df dfs] eqn:Hf.
  - rewrite Hnone by done. cbn [filter_rows]. rewrite filter_nil, bool_decide_true by done. exact Happ.
  - clear Hnone. unfold bind at 1 2. rewrite (liftM_run _ h w _ _ Hfm). case_bool_decide; cbn [negb]; [exact Happ|done].
Qed.

Lemma insert_decides σ hid h s m E fo data before :
  reachable σ → y_handles σ !! hid = Some h → schema_at σ hid = Some s →
  stored_meta (w_fs (y_world σ)) = Some m → is_branch m (h_branch h) →
  plain_keys s → records_last s → data ≠ [] →
  Forall (typed_row s) data → proper_keys (s_pks s) data →
  reads σ hid None before → proper_keys (s_pks s) before →
  (unique_keys (s_pks s) data ∧ (∀ y d, y ∈ before → d ∈ data → key_of (s_pks s) y ≠ key_of (s_pks s) d)
   ∧ (∃ st, result σ hid (run_insert E fo MInsert data) = Some (Ok (JSucceeded st)) ∧ st_rows st = Z.of_nat (length data))
   ∧ reads (after σ hid (run_insert E fo MInsert data)) hid None (before ++ (show s <$> data)))
  ∨ ((¬ unique_keys (s_pks s) data ∨ ∃ y d, y ∈ before ∧ d ∈ data ∧ key_of (s_pks s) y = key_of (s_pks s) d)
     ∧ result σ hid (run_insert E fo MInsert data) = Some (Ok JFailed)).
Proof.
  intros Hr Hh Hsc Hm Hbr Hp Hrl Hne Ht Hk Hb Hkb. destruct (handle_seen _ _ _ _ _ Hr Hh Hsc Hm) as [q Hseen].
  destruct (seen_sync _ _ _ _ _ _ Hseen) as (Hm0&Hb0&Hwf0&Hms).
  assert (Hkn : key_nonnull (s_pks s) data) by (intros ????; by apply Hk).
  pose proof (seen_schema _ _ _ _ _ _ Hseen) as Hs.
  destruct (run_op_outcome s σ hid h q m E fo (OInsert MInsert data) Hseen I Hbr) as (w1&r&Hbody&Hres).
  change (run_insert E fo MInsert data) with (run_op E fo (OInsert MInsert data)).
  pose proof (si_world _ _ (sn_inv _ _ _ _ _ _ Hseen)) as Hi.
  cbn [op_body] in Hbody. rewrite (insert_unfold E fo s data _ _ Hi Hwf0 Hne) in Hbody.
  destruct (key_filter_total (s_pks s) (key_of (s_pks s) <$> data) [] None) as [(e&He&Hnn)|[He Hd]].
  { by apply pks_not_nil. }
  { apply Forall_forall. intros k (d&->&_)%elem_of_list_fmap. unfold key_of. by rewrite fmap_length. }
  2: { right. unfold primary_key_filter in Hbody. rewrite (row_keys _ _ Hkn) in Hbody. cbn [rbind] in Hbody.
       rewrite He in Hbody. injection Hbody as <- <-. rewrite Hres. cbn. split; [|done].
       left. destruct Hd as [Hd|(k&_&Hk')]; [done|]. by apply elem_of_nil in Hk'. }
  destruct e as [e|]; [|exfalso; apply Hnn; [right; by destruct data|done]].
  assert (Hpkf : primary_key_filter (s_pks s) data = Ok (Some e)).
  { unfold primary_key_filter. rewrite (row_keys _ _ Hkn). exact He. }
  rewrite Hpkf in Hbody.
  destruct (primary_key_filter_spec _ _ _ Hkn Hpkf) as (Hnd&Hkf&_).
  destruct (is_branch_head _ _ _ _ (sn_meta _ _ _ _ _ _ Hseen) Hbr) as (base&_&_&Hsn&Hwb).
  apply (reads_iff _ _ _ _ _ _ _ _ Hseen) in Hb as Hb'. destruct Hb' as (base'&Hb1&Hb2).
  assert (base' = base) as -> by congruence.
  assert (Hget : get_snapshot (sync q m h) None = Ok base).
  { apply (get_snapshot_snap_of _ m); [done|]. by rewrite Hb0. }
  rewrite Hget in Hbody.
  destruct (build_total s e Hs (keyf_buildable _ _ Hs Hp Hkf)) as [mf Hmf]. rewrite Hmf in Hbody.
  assert (Hiff := no_picked s (w_fs (y_world σ)) base e mf before Hs Hwb (keyf_safe _ _ Hs Hp Hkf) Hmf Hb2).
  assert (Hnan : no_nan_keys (s_pks s) before) by (intros ????; by apply Hkb).
  specialize (Hiff Hnan). rewrite filter_matches_nil in Hiff.
  assert (Hmatch : ∀ y, y ∈ before → matches e y = true ↔ key_of (s_pks s) y ∈ key_of (s_pks s) <$> data).
  { intros y Hy. eapply key_matches; [done..|]. intros n Hn. by apply Hkb. }
  case_bool_decide as Hempty.
  - left. assert (Hdis : ∀ y d, y ∈ before → d ∈ data → key_of (s_pks s) y ≠ key_of (s_pks s) d).
    { intros y d Hy Hd Heq. pose proof (proj1 Hiff Hempty y Hy) as Hf.
      assert (matches e y = true); [|congruence]. apply Hmatch; [done|]. rewrite Heq. by apply elem_of_list_fmap_1. }
    split; [done|]. split; [done|].
    destruct (append_runs E fo s [data] (y_world σ) Hs Hp Hrl) as (w'&op&Hop); [by rewrite ?app_nil_r; cbn; rewrite app_nil_r..|].
    pose proof (append_op_out E fo s [data] (y_world σ) (reachable_bounded _ Hr)) as Hout. rewrite Hop in Hout, Hbody.
    destruct Hout as (_&_&rows&Hrows&Hout). pose proof (tsel_length _ _ _ Hrows) as Hlen. cbn in Hlen. rewrite app_nil_r in Hlen.
    destruct op as [p|]; [|exfalso; subst rows; by destruct data].
    destruct Hout as (ms&rms&u&Hne'&Hout). assert (Hst : st_rows (pa_stats p) = Z.of_nat (length rows)) by apply Hout.
    injection Hbody as <- <-. cbn in Hres.
    assert (Hex : ∃ st, result σ hid (run_op E fo (OInsert MInsert data)) = Some (Ok (JSucceeded st)) ∧ st_rows st = Z.of_nat (length data)).
    { eexists. split; [exact Hres|]. cbn. lia. }
    split; [done|]. destruct Hex as (st&Hex&_).
    destruct (insert_shows σ hid s E fo data st before Hr Hsc Hp Hb Hkb Hkn Hex) as (_&_&?). done.
  - right. injection Hbody as <- <-. rewrite Hres. cbn. split; [|done]. right.
    destruct (decide (Exists (fun y => matches e y = true) before)) as [Hex|Hnex].
    + apply Exists_exists in Hex as (y&Hy&He'). apply Hmatch in He'; [|done].
      apply elem_of_list_fmap in He' as (d&Heq&Hd). eauto.
    + exfalso. apply Hempty, Hiff. intros y Hy. apply not_true_iff_false. intros He'. apply Hnex, Exists_exists. eauto.
Qed.

(** The two outcomes, with the effect of each. *)
Lemma insert_outcomes σ hid h s m E fo data before :
  reachable σ → y_handles σ !! hid = Some h → schema_at σ hid = Some s →
  stored_meta (w_fs (y_world σ)) = Some m → is_branch m (h_branch h) →
  plain_keys s → records_last s → data ≠ [] →
  Forall (typed_row s) data → proper_keys (s_pks s) data →
  reads σ hid None before → proper_keys (s_pks s) before →
  let σ' := after σ hid (run_insert E fo MInsert data) in
  (unique_keys (s_pks s) data ∧ (∀ y d, y ∈ before → d ∈ data → key_of (s_pks s) y ≠ key_of (s_pks s) d)
   ∧ (∃ st, result σ hid (run_insert E fo MInsert data) = Some (Ok (JSucceeded st)) ∧ st_rows st = Z.of_nat (length data))
   ∧ reads σ' hid None (before ++ (show s <$> data)))
  ∨ ((¬ unique_keys (s_pks s) data ∨ ∃ y d, y ∈ before ∧ d ∈ data ∧ key_of (s_pks s) y = key_of (s_pks s) d)
     ∧ result σ hid (run_insert E fo MInsert data) = Some (Ok JFailed)
     ∧ stored_meta (w_fs (y_world σ')) = stored_meta (w_fs (y_world σ))
     ∧ ∀ hid' v E' b, result σ' hid' (run_read_all E' None None v false b) = result σ hid' (run_read_all E' None None v false b)).
Proof.
  intros Hr Hh Hsc Hm Hbr Hp Hrl Hne Ht Hk Hb Hkb σ'.
  destruct (insert_decides σ hid h s m E fo data before) as [Hyes|[Hno Hf]]; try done; [by left|right].
  split; [done|]. split; [done|].
  apply (unsuccessful_unchanged σ hid E fo (OInsert MInsert data) (Ok JFailed) Hr); [exact (fun _ _ => I)|exact Hf|done].
Qed.

(** * Filtered reads *)
Lemma key_filter_read σ hid s e v before :
  reachable σ → schema_at σ hid = Some s → plain_keys s → reads σ hid v before →
  (∀ n, n ∈ filter_fields e → n ∈ s_pks s) → None ∉ literals e → bare e = false →
  ∃ rows, ∀ E b, result σ hid (run_read_all E (Some e) None v false b) = Some (Ok rows).
Proof.
  intros Hr Hsch Hpl Hb Hf Hl Hbare. unfold schema_at in Hsch. destruct (y_handles σ !! hid) as [h|] eqn:Hh; [|done].
  destruct (reachable_seen _ _ _ Hr Hh) as (s'&p&m&Hseen).
  assert (s' = s) as ->.
  { pose proof (sn_schema _ _ _ _ _ _ Hseen) as H. unfold schema_at in H. rewrite Hh in H. cbn in *. congruence. }
  apply (reads_iff _ _ _ _ _ _ _ _ Hseen) in Hb as (sn&Hsn&Hrows). pose proof Hseen as [Hs _ Hwf Hst Hm _].
  pose proof (si_world _ _ Hs) as Hi.
  destruct (build_total s e (wi_schema _ _ Hi)) as [mf Hmf].
  { split_and!; [|done|done]. intros n Hn. apply Hf in Hn. split; [by apply (wi_schema _ _ Hi)|by apply Hpl]. }
  destruct (snap_rows_some s (w_fs (y_world σ)) sn (snap_of_wf _ _ _ _ _ _ Hm Hsn)) as [all Hall].
  assert (Hsub : ∀ n, n ∈ read_names s None → n ∈ s_names s) by done.
  destruct (read_general σ hid s (Some e) v Hr) as [[err Herr]|(sto&rows&_&_&Hok)].
  - apply Hseen.
  - exfalso. set (E0 := Env (fun _ => 0%Z) (fun _ => 0%Z) (fun _ _ => 0%Z) (fun _ _ => 0%Z) (fun _ => []) (fun _ => [])).
    destruct (run_read_run E0 (Some e) None v false None s h (y_world σ) p m Hi Hwf Hst Hm) as (r&Hr'&Hout).
    rewrite Hsn in Hout. cbn [man_filter] in Hout. rewrite Hmf in Hout. destruct (Hout Hsub) as (ts&?&->&_).
    specialize (Herr E0 None false None Hsub). rewrite (result_eq _ _ _ _ Hh), Hr' in Herr. done.
  - exists (columns (shown_order s (read_names s None)) <$> rows). intros E b.
    destruct (Hok E None false b Hsub) as (ts&Hts&Hc&_). rewrite result_read_all, Hts. cbn. by rewrite Hc.
Qed.
