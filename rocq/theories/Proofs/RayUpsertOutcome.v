(** What a distributed upsert does, in every case. *)
From Verif.Model Require Import System RayOps.
From Verif.Spec Require Import Logical Api Pruning Keys Typed Layout Candidates Serial Merging.
From Verif.Proofs Require Import NewPaths Fits.
From Verif.Proofs Require Import Lib World Resolve FalsifySound Stats Bounds SchemaFacts Keys ReadSpec
  AppendSpec Total AppendTotal Wf OpSpec Inv FileSet Ops Bodies SysInv ReadRun Effects Observe View Prune DeleteEffect Mutations
  Edge Txn Calls Evolve Durable Adds Serial Succeeds NoOp DeleteExact DeleteTotal DeleteOutcome UpsertOutcome
  Shards RayAppend RayInsert RayOutcomes.

Lemma ray_upsert_unfold E fo s n data h w :
  winv s w → wf_handle s w h → data ≠ [] →
  ray_insert_op E fo n MUpsert data (h, w) =
    match primary_key_filter (s_pks s) data with
    | Err x => ((h, w), Err x)
    | Ok None => ((h, w), Err (EOther "AssertionError"))
    | Ok (Some e) =>
        match get_snapshot h None with
        | Err x => ((h, w), Err x)
        | Ok sn =>
            match build_manifest_filter (fenv_of s) e with
            | Err x => ((h, w), Err x)
            | Ok mf =>
                let fset := fset_at (w_fs w) mf (sn_idx sn) in
                match (match fset_files fset with
                       | [] => (w, Ok [])
                       | _ => let '(w', r) := delete_op E fo s e fset w in (w', rmap (fun p => [p]) r)
                       end) with
                | (w', Err x) => ((h, w'), Err x)
                | (w', Ok ps) =>
                    let '(w2, r) := ray_write E fo s n data w' in
                    ((h, w2), rmap (fun p => merge_patches (ps ++ [p])) r)
                end
            end
        end
    end.
Proof.
  intros Hi Hh Hne. pose proof Hh as (Hm&_&_). pose proof Hi as [Hb Hs _]. unfold ray_insert_op.
  destruct data as [|d0 d1]; [done|]. cbv iota. clear Hne. generalize (d0 :: d1). clear d0 d1. intros data.
  rewrite get_handle_bind, lift_bind. rewrite (wm_schema _ _ _ Hm).
  destruct (primary_key_filter (s_pks s) data) as [[e|]|] eqn:Hpk; [|done..].
  unfold bind at 1. rewrite (data_files_run s) by done.
  destruct (get_snapshot h None) as [sn|] eqn:Hsn; [|done]. cbn [man_filter].
  destruct (build_manifest_filter (fenv_of s) e) as [mf|] eqn:Hmf; [|done]. cbn [rmap]. cbv zeta.
  set (fset := fset_at (w_fs w) mf (sn_idx sn)).
  assert (Happ : ∀ w' ps, bind (liftM (ray_write E fo s n data)) (fun p => ret (merge_patches (ps ++ [p]))) (h, w')
    = let '(w2, r) := ray_write E fo s n data w' in ((h, w2), rmap (fun p => merge_patches (ps ++ [p])) r)).
  { intros w' ps. destruct (ray_write E fo s n data w') as [w2 r] eqn:Ha. unfold bind. rewrite (liftM_run _ h w' _ _ Ha). by destruct r. }
  destruct (fset_files fset) as [|df dfs] eqn:Hf; [exact (Happ w [])|].
  unfold bind at 1 2. destruct (delete_op E fo s e fset w) as [w' r] eqn:Hd. rewrite (liftM_run _ h w _ _ Hd).
  destruct r as [p|]; [|done]. exact (Happ w' [p]).
Qed.

(** The deleting half. *)
Lemma upsert_deletes s w E fo e mf base before data :
  bounded w → wf_schema s → plain_keys s → records_last s → wf_snap s (w_fs w) base → snap_rows s (w_fs w) base before →
  proper_keys (s_pks s) before → w_fs w !! PExt "" = None → key_nonnull (s_pks s) data →
  primary_key_filter (s_pks s) data = Ok (Some e) → build_manifest_filter (fenv_of s) e = Ok mf →
  let reps := length (filter (fun y => key_of (s_pks s) y ∈ key_of (s_pks s) <$> data) before) in
  let fset := fset_at (w_fs w) mf (sn_idx base) in
  ∃ w' ps, wnew w w'
     ∧ (match fset_files fset with
        | [] => (w, Ok [])
        | _ => let '(w', r) := delete_op E fo s e fset w in (w', rmap (fun p => [p]) r)
        end) = (w', Ok ps)
     ∧ (omap id ps = [] ∧ reps = 0
        ∨ ∃ p, ps = [Some p] ∧ delete_out s e w fset (Some p) w' ∧ st_rows (pa_stats p) = (- Z.of_nat reps)%Z).
Proof.
  intros Hbd Hs Hp Hrl Hwb Hb2 Hkb Hext Hkn Hpkf Hmf reps fset.
  destruct (primary_key_filter_spec _ _ _ Hkn Hpkf) as (Hnd&Hkf&Hev).
  assert (Hnan : no_nan_keys (s_pks s) before) by (intros ????; by apply Hkb).
  assert (Hdec : decided e before).
  { intros y Hy. destruct (Hev y) as (bb&Hbb&_); [by intros; apply Hkb|eauto]. }
  assert (Hmatch : filter (fun y => matches e y = true) before
     = filter (fun y => key_of (s_pks s) y ∈ key_of (s_pks s) <$> data) before).
  { apply filter_ext_in. intros y Hy. eapply key_matches; [done..|]. intros n Hn. by apply Hkb. }
  pose proof (delete_counts s e w mf base before Hs Hwb Hb2 (keyf_safe _ _ Hs Hp Hkf) Hmf Hnan Hdec) as Hcnt.
  rewrite Hmatch in Hcnt. fold reps in Hcnt. fold fset in Hcnt.
  destruct (decide (fset_files fset = [])) as [Hf|Hf].
  { rewrite Hf in *. exists w, []. split; [apply wnew_refl|]. split; [done|]. left. split; [done|]. cbn in Hcnt. lia. }
  assert (Hl : Forall (listed s w) (fset_files fset)) by apply fset_listed, Hwb.
  assert (Hmw : ∀ i q, fset_mans fset !! i = Some q → wf_man s (w_fs w) q).
  { intros i q'. apply fset_mans_wf, Hwb. }
  destruct (delete_op_total E fo s e w Hs Hp Hrl Hbd fset) as (w2&op&Hop); try done.
  { by eapply candidates_good. }
  { apply fset_mid. }
  { unfold fset. rewrite fset_valid. by eapply key_candidates. }
  pose proof (delete_op_out E fo s e fset w Hs Hbd Hl Hmw) as Hout. rewrite Hop in Hout.
  destruct Hout as [Hw2 Hout]. exists w2, [op]. split; [done|]. rewrite Hop.
  split; [by destruct (fset_files fset)|]. destruct op as [p|].
  - right. exists p. split; [done|]. split; [done|]. destruct Hout as (_&mids&ms&lk&_&_&_&_&_&_&_&_&Hst). rewrite (proj1 Hst), Hcnt. done.
  - left. split; [done|]. unfold delete_out in Hout. rewrite drop_count_rows, Hout in Hcnt. cbn in Hcnt. lia.
Qed.

Lemma ray_upsert_outcomes σ hid h s m E fo n data before :
  reachable σ → y_handles σ !! hid = Some h → schema_at σ hid = Some s →
  stored_meta (w_fs (y_world σ)) = Some m → is_branch m (h_branch h) →
  plain_keys s → records_last s → data ≠ [] → 1 ≤ n →
  Forall (typed_row s) data → proper_keys (s_pks s) data →
  reads σ hid None before → proper_keys (s_pks s) before → w_fs (y_world σ) !! PExt "" = None →
  let σ' := after σ hid (run_ray_insert E fo n MUpsert data) in
  (unique_keys (s_pks s) data
   ∧ ∃ st kept lost written, result σ hid (run_ray_insert E fo n MUpsert data) = Some (Ok (JSucceeded st))
     ∧ st_rows st = (Z.of_nat (length data)
         - Z.of_nat (length (filter (fun y => key_of (s_pks s) y ∈ key_of (s_pks s) <$> data) before)))%Z
     ∧ written ≡ₚ data ∧ reads σ' hid None (kept ++ (show s <$> written))
     ∧ filter (fun y => key_of (s_pks s) y ∉ key_of (s_pks s) <$> data) before ≡ₚ kept ++ lost
     ∧ (lost = [] ↔ lossless (layout σ hid) (fun r => key_of (s_pks s) r ∈ key_of (s_pks s) <$> data)))
  ∨ (¬ unique_keys (s_pks s) data ∧ result σ hid (run_ray_insert E fo n MUpsert data) = Some (Ok JFailed)
     ∧ stored_meta (w_fs (y_world σ')) = stored_meta (w_fs (y_world σ))
     ∧ ∀ hid' v E' b, result σ' hid' (run_read_all E' None None v false b) = result σ hid' (run_read_all E' None None v false b)).
Proof.
  intros Hr Hh Hsc Hm Hbr Hp Hrl Hne Hn Ht Hk Hb Hkb Hext σ'. destruct (handle_seen _ _ _ _ _ Hr Hh Hsc Hm) as [q Hseen].
  destruct (seen_sync _ _ _ _ _ _ Hseen) as (Hm0&Hb0&Hwf0&Hms).
  assert (Hkn : key_nonnull (s_pks s) data) by (intros ????; by apply Hk).
  pose proof (seen_schema _ _ _ _ _ _ Hseen) as Hs.
  pose proof (si_world _ _ (sn_inv _ _ _ _ _ _ Hseen)) as Hi. pose proof (reachable_bounded _ Hr) as Hbd.
  destruct (is_branch_head _ _ _ _ (sn_meta _ _ _ _ _ _ Hseen) Hbr) as (base&_&_&Hsn&Hwb).
  apply (reads_iff _ _ _ _ _ _ _ _ Hseen) in Hb as Hb'. destruct Hb' as (base'&Hb1&Hb2).
  assert (base' = base) as -> by congruence.
  assert (Hget : get_snapshot (sync q m h) None = Ok base).
  { apply (get_snapshot_snap_of _ m); [done|]. by rewrite Hb0. }
  pose proof (ray_upsert_unfold E fo s n data (sync q m h) (y_world σ) Hi Hwf0 Hne) as Hunf.
  change (run_ray_insert E fo n MUpsert data) with (transactional (ray_insert_op E fo n MUpsert data)) in *.
  set (reps := length (filter (fun y => key_of (s_pks s) y ∈ key_of (s_pks s) <$> data) before)).
  (* the body *)
  assert (Hbody : (∃ w1 p, ray_insert_op E fo n MUpsert data (sync q m h, y_world σ) = ((sync q m h, w1), Ok (Some p))
       ∧ fits (w_next (y_world σ)) base p ∧ unique_keys (s_pks s) data
       ∧ st_rows (pa_stats p) = (Z.of_nat (length data) - Z.of_nat reps)%Z)
     ∨ (∃ x, ray_insert_op E fo n MUpsert data (sync q m h, y_world σ) = ((sync q m h, y_world σ), Err x)
         ∧ catch (Err x) = Ok JFailed ∧ ¬ unique_keys (s_pks s) data)).
  { destruct (key_filter_total (s_pks s) (key_of (s_pks s) <$> data) [] None) as [(e&He&Hnn)|[He Hd]].
    { by apply pks_not_nil. }
    { apply Forall_forall. intros k (d&->&_)%elem_of_list_fmap. unfold key_of. by rewrite fmap_length. }
    2: { right. unfold primary_key_filter in Hunf. rewrite (row_keys _ _ Hkn) in Hunf. cbn [rbind] in Hunf.
         rewrite He in Hunf. eexists. split; [exact Hunf|]. split; [done|].
         destruct Hd as [Hd|(k&_&Hk')]; [done|]. by apply elem_of_nil in Hk'. }
    destruct e as [e|]; [|exfalso; apply Hnn; [right; by destruct data|done]].
    assert (Hpkf : primary_key_filter (s_pks s) data = Ok (Some e)).
    { unfold primary_key_filter. rewrite (row_keys _ _ Hkn). exact He. }
    rewrite Hpkf, Hget in Hunf. left.
    destruct (primary_key_filter_spec _ _ _ Hkn Hpkf) as (Hnd&Hkf&_).
    destruct (build_total s e Hs (keyf_buildable _ _ Hs Hp Hkf)) as [mf Hmf]. rewrite Hmf in Hunf. cbv zeta in Hunf.
    destruct (upsert_deletes s (y_world σ) E fo e mf base before data) as (w'&ps&Hw'&Hdel&Hps); try done.
    fold reps in Hps. rewrite Hdel in Hunf. assert (Hbw : bounded w') by (by eapply wle_bounded).
    assert (Hlw : (w_next (y_world σ) ≤ w_next w')%N) by apply Hw'.
    destruct (ray_write_total E fo s n data w' Hn Hs Hp Hrl Ht Hk) as (w2&op&Hop). rewrite Hop in Hunf. cbn [rmap] in Hunf.
    unfold ray_write in Hop.
    pose proof (ray_append_op_run E fo s n ((fun c => (c.1, [c.2])) <$> ray_shards n data) w' Hs Hbw) as Hout. rewrite Hop in Hout. destruct Hout as (Hw2&rows&Hsel&Hadds).
    pose proof (tsel_length _ _ _ Hsel) as Hlen. change (in_worker_order n ((fun c => (c.1, [c.2])) <$> ray_shards n data)) with (written_by n data) in Hlen.
    rewrite (written_by_perm n data Hn) in Hlen.
    destruct op as [p|].
    2:{ cbn in Hadds. subst rows. by destruct data. }
    destruct Hadds as (_&_&_&Hst&_). destruct (ray_append_new _ _ _ _ _ _ _ _ Hbw Hop) as (Hni&Hnr&Hnd').
    destruct Hps as [[Hz Hreps]|(pd&->&Hdo&Hz)].
    - assert (Hmp : merge_patches (ps ++ [Some p]) = Some (merge_two patch0 p)) by (unfold merge_patches; by rewrite omap_app, Hz).
      rewrite Hmp in Hunf. exists w2, (merge_two patch0 p). split_and!; [done|..|done|cbn; rewrite Hst, Hlen; lia].
      eapply new_fits; [| |done]; (eapply (new_paths_app _ (w_next w') _ []); [done|apply Hw2|apply new_paths_nil|done]).
    - destruct (delete_out_fits _ _ _ _ _ _ _ Hdo) as (Hfd&Hbl&Hrc).
      eexists w2, _. split; [exact Hunf|]. split_and!; [|done|].
      + cbn. destruct Hfd as [F1 F2 F3 F4 F5]. destruct Hni as [N1 N2], Hnr as [N3 N4].
        constructor; cbn; rewrite ?Hrc, ?Hnd', ?app_nil_r; cbn [app].
        * intros x [Hx|Hx]%elem_of_app; [auto|]. intros Hlo. destruct (N2 x Hx) as [Hx1 _]. apply Hx1. by eapply below_mono.
        * intros x Hx Hlo. destruct (N4 x Hx) as [Hx1 _]. apply Hx1. by eapply below_mono.
        * apply NoDup_app. split_and!; try done. intros x Hx Hx'. destruct (N2 x Hx') as [Hx1 _]. apply Hx1. auto.
        * done.
        * done.
      + cbn. rewrite Hst, Hlen, Hz. lia. }
  destruct (fn_outcome s σ hid h q m (ray_insert_op E fo n MUpsert data) base Hseen (ray_insert_ok _ _ _ _ _ _ _ _ _ _ _ Hseen) Hbr Hsn)
    as (w1&r&Hrun&Hres).
  { intros w1 p Hx. destruct Hbody as [(w2&p'&H1&H2&_)|(x&H1&_)]; rewrite H1 in Hx; [|done]. by injection Hx as <- <-. }
  destruct Hbody as [(w2&p&H1&_&Hu&Hst)|(x&H1&Hc&Hu)]; rewrite H1 in Hrun; injection Hrun as <- <-; [left|right].
  - split; [done|].
    destruct (ray_upsert_shows σ hid s E fo n data (pa_stats p) before Hr Hsc Hp Hb Hn Hkb Hkn Hres) as (_&kept&lost&written&?&?&?&?).
    by exists (pa_stats p), kept, lost, written.
  - rewrite Hc in Hres. split; [done|]. split; [done|]. by apply (ray_insert_unchanged σ hid E fo n MUpsert data (Ok JFailed) Hr Hres).
Qed.
