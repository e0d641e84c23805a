(** The outcomes of the distributed calls. *)
From Verif.Model Require Import System RayOps.
From Verif.Spec Require Import Logical Api Pruning Keys Layout Typed Durable Serial Merging.
From Verif.Proofs Require Import NewPaths Fits.
From Verif.Proofs Require Import Lib FalsifySound World Resolve AppendSpec SchemaFacts ReadSpec Bounds Wf OpSpec Inv FileSet Ops Bodies Txn
  SysInv ReadRun Effects Observe View Prune DeleteEffect Keys Mutations Calls Total AppendTotal Reads Adds Durable Evolve History Serial
  AnyOp Succeeds Shards RayAppend RayDelete RayInsert.
From Verif.Proofs Require Import Merge.

(** * Calls that do not succeed *)
Lemma fn_unsuccessful s fn h w p m h' w' r :
  winv s w → wf_handle s w h → body_ok s fn w m → stored (w_fs w) p m → wf_meta s (w_fs w) m →
  transactional fn (h, w) = ((h', w'), r) → (∀ st, r ≠ Ok (JSucceeded st)) →
  wnew w w' ∧ stored (w_fs w') p m ∧ h_branch h' = h_branch h ∧ winv s w' ∧ wf_handle s w' h'.
Proof.
  intros Hi Hh Hok Hst Hm Hrun Hns.
  destruct (fn_inv s fn h w p m Hi Hh Hst Hm Hok) as (h1&w1&r1&Hr1&Ht&_&Hi'&Hh').
  rewrite Hrun in Hr1. injection Hr1 as <- <- <-.
  destruct (sync_spec s w p m h Hst Hm Hh) as (_&_&_&Hb0&_).
  assert (Hgo : wnew w w' ∧ h_branch h' = h_branch h).
  { destruct Ht as [Hn|w1 e _ _ Hw|w1 _ _ Hw|q w1 w2 _ Hw1 Hw|q w1 h1 w2 _ Hw1 Hc]; try (by split).
    - split; [apply wnew_refl|done].
    - by destruct (Hns (pa_stats q)). }
  destruct Hgo as [Hw Hb]. split_and!; try done. exact (stored_wnew _ _ _ _ _ Hi Hw Hst).
Qed.
Lemma fn_unchanged σ hid fn r :
  reachable σ → (∀ s h p m, seen s σ hid h p m → body_ok s fn (y_world σ) m) →
  result σ hid (transactional fn) = Some r → (∀ st, r ≠ Ok (JSucceeded st)) →
  stored_meta (w_fs (y_world (after σ hid (transactional fn)))) = stored_meta (w_fs (y_world σ))
  ∧ ∀ hid' v E' b, result (after σ hid (transactional fn)) hid' (run_read_all E' None None v false b)
                   = result σ hid' (run_read_all E' None None v false b).
Proof.
  intros Hr Hok Hres Hns. destruct (result_handle _ _ _ _ Hres) as [h Hh].
  destruct (reachable_seen _ _ _ Hr Hh) as (s&p&m&Hseen). specialize (Hok _ _ _ _ Hseen).
  pose proof Hseen as [Hs _ Hwf Hst Hm _].
  rewrite (result_eq _ _ _ _ Hh) in Hres. injection Hres as Hres.
  destruct (transactional fn (h, y_world σ)) as [[h' w'] r'] eqn:Hrun. cbn in Hres. subst r'.
  destruct (fn_unsuccessful s fn h (y_world σ) p m h' w' r (si_world _ _ Hs) Hwf Hok Hst Hm Hrun Hns) as (Hw&Hst'&Hb&Hi'&Hh').
  pose proof (after_eq σ hid h (transactional fn) h' w' _ Hh Hrun) as Haf.
  assert (Hs' : sinv s (after σ hid (transactional fn))).
  { unfold after. apply (with_handle_inv s σ hid (transactional fn) Hs). intros h2 Hl _.
    rewrite Hh in Hl. injection Hl as <-. eexists _, _, _. split; [exact Hrun|]. split_and!; try done. by constructor. }
  rewrite Haf in *.
  pose proof (wnew_keeps _ _ (wi_bounded _ _ (si_world _ _ Hs)) Hw) as Hk.
  split. { cbn. by rewrite (stored_meta_eq _ _ _ Hst), (stored_meta_eq _ _ _ Hst'). }
  intros hid' v E' b. destruct (y_handles σ !! hid') as [hb|] eqn:Hh2.
  2:{ unfold result, with_handle. cbn. rewrite lookup_insert_ne, Hh2; [done|congruence]. }
  destruct (sinv_seen s σ hid' hb Hs Hh2) as (p2&m2&Hs2).
  destruct (stored_fun _ _ _ _ _ Hst (sn_stored _ _ _ _ _ _ Hs2)) as [<- <-].
  destruct (seen_move s σ _ hid' hb p m Hs2 Hs' Hk Hst') as (hb'&Hs3&Hb3).
  { cbn. destruct (decide (hid = hid')) as [<-|Hne].
    - rewrite lookup_insert. rewrite Hh in Hh2. injection Hh2 as <-. eauto.
    - rewrite lookup_insert_ne by done. eauto. }
  by eapply same_reads.
Qed.
Lemma seen_winv s σ hid h p m : seen s σ hid h p m → winv s (y_world σ).
Proof. intros H. apply (si_world _ _ (sn_inv _ _ _ _ _ _ H)). Qed.
Lemma ray_insert_ok E fo n mode data s σ hid h p m :
  seen s σ hid h p m → body_ok s (ray_insert_op E fo n mode data) (y_world σ) m.
Proof.
  intros Hseen h0 Hh0 _. pose proof (seen_winv _ _ _ _ _ _ Hseen) as Hi.
  destruct (ray_insert_op_run E fo s n mode data h0 _ Hi Hh0) as (w'&r&?&?&Hm).
  exists w', r. split_and!; try done. destruct r as [op|]; [|done]. by eapply ray_insert_out_wf.
Qed.
Lemma ray_append_ok E fo n calls s σ hid h p m :
  seen s σ hid h p m → body_ok s (ray_append_body E fo n calls) (y_world σ) m.
Proof.
  intros Hseen h0 Hh0 _. pose proof (seen_winv _ _ _ _ _ _ Hseen) as Hi.
  destruct (ray_append_body_run E fo s n calls h0 _ Hi Hh0) as (w'&r&?&?&Hm).
  exists w', r. split_and!; try done. destruct r as [op|]; [|done]. destruct Hm as (rows&_&Ha). by eapply adds_wf.
Qed.
Lemma ray_delete_ok E fo e s σ hid h p m :
  seen s σ hid h p m → body_ok s (ray_delete_body E fo e) (y_world σ) m.
Proof.
  intros Hseen h0 Hh0 _. pose proof (seen_winv _ _ _ _ _ _ Hseen) as Hi.
  destruct (ray_delete_body_run E fo s e h0 _ Hi Hh0) as (w'&r&?&?&Hm).
  exists w', r. split_and!; try done. destruct r as [op|]; [|done]. destruct Hm as (sn&mf&ps&_&_&Hp&_&->).
  apply merge_patches_wf. by eapply pieces_wf.
Qed.

(** * The outcome of a call on a branch *)
Lemma fn_outcome s σ hid h q m fn base :
  seen s σ hid h q m → body_ok s fn (y_world σ) m → is_branch m (h_branch h) →
  snap_of m (h_branch h) None = Some base →
  (∀ w1 p, fn (sync q m h, y_world σ) = ((sync q m h, w1), Ok (Some p)) → fits (w_next (y_world σ)) base p) →
  ∃ w1 r, fn (sync q m h, y_world σ) = ((sync q m h, w1), r)
    ∧ result σ hid (transactional fn) = Some (match r with
        | Ok (Some p) => Ok (JSucceeded (pa_stats p)) | Ok None => Ok JSkipped | Err e => catch (Err e) end).
Proof.
  intros [Hs Hh Hwf Hst Hm _] Hok Hbr Hbase Hfits. pose proof (si_world _ _ Hs) as Hi.
  destruct (sync_spec s (y_world σ) q m h Hst Hm Hwf) as (Hwf0&Hm0&_&Hb0&Hmax0).
  destruct (is_branch_head _ _ _ _ Hm Hbr) as (base'&[Hhead Hkind]&Hbs&Hsn&Hwb).
  assert (base' = base) as -> by congruence.
  destruct (Hok (sync q m h) Hwf0 Hm0) as (w1&r&Hbody&Hw1&Hout).
  exists w1, r. split; [done|]. rewrite (result_eq _ _ _ _ Hh).
  destruct (fn_inv s fn h (y_world σ) q m Hi Hwf Hst Hm Hok) as (h'&w'&r'&Hrun&Ht&_). rewrite Hrun. cbn. f_equal.
  destruct Ht as [Hn|w' e Hhd Hb Hw|w' Hhd Hb Hw|p w1' w' Hb Hw1' Hw Hnr|p w1' h' w' Hb Hw1' Hc].
  - rewrite Hb0 in Hn. congruence.
  - rewrite Hbody in Hb. injection Hb as <- ->. done.
  - rewrite Hbody in Hb. injection Hb as <- ->. done.
  - exfalso. rewrite Hbody in Hb. injection Hb as <- ->. apply Hnr. rewrite Hb0.
    destruct (fits_manifests s (y_world σ) base p (wi_bounded _ _ Hi) Hwb) as (idx&rec&Hpm); [by eapply Hfits|].
    by exists (sn_id base), base, idx, rec.
  - rewrite Hbody in Hb. by injection Hb as <- ->.
Qed.

(** * Distributed appends *)
Lemma workers_some E fo s (B : nat → list (list row)) l w w' ps p :
  bounded w → mapM_st (fun i => append_op E fo s (B i)) l w = (w', Ok ps) → Some p ∈ ps → ∃ i, i ∈ l ∧ concat (B i) ≠ [].
Proof.
  revert w w' ps. induction l as [|i l IH]; intros w w' ps Hb Hrun Hin; cbn [mapM_st] in Hrun.
  { injection Hrun as <- <-. by apply elem_of_nil in Hin. }
  pose proof (append_op_out E fo s (B i) w Hb) as Hout. unfold bind in Hrun.
  destruct (append_op E fo s (B i) w) as [w1 [op|e]] eqn:H1; destruct Hout as (Hn1&Hb1&Hout); [|done].
  destruct (mapM_st (fun i => append_op E fo s (B i)) l w1) as [w2 [ps'|e]] eqn:H2; [|done]. injection Hrun as <- <-.
  apply elem_of_cons in Hin as [<-|Hin].
  - exists i. split; [left|]. destruct Hout as (rows&Hsel&ms&rms&u&Hne&_). intros Hnil. rewrite Hnil in Hsel. by injection Hsel as <-.
  - destruct (IH _ _ _ Hb1 H2 Hin) as (j&Hj&Hne). exists j. split; [by right|done].
Qed.
Lemma ray_append_some E fo s n calls w w' p :
  bounded w → ray_append_op E fo s n calls w = (w', Ok (Some p)) → in_worker_order n calls ≠ [].
Proof.
  intros Hb Hrun Hnil. unfold ray_append_op in Hrun.
  destruct (mapM_st (fun i => append_op E fo s (concat (filter (fun c => c.1 = i) calls).*2)) (seq 0 n) w) as [w1 [ps|e]] eqn:Hm;
    unfold bind in Hrun; rewrite Hm in Hrun; [|done].
  injection Hrun as <- Hp. pose proof (merged ps) as Hmg. rewrite Hp in Hmg. destruct Hmg as [[p' Hin] _].
  destruct (workers_some E fo s (fun i => concat (filter (fun c => c.1 = i) calls).*2) _ _ _ _ _ Hb Hm Hin) as (i&Hi&Hne).
  apply Hne. destruct (concat (concat (filter (fun c => c.1 = i) calls).*2)) as [|r rs] eqn:Hc; [done|].
  exfalso. assert (r ∈ in_worker_order n calls) as Hr; [|rewrite Hnil in Hr; by apply elem_of_nil in Hr].
  unfold in_worker_order. apply elem_of_list_In, in_concat. eexists. split.
  - apply in_map_iff. exists i. split; [reflexivity|]. by apply elem_of_list_In.
  - rewrite Hc. by left.
Qed.
Lemma workers_total E fo s (B : nat → list (list row)) l w :
  wf_schema s → plain_keys s → records_last s →
  (∀ i, i ∈ l → Forall (typed_row s) (concat (B i)) ∧ proper_keys (s_pks s) (concat (B i))) →
  ∃ w' ps, mapM_st (fun i => append_op E fo s (B i)) l w = (w', Ok ps).
Proof.
  intros Hs Hp Hrl. revert w. induction l as [|i l IH]; intros w Hall; cbn [mapM_st]; [by eexists _, _|].
  destruct (Hall i ltac:(left)) as [Ht Hk].
  destruct (append_runs E fo s (B i) w Hs Hp Hrl Ht Hk) as (w1&op&H1).
  destruct (IH w1) as (w2&ps&H2); [intros; apply Hall; by right|].
  exists w2, (op :: ps). erewrite bind_run; [|exact H1]. erewrite bind_run; [|exact H2]. done.
Qed.
Lemma ray_append_total E fo s n calls w :
  wf_schema s → plain_keys s → records_last s →
  Forall (typed_row s) (concat (concat calls.*2)) → proper_keys (s_pks s) (concat (concat calls.*2)) →
  ∃ w' op, ray_append_op E fo s n calls w = (w', Ok op).
Proof.
  intros Hs Hp Hrl Ht Hk. unfold ray_append_op.
  destruct (workers_total E fo s (fun i => concat (filter (fun c => c.1 = i) calls).*2) (seq 0 n) w Hs Hp Hrl) as (w'&ps&Hrun).
  - intros i _.
    assert (Hsub : ∀ r, r ∈ concat (concat (filter (fun c => c.1 = i) calls).*2) → r ∈ concat (concat calls.*2)).
    { intros r. rewrite !elem_of_list_In, !in_concat. intros (b&Hb&Hr). exists b. split; [|done].
      apply in_concat in Hb as (bs&Hbs&Hb). apply in_concat. exists bs. split; [|done].
      apply elem_of_list_In in Hbs. apply elem_of_list_In. apply elem_of_list_fmap in Hbs as (c&->&[_ Hc]%elem_of_list_filter).
      apply elem_of_list_fmap. eauto. }
    split.
    + apply Forall_forall. intros r Hr. eapply Forall_forall in Ht; [done|]. auto.
    + intros r k Hr Hk'. by apply Hk; [apply Hsub|].
  - eexists _, _. erewrite bind_run; [|exact Hrun]. done.
Qed.
Lemma shards_rows n (data : list row) : 1 ≤ n → concat (concat ((fun c => (c.1, [c.2])) <$> ray_shards n data).*2) = data.
Proof.
  intros Hn. destruct (ray_shards_spec n data Hn) as [Hc _]. rewrite <-Hc at 2. generalize (ray_shards n data).
  intros l. induction l as [|c l IH]; [done|]. cbn in *. by rewrite IH.
Qed.
Lemma ray_write_total E fo s n data w :
  1 ≤ n → wf_schema s → plain_keys s → records_last s →
  Forall (typed_row s) data → proper_keys (s_pks s) data →
  ∃ w' op, ray_write E fo s n data w = (w', Ok op).
Proof. intros Hn Hs Hp Hrl Ht Hk. unfold ray_write. apply ray_append_total; try done; by rewrite shards_rows. Qed.

Lemma ray_append_outcome σ hid h s m E fo n data :
  reachable σ → y_handles σ !! hid = Some h → schema_at σ hid = Some s →
  stored_meta (w_fs (y_world σ)) = Some m → is_branch m (h_branch h) →
  plain_keys s → records_last s → 1 ≤ n →
  Forall (typed_row s) data → proper_keys (s_pks s) data →
  match data with
  | [] => result σ hid (run_ray_append E fo n data) = Some (Ok JSkipped)
  | _ => ∃ st, result σ hid (run_ray_append E fo n data) = Some (Ok (JSucceeded st))
           ∧ st_rows st = Z.of_nat (length data)
  end.
Proof.
  intros Hr Hh Hsc Hm Hbr Hp Hrl Hn Ht Hk. destruct (handle_seen _ _ _ _ _ Hr Hh Hsc Hm) as [q Hseen].
  destruct (seen_sync _ _ _ _ _ _ Hseen) as (Hm0&Hb0&Hwf0&Hms).
  pose proof (seen_winv _ _ _ _ _ _ Hseen) as Hi. pose proof (wi_bounded _ _ Hi) as Hb.
  destruct (is_branch_head _ _ _ _ (sn_meta _ _ _ _ _ _ Hseen) Hbr) as (base&_&_&Hsn&_).
  set (calls := (fun c => (c.1, [c.2])) <$> ray_shards n data).
  change (run_ray_append E fo n data) with (transactional (ray_append_body E fo n calls)).
  destruct (ray_write_total E fo s n data (y_world σ) Hn (wi_schema _ _ Hi) Hp Hrl Ht Hk) as (w'&op&Hop).
  assert (Hbody0 : ray_append_body E fo n calls (sync q m h, y_world σ) = ((sync q m h, w'), Ok op)).
  { unfold ray_append_body. rewrite get_handle_bind, Hm0, Hms. by apply liftM_run. }
  destruct (fn_outcome s σ hid h q m (ray_append_body E fo n calls) base Hseen (ray_append_ok _ _ _ _ _ _ _ _ _ _ Hseen) Hbr Hsn)
    as (w1&r&Hbody&Hres).
  { intros w1 p Hx. rewrite Hbody0 in Hx. injection Hx as <- ->. unfold ray_write in Hop.
    destruct (ray_append_new _ _ _ _ _ _ _ _ Hb Hop) as (?&?&?). by eapply new_fits. }
  rewrite Hbody0 in Hbody. injection Hbody as <- <-.
  pose proof (ray_append_op_run E fo s n calls (y_world σ) (wi_schema _ _ Hi) Hb) as Hout.
  unfold ray_write in Hop. fold calls in Hop. rewrite Hop in Hout. destruct Hout as (_&rows&Hsel&Hadds).
  pose proof (tsel_length _ _ _ Hsel) as Hlen. change (in_worker_order n calls) with (written_by n data) in Hlen.
  rewrite (written_by_perm n data Hn) in Hlen.
  destruct op as [p|].
  - destruct Hadds as (_&_&_&Hst&_). destruct data as [|d0 data].
    + exfalso. apply (ray_append_some _ _ _ _ _ _ _ _ Hb Hop). change (in_worker_order n calls) with (written_by n []).
      apply Permutation_nil_r. by apply written_by_perm.
    + exists (pa_stats p). split; [done|]. rewrite Hst. by rewrite Hlen.
  - cbn in Hadds. subst rows. destruct data; [done|]. done.
Qed.

(** * Distributed inserts *)
Lemma ray_insert_unfold E fo s n data h w :
  winv s w → wf_handle s w h → data ≠ [] →
  ray_insert_op E fo n MInsert data (h, w) =
    match primary_key_filter (s_pks s) data with
    | Err x => ((h, w), Err x)
    | Ok None => ((h, w), Err (EOther "AssertionError"))
    | Ok (Some e) =>
        match get_snapshot h None with
        | Err x => ((h, w), Err x)
        | Ok sn =>
            match build_manifest_filter (fenv_of s) e with
            | Err x => ((h, w), Err x)
            | Ok mf =>
                if bool_decide (filter_rows (Some e) (picked_rows (w_fs w) mf sn) = [])
                then let '(w', r) := ray_write E fo s n data w in
                     ((h, w'), rmap (fun p => merge_patches [p]) r)
                else ((h, w), Err (EUser UPrimaryKeyExists))
            end
        end
    end.
Proof.
  intros Hi Hh Hne. pose proof Hh as (Hm&_&_). pose proof Hi as [Hb Hs _]. unfold ray_insert_op.
  destruct data as [|d0 d1]; [done|]. cbv iota. clear Hne. generalize (d0 :: d1). clear d0 d1. intros data.
  rewrite get_handle_bind, lift_bind. rewrite (wm_schema _ _ _ Hm).
  destruct (primary_key_filter (s_pks s) data) as [[e|]|] eqn:Hpk; [|done..].
  unfold bind at 1. rewrite (data_files_run s) by done.
  destruct (get_snapshot h None) as [sn|] eqn:Hsn; [|done]. cbn [man_filter].
  destruct (build_manifest_filter (fenv_of s) e) as [mf|] eqn:Hmf; [|done]. cbn [rmap].
  pose proof (get_snapshot_wf _ _ _ _ _ Hm Hsn) as Hwsn.
  pose proof (listed_rows s w mf sn e) as Hlr.
  set (fset := fset_at (w_fs w) mf (sn_idx sn)) in *.
  assert (Hl : Forall (listed s w) (fset_files fset)) by (apply fset_listed; apply Hwsn).
  specialize (Hlr Hl).
  destruct (check_files E s w (fset_files fset) e Hs Hl) as (dups&Hrun&Hd). rewrite Hlr in Hd.
  assert (Happ : bind (liftM (ray_write E fo s n data)) (fun p => ret (merge_patches ([] ++ [p]))) (h, w)
    = let '(w', r) := ray_write E fo s n data w in ((h, w'), rmap (fun p => merge_patches [p]) r)).
  { destruct (ray_write E fo s n data w) as [w' r] eqn:Ha. unfold bind. rewrite (liftM_run _ h w _ _ Ha). by destruct r. }
  destruct (fset_files fset) as [|df dfs] eqn:Hf.
  - rewrite <-Hlr. rewrite bool_decide_true by done. exact Happ.
  - unfold bind at 1 2. rewrite (liftM_run _ h w _ _ Hrun). rewrite Hd. case_bool_decide; cbn [negb]; [exact Happ|done].
Qed.
Lemma ray_insert_outcomes σ hid h s m E fo n data before :
  reachable σ → y_handles σ !! hid = Some h → schema_at σ hid = Some s →
  stored_meta (w_fs (y_world σ)) = Some m → is_branch m (h_branch h) →
  plain_keys s → records_last s → data ≠ [] → 1 ≤ n →
  Forall (typed_row s) data → proper_keys (s_pks s) data →
  reads σ hid None before → proper_keys (s_pks s) before →
  let σ' := after σ hid (run_ray_insert E fo n MInsert data) in
  (unique_keys (s_pks s) data ∧ (∀ y d, y ∈ before → d ∈ data → key_of (s_pks s) y ≠ key_of (s_pks s) d)
   ∧ (∃ st, result σ hid (run_ray_insert E fo n MInsert data) = Some (Ok (JSucceeded st)) ∧ st_rows st = Z.of_nat (length data))
   ∧ ∃ written, written ≡ₚ data ∧ reads σ' hid None (before ++ (show s <$> written)))
  ∨ ((¬ unique_keys (s_pks s) data ∨ ∃ y d, y ∈ before ∧ d ∈ data ∧ key_of (s_pks s) y = key_of (s_pks s) d)
     ∧ result σ hid (run_ray_insert E fo n MInsert data) = Some (Ok JFailed)
     ∧ stored_meta (w_fs (y_world σ')) = stored_meta (w_fs (y_world σ))
     ∧ ∀ hid' v E' b, result σ' hid' (run_read_all E' None None v false b) = result σ hid' (run_read_all E' None None v false b)).
Proof.
  intros Hr Hh Hsc Hm Hbr Hp Hrl Hne Hn Ht Hk Hb Hkb. cbv zeta.
  assert (Hfail : (¬ unique_keys (s_pks s) data ∨ ∃ y d, y ∈ before ∧ d ∈ data ∧ key_of (s_pks s) y = key_of (s_pks s) d)
     ∧ result σ hid (run_ray_insert E fo n MInsert data) = Some (Ok JFailed) →
     (¬ unique_keys (s_pks s) data ∨ ∃ y d, y ∈ before ∧ d ∈ data ∧ key_of (s_pks s) y = key_of (s_pks s) d)
     ∧ result σ hid (run_ray_insert E fo n MInsert data) = Some (Ok JFailed)
     ∧ stored_meta (w_fs (y_world (after σ hid (run_ray_insert E fo n MInsert data)))) = stored_meta (w_fs (y_world σ))
     ∧ ∀ hid' v E' b, result (after σ hid (run_ray_insert E fo n MInsert data)) hid' (run_read_all E' None None v false b)
         = result σ hid' (run_read_all E' None None v false b)).
  { intros [H1 H2]. split; [done|]. split; [done|].
    apply (fn_unchanged σ hid (ray_insert_op E fo n MInsert data) (Ok JFailed) Hr); [|exact H2|done].
    intros. by eapply ray_insert_ok. }
  destruct (handle_seen _ _ _ _ _ Hr Hh Hsc Hm) as [q Hseen].
  destruct (seen_sync _ _ _ _ _ _ Hseen) as (Hm0&Hb0&Hwf0&Hms).
  assert (Hkn : key_nonnull (s_pks s) data) by (intros ????; by apply Hk).
  pose proof (seen_schema _ _ _ _ _ _ Hseen) as Hs.
  pose proof (si_world _ _ (sn_inv _ _ _ _ _ _ Hseen)) as Hi. pose proof (wi_bounded _ _ Hi) as Hbd.
  destruct (is_branch_head _ _ _ _ (sn_meta _ _ _ _ _ _ Hseen) Hbr) as (base&_&_&Hsn&Hwb).
  assert (Hget : get_snapshot (sync q m h) None = Ok base).
  { apply (get_snapshot_snap_of _ m); [done|]. by rewrite Hb0. }
  destruct (ray_write_total E fo s n data (y_world σ) Hn Hs Hp Hrl Ht Hk) as (w'&op&Hop).
  pose proof (ray_insert_unfold E fo s n data (sync q m h) (y_world σ) Hi Hwf0 Hne) as Hunf.
  destruct (fn_outcome s σ hid h q m (ray_insert_op E fo n MInsert data) base Hseen (ray_insert_ok _ _ _ _ _ _ _ _ _ _ _ Hseen) Hbr Hsn)
    as (w1&r&Hbody&Hres).
  { intros w1 p Hx. rewrite Hunf in Hx. destruct (primary_key_filter (s_pks s) data) as [[e|]|]; [|done..].
    rewrite Hget in Hx. destruct (build_manifest_filter (fenv_of s) e) as [mf|]; [|done]. case_bool_decide; [|done].
    rewrite Hop in Hx. injection Hx as <- Hx. destruct op as [pa|]; [|done]. injection Hx as <-.
    destruct (ray_append_new _ _ _ _ _ _ _ _ Hbd Hop) as (Hpi&Hpr&Hpd). eapply new_fits; cbn; done. }
  rewrite Hunf in Hbody. change (run_ray_insert E fo n MInsert data) with (transactional (ray_insert_op E fo n MInsert data)) in *.
  destruct (key_filter_total (s_pks s) (key_of (s_pks s) <$> data) [] None) as [(e&He&Hnn)|[He Hd]].
  { by apply pks_not_nil. }
  { apply Forall_forall. intros k (d&->&_)%elem_of_list_fmap. unfold key_of. by rewrite fmap_length. }
  2: { right. apply Hfail. unfold primary_key_filter in Hbody. rewrite (row_keys _ _ Hkn) in Hbody. cbn [rbind] in Hbody.
       rewrite He in Hbody. injection Hbody as <- <-. rewrite Hres. cbn. split; [|done].
       left. destruct Hd as [Hd|(k&_&Hk')]; [done|]. by apply elem_of_nil in Hk'. }
  destruct e as [e|]; [|exfalso; apply Hnn; [right; by destruct data|done]].
  assert (Hpkf : primary_key_filter (s_pks s) data = Ok (Some e)).
  { unfold primary_key_filter. rewrite (row_keys _ _ Hkn). exact He. }
  rewrite Hpkf in Hbody.
  destruct (primary_key_filter_spec _ _ _ Hkn Hpkf) as (Hnd&Hkf&_).
  apply (reads_iff _ _ _ _ _ _ _ _ Hseen) in Hb as Hb'. destruct Hb' as (base'&Hb1&Hb2).
  assert (base' = base) as -> by congruence.
  rewrite Hget in Hbody.
  destruct (build_total s e Hs (keyf_buildable _ _ Hs Hp Hkf)) as [mf Hmf]. rewrite Hmf in Hbody.
  assert (Hiff := no_picked s (w_fs (y_world σ)) base e mf before Hs Hwb (keyf_safe _ _ Hs Hp Hkf) Hmf Hb2).
  assert (Hnan : no_nan_keys (s_pks s) before) by (intros ????; by apply Hkb).
  specialize (Hiff Hnan). rewrite filter_matches_nil in Hiff.
  assert (Hmatch : ∀ y, y ∈ before → matches e y = true ↔ key_of (s_pks s) y ∈ key_of (s_pks s) <$> data).
  { intros y Hy. eapply key_matches; [done..|]. intros k Hk'. by apply Hkb. }
  case_bool_decide as Hempty.
  - left. rewrite Hop in Hbody.
    pose proof (ray_append_op_run E fo s n ((fun c => (c.1, [c.2])) <$> ray_shards n data) (y_world σ) Hs Hbd) as Hout.
    unfold ray_write in Hop. rewrite Hop in Hout. destruct Hout as (_&rows&Hsel&Hadds).
    pose proof (tsel_length _ _ _ Hsel) as Hlen.
    change (in_worker_order n ((fun c => (c.1, [c.2])) <$> ray_shards n data)) with (written_by n data) in Hlen.
    rewrite (written_by_perm n data Hn) in Hlen.
    destruct op as [p|]; [|exfalso; cbn in Hadds; subst rows; by destruct data].
    injection Hbody as <- <-. cbn in Hres.
    destruct (ray_insert_shows σ hid s E fo n data _ before Hr Hsc Hp Hb Hn Hkb Hkn Hres) as (?&?&?&?).
    split_and!; try done. by eexists.
  - right. apply Hfail. injection Hbody as <- <-. rewrite Hres. cbn. split; [|done]. right.
    destruct (decide (Exists (fun y => matches e y = true) before)) as [Hex|Hnex].
    + apply Exists_exists in Hex as (y&Hy&He'). apply Hmatch in He'; [|done].
      apply elem_of_list_fmap in He' as (d&Heq&Hd). eauto.
    + exfalso. apply Hempty, Hiff. intros y Hy. apply not_true_iff_false. intros He'. apply Hnex, Exists_exists. eauto.
Qed.

(** * Calls that change nothing *)
Lemma ray_append_unchanged σ hid E fo n data r :
  reachable σ → result σ hid (run_ray_append E fo n data) = Some r → (∀ st, r ≠ Ok (JSucceeded st)) →
  let σ' := after σ hid (run_ray_append E fo n data) in
  stored_meta (w_fs (y_world σ')) = stored_meta (w_fs (y_world σ))
  ∧ ∀ hid' v E' b, result σ' hid' (run_read_all E' None None v false b) = result σ hid' (run_read_all E' None None v false b).
Proof.
  intros Hr Hres Hns. cbv zeta.
  change (run_ray_append E fo n data) with (transactional (ray_append_body E fo n ((fun c => (c.1, [c.2])) <$> ray_shards n data))) in *.
  apply (fn_unchanged _ _ _ r Hr); try done. intros. by eapply ray_append_ok.
Qed.
Lemma ray_append_from_unchanged σ hid E fo n sources r :
  reachable σ → result σ hid (run_ray_append_from E fo n sources) = Some r → (∀ st, r ≠ Ok (JSucceeded st)) →
  let σ' := after σ hid (run_ray_append_from E fo n sources) in
  stored_meta (w_fs (y_world σ')) = stored_meta (w_fs (y_world σ))
  ∧ ∀ hid' v E' b, result σ' hid' (run_read_all E' None None v false b) = result σ hid' (run_read_all E' None None v false b).
Proof.
  intros Hr Hres Hns. cbv zeta.
  change (run_ray_append_from E fo n sources)
    with (transactional (ray_append_body E fo (length sources `min` n) (ray_sources (length sources `min` n) sources))) in *.
  apply (fn_unchanged _ _ _ r Hr); try done. intros. by eapply ray_append_ok.
Qed.
Lemma ray_insert_unchanged σ hid E fo n mode data r :
  reachable σ → result σ hid (run_ray_insert E fo n mode data) = Some r → (∀ st, r ≠ Ok (JSucceeded st)) →
  let σ' := after σ hid (run_ray_insert E fo n mode data) in
  stored_meta (w_fs (y_world σ')) = stored_meta (w_fs (y_world σ))
  ∧ ∀ hid' v E' b, result σ' hid' (run_read_all E' None None v false b) = result σ hid' (run_read_all E' None None v false b).
Proof.
  intros Hr Hres Hns. cbv zeta. change (run_ray_insert E fo n mode data) with (transactional (ray_insert_op E fo n mode data)) in *.
  apply (fn_unchanged _ _ _ r Hr); try done. intros. by eapply ray_insert_ok.
Qed.
Lemma ray_delete_unchanged σ hid E fo e r :
  reachable σ → result σ hid (run_ray_delete E fo e) = Some r → (∀ st, r ≠ Ok (JSucceeded st)) →
  let σ' := after σ hid (run_ray_delete E fo e) in
  stored_meta (w_fs (y_world σ')) = stored_meta (w_fs (y_world σ))
  ∧ ∀ hid' v E' b, result σ' hid' (run_read_all E' None None v false b) = result σ hid' (run_read_all E' None None v false b).
Proof.
  intros Hr Hres Hns. cbv zeta. change (run_ray_delete E fo e) with (transactional (ray_delete_body E fo e)) in *.
  apply (fn_unchanged _ _ _ r Hr); try done. intros. by eapply ray_delete_ok.
Qed.
