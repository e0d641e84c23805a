(** What an upsert does, in every case. *)
From Verif.Model Require Import System.
From Verif.Spec Require Import Logical Api Pruning Keys Typed Layout Candidates Serial.
From Verif.Proofs Require Import Lib World Resolve FalsifySound Stats Bounds SchemaFacts Keys ReadSpec
  AppendSpec Total AppendTotal Wf OpSpec Inv FileSet Ops Bodies SysInv ReadRun Effects Observe View Prune DeleteEffect Mutations
  Edge Txn Calls Evolve Durable Adds Serial Succeeds NoOp DeleteExact DeleteTotal DeleteOutcome.

(** * A file without rows is no candidate for a filter by keys *)
Lemma chunk_none fs g k : g = [] → (chunk_min (leaf_column fs g k), chunk_max (leaf_column fs g k)) = (None, None).
Proof. intros ->. unfold leaf_column. done. Qed.
Lemma column_stats_none fs gs k st : concat gs = [] → column_stats fs gs k = Ok st → st = (None, None).
Proof.
  intros Hg. unfold column_stats. case_decide; [|done]. induction gs as [|g gs IH]; [by intros [= <-]|].
  cbn in Hg. apply app_eq_nil in Hg as [-> Hg]. cbn [rfoldM]. rewrite chunk_none by done. cbn [rbind]. by apply IH.
Qed.
Lemma empty_stats s fs m r : wf_mrow s fs m → file_rows fs (mr_path m) = [] → stat_look m r = None.
Proof.
  intros (cols&gs&E&Hp&_&_&Hm&_) He. unfold file_rows in He. rewrite Hp in He. unfold manifest_row in Hm.
  destruct (rmapM _ (stats_fields (phys_schema s) (s_pks s))) as [sts|] eqn:Hc; [|done]. cbn in Hm. injection Hm as Hm.
  apply rmapM_ok in Hc. unfold stat_look. rewrite <-Hm. cbn [mr_stats].
  destruct (list_find (λ x, x.1 = r.1) sts) as [[i [a [mn mx]]]|] eqn:Hf; [|done].
  apply list_find_Some in Hf as (Hi&_&_). destruct (Forall2_lookup_r _ _ _ _ _ Hc Hi) as ([f k]&_&Hfk).
  destruct (column_stats (phys_schema s) gs k) as [st|] eqn:Hst; [|done]. cbn in Hfk.
  apply column_stats_none in Hst as ->; [|done]. cbn in Hfk. injection Hfk as _ <- <-. by destruct r.2.
Qed.
Lemma keyf_null s e look top :
  wf_schema s → plain_keys s → keyf (s_pks s) e → (∀ r, look r = None) →
  ∃ ff, falsify (fenv_of s) top e = FOk (Some ff) ∧ eval look ff = None.
Proof.
  intros Hs Hp He Hl. revert top. induction He as [k v Hk|a b Ha IHa Hb IHb|a b Ha IHa Hb IHb]; intros top.
  - cbn [falsify key_expr is_fn orb]. unfold cond_field_literal.
    assert (Hin : k ∈ s_names s) by by apply Hs.
    destruct (min_max_some s k Hs Hin (Hp _ Hk)) as [[[mn mx] pk] Hmm].
    destruct (min_max_inv (fenv_of s) k mn mx pk) as (i&Hi&->&->&->); [apply aligned_plain; [done|pose proof (Hp _ Hk); set_solver]|done|].
    rewrite Hmm. cbn [fe_pks fenv_of]. rewrite bool_decide_true by done. cbn [lit_value ff_field_literal].
    eexists. split; [done|]. cbn. by rewrite !Hl.
  - assert (Hfn : is_fn a = true) by by destruct Ha. cbn [falsify]. rewrite Hfn. cbn [orb].
    destruct (IHa false) as (fa&->&Hfa), (IHb false) as (fb&->&Hfb). cbn. eexists. split; [done|]. cbn. by rewrite Hfa, Hfb.
  - assert (Hfn : is_fn a = true) by by destruct Ha. cbn [falsify]. rewrite Hfn. cbn [orb].
    destruct (IHa false) as (fa&->&Hfa), (IHb false) as (fb&->&Hfb). cbn. eexists. split; [done|]. cbn. by rewrite Hfa, Hfb.
Qed.
Lemma empty_unmatched s fs e mf m :
  wf_schema s → plain_keys s → keyf (s_pks s) e → build_manifest_filter (fenv_of s) e = Ok mf →
  wf_mrow s fs m → file_rows fs (mr_path m) = [] → mrow_matches mf m = false.
Proof.
  intros Hs Hp He Hmf Hm Hr. unfold build_manifest_filter in Hmf. destruct (fields_exist _ e); [|done].
  destruct (keyf_null s e (stat_look m) true Hs Hp He) as (ff&Hff&Hev); [intros r; by eapply empty_stats|].
  rewrite Hff in Hmf. injection Hmf as <-. cbn. by rewrite Hev.
Qed.
Lemma key_candidates s fs e mf base :
  wf_schema s → plain_keys s → keyf (s_pks s) e → build_manifest_filter (fenv_of s) e = Ok mf →
  wf_snap s fs base → fs !! PExt "" = None → fset_files (fset_at fs mf (sn_idx base)) ≠ [] →
  some_candidates (fset_at fs mf (sn_idx base)) = true.
Proof.
  intros Hs Hp He Hmf Hw Hfs Hne. unfold some_candidates. rewrite bool_decide_false by done. cbn [negb andb].
  apply forallb_forall. intros df Hdf%elem_of_list_In.
  cbn in Hdf. apply elem_of_list_bind in Hdf as (x&Hdf&Hx). apply elem_of_list_fmap in Hdf as (m&->&Hm).
  apply picked_spec in Hx as (Hq&Hx&_). rewrite Hx in Hm. apply elem_of_list_filter in Hm as [Hmm Hm].
  assert (Hwm : wf_mrow s fs m).
  { destruct Hw as (_&Hw&_). eapply Forall_forall in Hw; [|exact Hq]. apply wf_man_at in Hw as [_ Hw].
    by eapply Forall_forall in Hw. }
  apply andb_true_iff. split; apply negb_true_iff.
  - apply Z.eqb_neq. cbn. intros Hz.
    rewrite (empty_unmatched s fs e mf m Hs Hp He Hmf Hwm) in Hmm; [done|].
    destruct Hwm as (cols&gs&E&Hpm&_&_&Hrow&_). unfold file_rows. rewrite Hpm. unfold manifest_row in Hrow.
    destruct (rmapM _ _); [|done]. cbn in Hrow. injection Hrow as Hrow. rewrite <-Hrow in Hz. cbn in Hz.
    destruct (concat gs); [done|cbn in Hz; lia].
  - apply bool_decide_eq_false. cbn. intros Hpm. destruct Hwm as (cols&gs&E&Hp'&_). congruence.
Qed.

(** * The rows a deletion counts *)
Lemma delete_counts s e w mf base old :
  wf_schema s → wf_snap s (w_fs w) base → snap_rows s (w_fs w) base old → safe_filter s e →
  build_manifest_filter (fenv_of s) e = Ok mf → no_nan_keys (s_pks s) old → decided e old →
  drop_count e w (fset_files (fset_at (w_fs w) mf (sn_idx base)))
  = Z.of_nat (length (filter (fun y => matches e y = true) old)).
Proof.
  intros Hs Hb Hold Hsf Hmf Hnan Hdec. rewrite drop_count_rows. f_equal.
  assert (filter (touched e w) (fset_files (fset_at (w_fs w) mf (sn_idx base))) ≫= drows w
     = man_rows (w_fs w) (filter (hit e w mf) (snap_mrows (w_fs w) base))) as ->.
  { transitivity ((df_path <$> filter (touched e w) (fset_files (fset_at (w_fs w) mf (sn_idx base)))) ≫= file_rows (w_fs w)).
    - generalize (filter (touched e w) (fset_files (fset_at (w_fs w) mf (sn_idx base)))). intros l.
      induction l as [|x l IH]; [done|]. by rewrite fmap_cons, !bind_cons, IH.
    - rewrite (touched_paths e w mf base), man_rows_bind.
      generalize (filter (hit e w mf) (snap_mrows (w_fs w) base)). intros l.
      induction l as [|x l IH]; [done|]. by rewrite fmap_cons, !bind_cons, IH. }
  transitivity (length (filter (fun r => matches e r = true) (man_rows (w_fs w) (snap_mrows (w_fs w) base)))).
  - f_equal. rewrite !man_rows_bind.
    assert (Hsub : ∀ m, m ∈ snap_mrows (w_fs w) base → m ∈ snap_mrows (w_fs w) base) by done. revert Hsub.
    generalize (snap_mrows (w_fs w) base) at 1 3 4. intros l.
    induction l as [|m l IH]; intros Hsub; [done|]. rewrite filter_cons, bind_cons, filter_app.
    assert (Hm : m ∈ snap_mrows (w_fs w) base) by (apply Hsub; left).
    assert (IH' := IH (fun x Hx => Hsub x (elem_of_list_further _ _ _ Hx))). clear IH.
    case_decide as Hh.
    + rewrite bind_cons, dropped_app, IH'. f_equal. unfold dropped. apply filter_ext_in. intros r Hr.
      rewrite (row_decided s e w base old Hb Hold Hsf Hdec m r (conj Hm Hr)). destruct (matches e r); cbn; intuition congruence.
    + rewrite IH'. rewrite (filter_none _ (file_rows (w_fs w) (mr_path m))); [done|]. intros r Hr He. apply Hh.
      eapply (hit_row s e w mf base old); eauto.
  - eapply Forall2_length. eapply Forall2_filter2; [exact (proj1 (snap_rows_shows _ _ _ _) Hold)|]. intros r y Hr Hv.
    assert (matches e y = matches e r) as ->; [|done].
    eapply vrow_matches; [done| |apply Hsf].
    unfold phys_rows in Hr. rewrite man_rows_bind in Hr. apply elem_of_list_bind in Hr as (m&Hr&Hm). by eapply (shown_row s (w_fs w) base old m r).
Qed.

Lemma upsert_unfold E fo s data h w :
  winv s w → wf_handle s w h → data ≠ [] →
  insert_op E fo MUpsert data (h, w) =
    match primary_key_filter (s_pks s) data with
    | Err x => ((h, w), Err x)
    | Ok None => ((h, w), Err (EOther "AssertionError"))
    | Ok (Some e) =>
        match get_snapshot h None with
        | Err x => ((h, w), Err x)
        | Ok sn =>
            match build_manifest_filter (fenv_of s) e with
            | Err x => ((h, w), Err x)
            | Ok mf =>
                let fset := fset_at (w_fs w) mf (sn_idx sn) in
                match (match fset_files fset with
                       | [] => (w, Ok [])
                       | _ => let '(w', r) := delete_op E fo s e fset w in (w', rmap (fun p => [p]) r)
                       end) with
                | (w', Err x) => ((h, w'), Err x)
                | (w', Ok ps) =>
                    let '(w2, r) := append_op E fo s [data] w' in
                    ((h, w2), rmap (fun p => merge_patches (ps ++ [p])) r)
                end
            end
        end
    end.
Proof.
  intros Hi Hh Hne. pose proof Hh as (Hm&_&_). pose proof Hi as [Hb Hs _]. unfold insert_op.
  destruct data as [|d0 d1]; [done|]. cbv iota. clear Hne. generalize (d0 :: d1). clear d0 d1. intros data.
  rewrite get_handle_bind, lift_bind. rewrite (wm_schema _ _ _ Hm).
  destruct (primary_key_filter (s_pks s) data) as [[e|]|] eqn:Hpk; [|done..].
  unfold bind at 1. rewrite (data_files_run s) by done.
  destruct (get_snapshot h None) as [sn|] eqn:Hsn; [|done]. cbn [man_filter].
  destruct (build_manifest_filter (fenv_of s) e) as [mf|] eqn:Hmf; [|done]. cbn [rmap]. cbv zeta.
  set (fset := fset_at (w_fs w) mf (sn_idx sn)).
  assert (Happ : ∀ w' ps, bind (liftM (append_op E fo s [data])) (fun p => ret (merge_patches (ps ++ [p]))) (h, w')
    = let '(w2, r) := append_op E fo s [data] w' in ((h, w2), rmap (fun p => merge_patches (ps ++ [p])) r)).
  { intros w' ps. destruct (append_op E fo s [data] w') as [w2 r] eqn:Ha. unfold bind. rewrite (liftM_run _ h w' _ _ Ha). by destruct r. }
  destruct (fset_files fset) as [|df dfs] eqn:Hf; [exact (Happ w [])|].
  unfold bind at 1 2. destruct (delete_op E fo s e fset w) as [w' r] eqn:Hd. rewrite (liftM_run _ h w _ _ Hd).
  destruct r as [p|]; [|done]. exact (Happ w' [p]).
Qed.

Lemma upsert_decides σ hid h s m E fo data before :
  reachable σ → y_handles σ !! hid = Some h → schema_at σ hid = Some s →
  stored_meta (w_fs (y_world σ)) = Some m → is_branch m (h_branch h) →
  plain_keys s → records_last s → data ≠ [] →
  Forall (typed_row s) data → proper_keys (s_pks s) data →
  reads σ hid None before → proper_keys (s_pks s) before → w_fs (y_world σ) !! PExt "" = None →
  (unique_keys (s_pks s) data
   ∧ ∃ st, result σ hid (run_insert E fo MUpsert data) = Some (Ok (JSucceeded st))
     ∧ st_rows st = (Z.of_nat (length data)
         - Z.of_nat (length (filter (fun y => key_of (s_pks s) y ∈ key_of (s_pks s) <$> data) before)))%Z)
  ∨ (¬ unique_keys (s_pks s) data ∧ result σ hid (run_insert E fo MUpsert data) = Some (Ok JFailed)).
Proof.
  intros Hr Hh Hsc Hm Hbr Hp Hrl Hne Ht Hk Hb Hkb Hext. destruct (handle_seen _ _ _ _ _ Hr Hh Hsc Hm) as [q Hseen].
  destruct (seen_sync _ _ _ _ _ _ Hseen) as (Hm0&Hb0&Hwf0&Hms).
  assert (Hkn : key_nonnull (s_pks s) data) by (intros ????; by apply Hk).
  pose proof (seen_schema _ _ _ _ _ _ Hseen) as Hs.
  destruct (run_op_outcome s σ hid h q m E fo (OInsert MUpsert data) Hseen I Hbr) as (w1&r&Hbody&Hres).
  change (run_insert E fo MUpsert data) with (run_op E fo (OInsert MUpsert data)).
  pose proof (si_world _ _ (sn_inv _ _ _ _ _ _ Hseen)) as Hi.
  cbn [op_body] in Hbody. rewrite (upsert_unfold E fo s data _ _ Hi Hwf0 Hne) in Hbody.
  destruct (key_filter_total (s_pks s) (key_of (s_pks s) <$> data) [] None) as [(e&He&Hnn)|[He Hd]].
  { by apply pks_not_nil. }
  { apply Forall_forall. intros k (d&->&_)%elem_of_list_fmap. unfold key_of. by rewrite fmap_length. }
  2: { right. unfold primary_key_filter in Hbody. rewrite (row_keys _ _ Hkn) in Hbody. cbn [rbind] in Hbody.
       rewrite He in Hbody. injection Hbody as <- <-. rewrite Hres. cbn. split; [|done].
       destruct Hd as [Hd|(k&_&Hk')]; [done|]. by apply elem_of_nil in Hk'. }
  destruct e as [e|]; [|exfalso; apply Hnn; [right; by destruct data|done]].
  assert (Hpkf : primary_key_filter (s_pks s) data = Ok (Some e)).
  { unfold primary_key_filter. rewrite (row_keys _ _ Hkn). exact He. }
  rewrite Hpkf in Hbody.
  destruct (primary_key_filter_spec _ _ _ Hkn Hpkf) as (Hnd&Hkf&Hev). left. split; [done|].
  destruct (is_branch_head _ _ _ _ (sn_meta _ _ _ _ _ _ Hseen) Hbr) as (base&_&_&Hsn&Hwb).
  apply (reads_iff _ _ _ _ _ _ _ _ Hseen) in Hb as Hb'. destruct Hb' as (base'&Hb1&Hb2).
  assert (base' = base) as -> by congruence.
  assert (Hget : get_snapshot (sync q m h) None = Ok base).
  { apply (get_snapshot_snap_of _ m); [done|]. by rewrite Hb0. }
  rewrite Hget in Hbody.
  destruct (build_total s e Hs (keyf_buildable _ _ Hs Hp Hkf)) as [mf Hmf]. rewrite Hmf in Hbody. cbv zeta in Hbody.
  assert (Hnan : no_nan_keys (s_pks s) before) by (intros ????; by apply Hkb).
  assert (Hdec : decided e before).
  { intros y Hy. destruct (Hev y) as (bb&Hbb&_); [by intros; apply Hkb|eauto]. }
  assert (Hmatch : filter (fun y => matches e y = true) before
     = filter (fun y => key_of (s_pks s) y ∈ key_of (s_pks s) <$> data) before).
  { apply filter_ext_in. intros y Hy. eapply key_matches; [done..|]. intros n Hn. by apply Hkb. }
  pose proof (delete_counts s e (y_world σ) mf base before Hs Hwb Hb2 (keyf_safe _ _ Hs Hp Hkf) Hmf Hnan Hdec) as Hcnt.
  rewrite Hmatch in Hcnt. set (reps := length (filter _ before)) in *.
  set (fset := fset_at (w_fs (y_world σ)) mf (sn_idx base)) in *.
  assert (Hdel : ∃ w' ps, bounded w'
     ∧ (match fset_files fset with
        | [] => (y_world σ, Ok [])
        | _ => let '(w', r) := delete_op E fo s e fset (y_world σ) in (w', rmap (fun p => [p]) r)
        end) = (w', Ok ps) ∧ (ps = [] ∧ reps = 0 ∨ ∃ op, ps = [op] ∧ match op with
           | None => reps = 0 | Some p => st_rows (pa_stats p) = (- Z.of_nat reps)%Z end)).
  { destruct (decide (fset_files fset = [])) as [Hf|Hf].
    { rewrite Hf in *. exists (y_world σ), []. split; [by apply reachable_bounded|]. split; [done|]. left. split; [done|]. cbn in Hcnt. lia. }
    assert (Hl : Forall (listed s (y_world σ)) (fset_files fset)) by apply fset_listed, Hwb.
    assert (Hmw : ∀ i q, fset_mans fset !! i = Some q → wf_man s (w_fs (y_world σ)) q).
    { intros i q'. apply fset_mans_wf, Hwb. }
    destruct (delete_op_total E fo s e (y_world σ) Hs Hp Hrl (reachable_bounded _ Hr) fset) as (w2&op&Hop); try done.
    { apply Forall_forall. intros df Hdf. unfold drows.
      assert (Hin : df_path df ∈ df_path <$> fset_files fset) by (by apply elem_of_list_fmap_1).
      unfold fset in Hin. rewrite fset_files_filter in Hin. apply elem_of_list_fmap in Hin as (mr&->&[_ Hmr]%elem_of_list_filter).
      by eapply stored_good. }
    { apply fset_mid. }
    { unfold fset. rewrite fset_valid. by eapply key_candidates. }
    pose proof (delete_op_out E fo s e fset (y_world σ) Hs (reachable_bounded _ Hr) Hl Hmw) as Hout. rewrite Hop in Hout.
    destruct Hout as [Hw2 Hout]. exists w2, [op]. split; [exact (wle_bounded _ _ _ (reachable_bounded _ Hr) Hw2)|]. rewrite Hop.
    split; [by destruct (fset_files fset)|]. right. exists op. split; [done|]. destruct op as [p|].
    - destruct Hout as (_&mids&ms&lk&_&_&_&_&_&_&_&_&Hst). rewrite (proj1 Hst), Hcnt. done.
    - unfold delete_out in Hout. rewrite drop_count_rows, Hout in Hcnt. cbn in Hcnt. lia. }
  destruct Hdel as (w'&ps&Hbw&Hdel&Hps). rewrite Hdel in Hbody.
  destruct (append_runs E fo s [data] w' Hs Hp Hrl) as (w2&op&Hop); [by rewrite ?app_nil_r; cbn; rewrite app_nil_r..|].
  pose proof (append_op_out E fo s [data] w' Hbw) as Hout. rewrite Hop in Hout, Hbody.
  destruct Hout as (_&_&rows&Hrows&Hout). pose proof (tsel_length _ _ _ Hrows) as Hlen. cbn in Hlen. rewrite app_nil_r in Hlen.
  destruct op as [p|]; [|exfalso; subst rows; by destruct data].
  destruct Hout as (ms&rms&u&Hne'&Hout). assert (Hst : st_rows (pa_stats p) = Z.of_nat (length rows)) by apply Hout.
  injection Hbody as <- <-. cbn [rmap] in Hres.
  destruct Hps as [[-> Hz]|(op&->&Hz)]; [|destruct op as [pd|]]; cbn in Hres; (eexists; split; [exact Hres|]); cbn; lia.
Qed.

Lemma upsert_outcomes σ hid h s m E fo data before :
  reachable σ → y_handles σ !! hid = Some h → schema_at σ hid = Some s →
  stored_meta (w_fs (y_world σ)) = Some m → is_branch m (h_branch h) →
  plain_keys s → records_last s → data ≠ [] →
  Forall (typed_row s) data → proper_keys (s_pks s) data →
  reads σ hid None before → proper_keys (s_pks s) before → w_fs (y_world σ) !! PExt "" = None →
  let σ' := after σ hid (run_insert E fo MUpsert data) in
  (unique_keys (s_pks s) data
   ∧ ∃ st kept lost, result σ hid (run_insert E fo MUpsert data) = Some (Ok (JSucceeded st))
     ∧ st_rows st = (Z.of_nat (length data)
         - Z.of_nat (length (filter (fun y => key_of (s_pks s) y ∈ key_of (s_pks s) <$> data) before)))%Z
     ∧ reads σ' hid None (kept ++ (show s <$> data))
     ∧ filter (fun y => key_of (s_pks s) y ∉ key_of (s_pks s) <$> data) before ≡ₚ kept ++ lost
     ∧ (lost = [] ↔ lossless (layout σ hid) (fun r => key_of (s_pks s) r ∈ key_of (s_pks s) <$> data)))
  ∨ (¬ unique_keys (s_pks s) data ∧ result σ hid (run_insert E fo MUpsert data) = Some (Ok JFailed)
     ∧ stored_meta (w_fs (y_world σ')) = stored_meta (w_fs (y_world σ))
     ∧ ∀ hid' v E' b, result σ' hid' (run_read_all E' None None v false b) = result σ hid' (run_read_all E' None None v false b)).
Proof.
  intros Hr Hh Hsc Hm Hbr Hp Hrl Hne Ht Hk Hb Hkb Hext σ'.
  assert (Hkn : key_nonnull (s_pks s) data) by (intros ????; by apply Hk).
  destruct (upsert_decides σ hid h s m E fo data before) as [[Hu (st&Hst&Hn)]|[Hu Hf]]; try done; [left|right].
  - split; [done|]. destruct (upsert_shows σ hid s E fo data st before Hr Hsc Hp Hb Hkb Hkn Hst) as (kept&lost&?&?&?).
    by exists st, kept, lost.
  - split; [done|]. split; [done|].
    apply (unsuccessful_unchanged σ hid E fo (OInsert MUpsert data) (Ok JFailed) Hr); [exact (fun _ _ => I)|exact Hf|done].
Qed.
