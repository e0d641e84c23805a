(** What a distributed delete does, in every case. *)
From Verif.Model Require Import System RayOps.
From Verif.Spec Require Import Logical Api Pruning Keys Typed Layout Candidates Serial Separable Merging Deletion.
From Verif.Proofs Require Import NewPaths Fits.
From Verif.Proofs Require Import Lib FalsifySound World Resolve AppendSpec SchemaFacts ReadSpec Bounds Wf OpSpec Inv FileSet Ops Bodies Txn
  SysInv ReadRun Effects Observe View Prune DeleteEffect Keys Mutations Calls Total AppendTotal Reads Adds Durable Evolve History Edge Serial
  AnyOp Succeeds NoOp DeleteExact DeleteTotal DeleteOutcome RayDelete RayInsert RayOutcomes.
From Verif.Proofs Require Import Merge RayDeleteExact.

Definition candidate_ok (df : data_file) : bool :=
  negb (st_rows (df_stats df) =? 0)%Z && negb (bool_decide (df_path df = PExt "")).

Section total.
Context (E : env) (O : fopts) (s : schema) (e : filter_expr) (w0 : world) (mans : gmap nat path).
Notation fs0 := (w_fs w0).
Hypothesis Hs : wf_schema s.
Hypothesis Hp : plain_keys s.
Hypothesis Hrl : records_last s.
Hypothesis Hmans : ∀ i q, mans !! i = Some q → wf_man s fs0 q.

Lemma drows_keeps w df : keeps fs0 (w_fs w) → listed s w0 df → drows w df = drows w0 df.
Proof.
  intros Hk (_&_&m&Hm&Hpp&_). unfold drows. rewrite Hpp. eapply file_rows_keeps; [exact Hk|]. by apply wf_mrow_readable.
Qed.
Lemma listed_keeps w df : keeps fs0 (w_fs w) → listed s w0 df → listed s w df.
Proof. intros Hk (?&?&m&Hm&?&?). split; [done|]. split; [done|]. exists m. split; [|done]. by eapply wf_mrow_keeps. Qed.
Lemma delete_one_total df w :
  bounded w → keeps fs0 (w_fs w) → listed s w0 df → Forall (good s) (drows w0 df) →
  is_Some (mans !! df_mid df) → df_mid df ≠ 0 →
  if candidate_ok df then
    ∃ w' op, delete_op E O s e (FileSet [df] mans) w = (w', Ok op) ∧ wnew w w'
      ∧ match op with
        | None => drop_count e w0 [df] = 0%Z
        | Some p => new_paths (w_next w) (w_next w') (pa_add_idx p) ∧ pa_add_rec p = []
            ∧ (∀ q, q ∈ pa_del_idx p → ∃ i, mans !! i = Some q)
            ∧ st_rows (pa_stats p) = (- drop_count e w0 [df])%Z
        end
  else delete_op E O s e (FileSet [df] mans) w = (w, Err (ERuntime "Invalid input file set for delete op")).
Proof.
  intros Hb Hk Hl Hg Hmid Hn0.
  assert (Hval : validate_files (FileSet [df] mans) = candidate_ok df).
  { unfold validate_files, candidate_ok. cbn [fset_files fset_mans forallb]. destruct (bool_decide (df_path df = PExt "")), (st_rows (df_stats df) =? 0)%Z; try done.
    cbn [negb andb]. destruct (Nat.eqb_spec (df_mid df) 0); [done|]. cbn. destruct (Nat.eqb_spec (size mans) 0) as [Hz|]; [|done].
    apply map_size_empty_inv in Hz as ->. by destruct Hmid. }
  pose proof (drows_keeps w df Hk Hl) as Hdr. pose proof (listed_keeps w df Hk Hl) as Hl'.
  assert (Hdc : drop_count e w [df] = drop_count e w0 [df]) by (unfold drop_count, kept; cbn; by rewrite Hdr).
  assert (Hm' : ∀ i q, mans !! i = Some q → wf_man s (w_fs w) q) by (intros; eapply wf_man_keeps; eauto).
  destruct (candidate_ok df) eqn:Hc.
  2:{ unfold delete_op. by rewrite Hval. }
  destruct (delete_op_total E O s e w Hs Hp Hrl Hb (FileSet [df] mans)) as (w'&op&Hop); cbn [fset_files fset_mans]; try done.
  { by apply Forall_singleton. }
  { apply Forall_singleton. by rewrite Hdr. }
  { by intros df' ->%elem_of_list_singleton. }
  exists w', op. split; [done|].
  pose proof (delete_op_out E O s e (FileSet [df] mans) w Hs Hb) as Hout. cbn [fset_files fset_mans] in Hout.
  specialize (Hout ltac:(by apply Forall_singleton) Hm'). rewrite Hop in Hout. destruct Hout as [Hw Hout]. split; [done|].
  unfold delete_out in Hout. cbn [fset_files fset_mans] in Hout. destruct op as [p|].
  - destruct Hout as (_&mids&qs&lk&_&_&Hf2&Hdel&_&Hadd&Hrec&_&Hst&_). split_and!; [|done|..].
    + cbv zeta in Hadd. destruct lk; [rewrite Hadd; apply new_paths_nil|]. destruct Hadd as (u&ms&->&?&?&_).
      split; [apply NoDup_singleton|]. intros q ->%elem_of_list_singleton. split; [by apply not_below|done].
    + rewrite Hdel. intros q [i Hi]%elem_of_list_lookup. destruct (Forall2_lookup_r _ _ _ _ _ Hf2 Hi) as (j&_&Hj). eauto.
    + by rewrite Hst, Hdc.
  - rewrite <-Hdc, drop_count_rows, Hout. done.
Qed.
Lemma drop_count_cons df dfs : drop_count e w0 (df :: dfs) = (drop_count e w0 [df] + drop_count e w0 dfs)%Z.
Proof. unfold drop_count, Zsum. rewrite !fmap_cons. cbn [foldr fmap list_fmap]. lia. Qed.
Lemma deletes_total dfs w :
  bounded w → keeps fs0 (w_fs w) → Forall (listed s w0) dfs → Forall (fun df => Forall (good s) (drows w0 df)) dfs →
  (∀ df, df ∈ dfs → is_Some (mans !! df_mid df) ∧ df_mid df ≠ 0) →
  if forallb candidate_ok dfs then
    ∃ w' ps, mapM_st (fun df => delete_op E O s e (FileSet [df] mans)) dfs w = (w', Ok ps) ∧ wnew w w'
      ∧ new_paths (w_next w) (w_next w') (omap id ps ≫= pa_add_idx)
      ∧ omap id ps ≫= pa_add_rec = []
      ∧ (∀ q, q ∈ omap id ps ≫= pa_del_idx → ∃ i, mans !! i = Some q)
      ∧ Zsum (st_rows <$> (pa_stats <$> omap id ps)) = (- drop_count e w0 dfs)%Z
  else ∃ w' x, mapM_st (fun df => delete_op E O s e (FileSet [df] mans)) dfs w = (w', Err (ERuntime x)).
Proof.
  intros Hb Hk Hl Hg Hmid. revert w Hb Hk. induction dfs as [|df dfs IH]; intros w Hb Hk; cbn [mapM_st forallb].
  { exists w, []. split; [done|]. split; [apply wnew_refl|]. split_and!; try done; [apply new_paths_nil|].
    by intros q ?%elem_of_nil. }
  inversion Hl as [|? ? Hl1 Hl2]; inversion Hg as [|? ? Hg1 Hg2]; subst.
  destruct (Hmid df ltac:(left)) as [Hm1 Hm2].
  pose proof (delete_one_total df w Hb Hk Hl1 Hg1 Hm1 Hm2) as H1. destruct (candidate_ok df); cbn [andb].
  2:{ exists w. eexists. erewrite bind_run'; [|exact H1]. done. }
  destruct H1 as (w1&op&Hop&Hw1&H1). pose proof (wnew_keeps _ _ Hb Hw1) as Hk1.
  assert (Hb1 : bounded w1) by (by eapply wle_bounded).
  specialize (IH Hl2 Hg2 ltac:(intros; apply Hmid; by right) w1 Hb1 (keeps_trans _ _ _ Hk Hk1)).
  destruct (forallb candidate_ok dfs).
  2:{ destruct IH as (w2&x&H2). exists w2, x. unfold bind. by rewrite Hop, H2. }
  destruct IH as (w2&ps&H2&Hw2&Hn&Hr&Hd&Hz). exists w2, (op :: ps).
  split; [unfold bind; by rewrite Hop, H2|].
  split; [by eapply wnew_trans|].
  assert (Hle1 : (w_next w ≤ w_next w1)%N) by apply Hw1. assert (Hle2 : (w_next w1 ≤ w_next w2)%N) by apply Hw2.
  rewrite drop_count_cons. destruct op as [p|].
  - change (omap id (Some p :: ps)) with (p :: omap id ps). destruct H1 as (Hn1&Hr1&Hd1&Hz1). rewrite !bind_cons, Hr1, Hr. split_and!.
    + by eapply new_paths_app.
    + done.
    + intros q [?|?]%elem_of_app; auto.
    + rewrite !fmap_cons. unfold Zsum in *. cbn [foldr]. lia.
  - change (omap id (None :: ps)) with (omap id ps). split_and!; try done.
    + eapply (new_paths_app _ (w_next w1) _ []); [done..|apply new_paths_nil|done].
    + rewrite Hz, H1. lia.
Qed.
End total.

Lemma picked_mid fs mf mans i x : x ∈ picked fs mf mans i → i ≤ x.1.1.
Proof.
  revert i. induction mans as [|p mans IH]; intros i; cbn; [intros Hx; by apply elem_of_nil in Hx|].
  destruct (filter _ _); [apply IH|]. intros [->|Hx]%elem_of_cons; [done|]. apply IH in Hx. lia.
Qed.
Lemma stats_rows l a : st_rows (foldl stats_add a l) = (st_rows a + Zsum (st_rows <$> l))%Z.
Proof.
  revert a. induction l as [|x l IH]; intros a; cbn [foldl fmap list_fmap]; unfold Zsum in *; cbn [foldr]; [lia|].
  rewrite IH. cbn. lia.
Qed.
Lemma ray_delete_decides σ hid h s m E fo e before fset :
  reachable σ → y_handles σ !! hid = Some h → schema_at σ hid = Some s →
  stored_meta (w_fs (y_world σ)) = Some m → is_branch m (h_branch h) →
  plain_keys s → records_last s → reads σ hid None before → proper_keys (s_pks s) before →
  ignores (s_recs s) e → result σ hid (candidates e) = Some (Ok fset) →
  let cs := df_path <$> fset_files fset in
  let call := run_ray_delete E fo e in
  ∃ mans, divides σ hid before mans ∧
    if decide (fset_files fset ≠ [] ∧ some_candidates fset = false) then
      result σ hid call = Some (Ok JFailed) ∧ reads (after σ hid call) hid None before
    else if decide (Exists (rewritten cs e) (concat mans)) then
      ∃ st, result σ hid call = Some (Ok (JSucceeded st))
        ∧ st_rows st = (- Z.of_nat (length (filter (fun r => ¬ stays e r) (rows_of (filter (rewritten cs e) (concat mans))))))%Z
        ∧ reads (after σ hid call) hid None (apart_remaining cs e mans)
    else result σ hid call = Some (Ok JSkipped) ∧ reads (after σ hid call) hid None before.
Proof.
  intros Hr Hh Hsc Hm Hbr Hp Hrl Hb Hkb Hig Hc cs call. destruct (handle_seen _ _ _ _ _ Hr Hh Hsc Hm) as [q Hseen].
  pose proof (seen_schema _ _ _ _ _ _ Hseen) as Hs.
  apply (reads_iff _ _ _ _ _ _ _ _ Hseen) in Hb as Hb'. destruct Hb' as (base&Hsn&Hold).
  destruct (candidates_run _ _ _ _ _ _ _ _ _ Hseen Hsn Hc) as (mf&Hmf&->).
  destruct (seen_sync _ _ _ _ _ _ Hseen) as (Hm0&Hb0&Hwf0&Hms).
  assert (Hget : get_snapshot (sync q m h) None = Ok base).
  { apply (get_snapshot_snap_of _ m); [done|]. by rewrite Hb0. }
  pose proof (get_snapshot_wf _ _ _ _ _ (proj1 Hwf0) Hget) as Hwb.
  set (fset := fset_at (w_fs (y_world σ)) mf (sn_idx base)) in *.
  destruct (cut s (y_world σ) base before Hold) as (mans&Hcut&Hrows).
  exists mans. split; [by eapply cut_divides|].
  pose proof (rewritten_touched s e (y_world σ) mf base before Hwb Hold Hig mans Hcut) as Htouch. fold fset in Htouch. fold cs in Htouch.
  assert (Hl : Forall (listed s (y_world σ)) (fset_files fset)) by apply fset_listed, Hwb.
  assert (Hmw : ∀ i q, fset_mans fset !! i = Some q → wf_man s (w_fs (y_world σ)) q).
  { intros i q'. apply fset_mans_wf, Hwb. }
  pose proof (deletes_total E fo s e (y_world σ) (fset_mans fset) Hs Hp Hrl Hmw (fset_files fset) (y_world σ)
    (reachable_bounded _ Hr) (keeps_refl _) Hl (candidates_good s (y_world σ) mf base before Hs Hwb Hold Hkb)) as Htot.
  lapply Htot; [clear Htot; intros Htot|].
  2:{ intros df Hdf. split; [by apply fset_mid|]. clear -Hdf. subst fset. cbn in Hdf.
      apply elem_of_list_bind in Hdf as (x&Hdf&Hx). apply elem_of_list_fmap in Hdf as (m&->&_). apply picked_mid in Hx. cbn. lia. }
  assert (Hcand : some_candidates fset = negb (bool_decide (fset_files fset = [])) && forallb candidate_ok (fset_files fset)) by done.
  assert (Hun : ∀ r, result σ hid call = Some r → (∀ st, r ≠ Ok (JSucceeded st)) → reads (after σ hid call) hid None before).
  { intros r Hres Hns E' b. destruct (ray_delete_unchanged σ hid E fo e r Hr Hres Hns) as [_ Hx]. rewrite Hx. apply Hb. }
  change call with (transactional (ray_delete_body E fo e)) in *.
  assert (Hrun : ∀ w1 r, mapM_st (fun df => delete_op E fo s e (FileSet [df] (fset_mans fset))) (fset_files fset) (y_world σ) = (w1, r) →
    ray_delete_body E fo e (sync q m h, y_world σ) = ((sync q m h, w1), rmap merge_patches r)).
  { intros w1 r Hx. unfold ray_delete_body. rewrite get_handle_bind. unfold bind at 1.
    rewrite (data_files_run s), Hget by apply Hwf0. cbn [man_filter]. rewrite Hmf. cbn [rmap]. fold fset. rewrite Hm0, Hms.
    apply liftM_run. unfold ray_delete_op. destruct r; by erewrite bind_run'; [|exact Hx]. }
  destruct (fn_outcome s σ hid h q m (ray_delete_body E fo e) base Hseen (ray_delete_ok _ _ _ _ _ _ _ _ _ Hseen) Hbr Hsn)
    as (w1&r&Hbody&Hres).
  { intros w1 p Hx. destruct (forallb candidate_ok (fset_files fset)).
    2:{ destruct Htot as (w2&x&Hx2). rewrite (Hrun _ _ Hx2) in Hx. done. }
    destruct Htot as (w2&ps&Hx2&_&Hn&Hrec&Hd&_). rewrite (Hrun _ _ Hx2) in Hx. injection Hx as <- Hmp.
    pose proof (merged ps) as Hmg. change (merge_patches ps = Some p) in Hmp. rewrite Hmp in Hmg. destruct Hmg as [_ [Hadd Hr2 Hdel _ _ _ _]].
    destruct Hn as [Hn1 Hn2]. constructor; rewrite ?Hadd, ?Hr2, ?Hrec, ?Hdel; try done.
    - intros q' Hq'. by apply Hn2.
    - intros q' Hq'. by apply elem_of_nil in Hq'.
    - constructor.
    - intros q' Hq'. destruct (Hd q' Hq') as [i Hi]. cbn in Hi.
      apply picked_mans_inv in Hi as (x&Hx&_&<-); [|apply picked_nodup]. by apply picked_spec in Hx as (?&_). }
  case_decide as Hbad.
  - destruct Hbad as [Hne Hno]. rewrite Hcand in Hno. rewrite bool_decide_eq_false_2 in Hno by done. cbn [negb andb] in Hno.
    rewrite Hno in Htot. destruct Htot as (w2&x&Hx2). rewrite (Hrun _ _ Hx2) in Hbody. injection Hbody as <- <-.
    split; [exact Hres|]. by eapply Hun; [exact Hres|].
  - assert (Hok : forallb candidate_ok (fset_files fset) = true).
    { apply not_false_iff_true. intros Hno. apply Hbad. split; [intros Hnil; by rewrite Hnil in Hno|]. rewrite Hcand, Hno. apply andb_false_r. }
    rewrite Hok in Htot. destruct Htot as (w2&ps&Hx2&_&_&_&_&Hz). rewrite (Hrun _ _ Hx2) in Hbody. injection Hbody as <- <-.
    pose proof (deletes_run E fo s e (y_world σ) (fset_mans fset) Hs Hmw (fset_files fset) (y_world σ) (reachable_bounded _ Hr) (keeps_refl _) Hl) as Hd.
    rewrite Hx2 in Hd. destruct Hd as (_&Hps&_).
    assert (Hsome : Exists (rewritten cs e) (concat mans) ↔ ∃ p, Some p ∈ ps).
    { rewrite Htouch. clear -Hps. induction Hps as [|df op dfs ps Hp _ IH].
      - split; [done|]. by intros (p&?%elem_of_nil).
      - rewrite filter_cons. destruct op as [p|]; cbn [piece] in Hp.
        + rewrite decide_True by apply Hp. split; [|done]. intros _. exists p. left.
        + rewrite decide_False by done. rewrite IH. split; intros (p&Hin); exists p; [by right|]. by apply elem_of_cons in Hin as [?|?]. }
    pose proof (merged ps) as Hmg. cbn [rmap] in Hres.
    case_decide as Hrw.
    + destruct (merge_patches ps) as [p|] eqn:Hmp.
      2:{ apply Hsome in Hrw as (p&Hin). by specialize (Hmg _ Hin). }
      exists (pa_stats p). split; [exact Hres|]. destruct Hmg as [_ [_ _ _ _ _ _ Hst]]. split.
      * rewrite Hst, stats_rows, Hz. pose proof (rewritten_count s e (y_world σ) mf base before Hwb Hold Hig mans Hcut) as Hct.
        fold fset in Hct. fold cs in Hct. rewrite Hct. done.
      * exact (ray_delete_remaining_at σ hid s E fo e (pa_stats p) before h q m mf base mans Hseen Hsn Hb Hig Hmf Hcut Hres).
    + destruct (merge_patches ps) as [p|] eqn:Hmp.
      { exfalso. apply Hrw, Hsome, Hmg. }
      split; [exact Hres|]. by eapply Hun; [exact Hres|].
Qed.
