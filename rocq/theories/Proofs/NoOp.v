(** Deletes that match no row. *)
From Verif.Model Require Import Storage Runner System.
From Verif.Spec Require Import Candidates Logical.
From Verif.Proofs Require Import Lib World Resolve AppendSpec SchemaFacts ReadSpec Bounds Wf OpSpec Inv FileSet
  Ops Bodies Txn SysInv ReadRun Effects Observe View Prune DeleteEffect Mutations Calls FalsifySound Total.

Lemma delete_files_none E fo s e w dfs st :
  Forall (listed s w) dfs → Forall (fun df => ¬ touched e w df) dfs →
  ∃ st', foldM_st (delete_file E fo s e) st dfs w = (w, Ok st') ∧ ds_rows st' = ds_rows st.
Proof.
  intros Hl. revert st. induction Hl as [|df dfs Hdf _ IH]; intros st Ht; [by exists st|].
  inversion Ht as [|?? Hn Ht']; subst. cbn [foldM_st].
  assert (∃ b, delete_file E fo s e st df w
    = (w, Ok (DelSt (ds_append st) (ds_log st) (ds_files st) (ds_mids st) (ds_rows st) b))) as [b Hb].
  { pose proof Hdf as (_&_&m&(cols&gs&E'&Hp&_)&Hpath&_). rewrite <-Hpath in Hp.
    eexists. unfold delete_file, read_index, read_file, bind. cbn. rewrite Hp. cbn.
    assert (Hdr : concat gs = drows w df) by (unfold drows, file_rows; by rewrite Hp).
    rewrite Hdr. change (reinsert_filter e) with (EUn FnNot e).
    rewrite <-(fmap_length snd), (kept_pairs e w df), (listed_rows s w df Hdf).
    unfold touched in Hn. apply dec_stable in Hn. rewrite Hn, Z.eqb_refl. done. }
  destruct (IH (DelSt (ds_append st) (ds_log st) (ds_files st) (ds_mids st) (ds_rows st) b) Ht') as (st'&Hst&Hr).
  exists st'. split; [|done]. erewrite bind_run; [exact Hst|exact Hb].
Qed.

Lemma fset_valid fs mf mans :
  validate_files (fset_at fs mf mans) = some_candidates (fset_at fs mf mans).
Proof.
  unfold validate_files, some_candidates.
  assert (Hmid : ∀ df, df ∈ fset_files (fset_at fs mf mans) → df_mid df ≠ 0).
  { intros df Hdf. cbn in Hdf. apply elem_of_list_bind in Hdf as (x&Hdf&Hx). apply elem_of_list_fmap in Hdf as (m&->&_).
    cbn. assert (∀ mans i, x ∈ picked fs mf mans i → i ≤ x.1.1) as Hle; [|specialize (Hle _ _ Hx); lia].
    clear. intros mans. induction mans as [|p mans IH]; intros i; cbn; [intros Hx; by apply elem_of_nil in Hx|].
    destruct (filter _ _); [apply IH|]. intros [->|Hx]%elem_of_cons; [done|]. apply IH in Hx. lia. }
  assert (Hsize : bool_decide (fset_files (fset_at fs mf mans) = []) = Nat.eqb (size (fset_mans (fset_at fs mf mans))) 0).
  { cbn. assert (∀ l acc, picked_files l = [] → Forall (fun x : nat * path * list mrow => x.2 ≠ []) l → picked_mans l acc = acc) as H0.
    { intros [|x l] acc; [done|]. unfold picked_files. rewrite bind_cons. intros [Hx _]%app_nil Hf.
      inversion Hf; subst. apply fmap_nil_inv in Hx. done. }
    assert (∀ l (acc : gmap nat path) i, is_Some (acc !! i) → is_Some (picked_mans l acc !! i)) as H1.
    { intros l. induction l as [|x l IH]; intros acc i Hi; [done|]. apply IH. apply lookup_insert_is_Some'. by right. }
    assert (Hne : Forall (fun x : nat * path * list mrow => x.2 ≠ []) (picked fs mf mans 1)).
    { apply Forall_forall. intros x Hx. by apply picked_spec in Hx as (_&_&?). }
    case_bool_decide as Hf.
    - rewrite (H0 _ _ Hf Hne). done.
    - symmetry. apply Nat.eqb_neq. rewrite map_size_empty_iff. intros Hemp.
      destruct (picked fs mf mans 1) as [|x l] eqn:Hp; [done|].
      destruct (H1 l (<[x.1.1 := x.1.2]> ∅) x.1.1) as [q Hq]; [rewrite lookup_insert; eauto|].
      change (picked_mans l (<[x.1.1 := x.1.2]> ∅) = ∅) in Hemp. rewrite Hemp in Hq. by rewrite lookup_empty in Hq. }
  rewrite Hsize. rewrite andb_comm. f_equal. clear Hsize.
  revert Hmid. generalize (fset_files (fset_at fs mf mans)). intros l.
  induction l as [|df l IH]; intros Hmid; [done|]. cbn [forallb]. rewrite IH by (intros; apply Hmid; by right). f_equal.
  assert (Nat.eqb (df_mid df) 0 = false) as -> by (apply Nat.eqb_neq, Hmid; by left).
  by rewrite andb_true_r, andb_comm.
Qed.

Lemma untouched_rows e w df :
  (∀ r, r ∈ drows w df → matches (EUn FnNot e) r = true) → ¬ touched e w df.
Proof. intros Ha Ht. apply Ht. unfold kept. f_equal. by apply filter_every. Qed.

Lemma delete_idle σ hid h q s m E fo e mf base :
  seen s σ hid h q m → snap_of m (h_branch h) None = Some base →
  build_manifest_filter (fenv_of s) e = Ok mf →
  let fset := fset_at (w_fs (y_world σ)) mf (sn_idx base) in
  (some_candidates fset = true → Forall (fun df => ¬ touched e (y_world σ) df) (fset_files fset)) →
  result σ hid (run_delete E fo e) = Some (Ok (if some_candidates fset then JSkipped else JFailed))
  ∧ y_world (after σ hid (run_delete E fo e)) = y_world σ.
Proof.
  intros Hseen Hsn Hmf fset Ht. pose proof Hseen as [Hs Hh Hwf Hst Hm _]. pose proof (si_world _ _ Hs) as Hi.
  destruct (sync_spec s (y_world σ) q m h Hst Hm Hwf) as (Hwf0&Hm0&_&Hb0&_).
  assert (Hget : get_snapshot (sync q m h) None = Ok base).
  { apply (get_snapshot_snap_of _ m); [done|]. by rewrite Hb0. }
  pose proof (get_snapshot_wf _ _ _ _ _ (proj1 Hwf0) Hget) as Hwb.
  assert (Hl : Forall (listed s (y_world σ)) (fset_files fset)) by apply fset_listed, Hwb.
  assert (Hbody : op_body E fo (ODelete e) (sync q m h, y_world σ)
    = ((sync q m h, y_world σ), if some_candidates fset then Ok None else Err (ERuntime "Invalid input file set for delete op"))).
  { cbn [op_body]. rewrite get_handle_bind. unfold bind at 1. rewrite (data_files_run s) by apply Hwf0.
    rewrite Hget. cbn [man_filter]. rewrite Hmf. cbn [rmap]. fold fset. rewrite (wm_schema _ _ _ (proj1 Hwf0)).
    unfold liftM, delete_op. unfold fset at 1. rewrite fset_valid. fold fset.
    destruct (some_candidates fset); [|done].
    destruct (delete_files_none E fo s e (y_world σ) _ (DelSt append_init [] [] [] 0 stats0) Hl (Ht eq_refl)) as (st'&Hst'&Hz).
    erewrite bind_run; [|exact Hst']. cbn in Hz. rewrite Hz. done. }
  change (run_delete E fo e) with (run_op E fo (ODelete e)).
  destruct (run_op_run E fo s (ODelete e) h (y_world σ) q m Hi Hwf I Hst Hm) as (h'&w'&r'&Hrun&Htr).
  rewrite (result_eq _ _ _ _ Hh), (after_eq _ _ _ _ _ _ _ Hh Hrun), Hrun. cbn [snd y_world].
  destruct Htr as [Hn|w' e' Hhd Hbd Hw|w' Hhd Hbd Hw|p w1' w' Hbd Hw1' Hw Hnr|p w1' h' w' Hbd Hw1' Hc];
    try (rewrite Hbody in Hbd; injection Hbd as <- Hbd; destruct (some_candidates fset); simplify_eq; done).
  exfalso. rewrite Hb0 in Hn. unfold snap_of in Hsn. cbn in Hsn. rewrite Hn in Hsn. done.
Qed.
Lemma delete_nothing σ hid s E fo e before fset :
  reachable σ → schema_at σ hid = Some s → reads σ hid None before →
  ignores (s_recs s) e → decided e before → (∀ r, r ∈ before → matches e r = false) →
  result σ hid (candidates e) = Some (Ok fset) →
  result σ hid (run_delete E fo e) = Some (Ok (if some_candidates fset then JSkipped else JFailed))
  ∧ y_world (after σ hid (run_delete E fo e)) = y_world σ.
Proof.
  intros Hr Hsc Hb Hig Hdec Hno Hc. destruct (result_handle _ _ _ _ Hc) as [h Hh].
  destruct (reachable_seen _ _ _ Hr Hh) as (s'&q&m&Hseen).
  assert (s' = s) as ->.
  { unfold schema_at in Hsc. rewrite Hh in Hsc. cbn in Hsc. pose proof (sn_handle _ _ _ _ _ _ Hseen) as (Hwm&_).
    rewrite (wm_schema _ _ _ Hwm) in Hsc. by injection Hsc. }
  pose proof Hseen as [Hs _ Hwf Hst Hm _]. pose proof (si_world _ _ Hs) as Hi.
  apply (reads_iff _ _ _ _ _ _ _ _ Hseen) in Hb as (base&Hsn&Hrows).
  destruct (sync_spec s (y_world σ) q m h Hst Hm Hwf) as (Hwf0&Hm0&_&Hb0&_).
  assert (Hget : get_snapshot (sync q m h) None = Ok base).
  { apply (get_snapshot_snap_of _ m); [done|]. by rewrite Hb0. }
  pose proof (get_snapshot_wf _ _ _ _ _ (proj1 Hwf0) Hget) as Hwb.
  rewrite (result_eq _ _ _ _ Hh) in Hc. unfold candidates in Hc.
  rewrite (bind_run' _ _ _ _ _ (reload_run q m h (y_world σ) Hst)) in Hc.
  rewrite (data_files_run s) in Hc by apply Hwf0. rewrite Hget in Hc. cbn [snd man_filter] in Hc.
  destruct (build_manifest_filter (fenv_of s) e) as [mf|] eqn:Hmf; [|done]. injection Hc as <-.
  set (fset := fset_at (w_fs (y_world σ)) mf (sn_idx base)).
  assert (Hl : Forall (listed s (y_world σ)) (fset_files fset)) by apply fset_listed, Hwb.
  assert (Ht : Forall (fun df => ¬ touched e (y_world σ) df) (fset_files fset)).
  { apply Forall_forall. intros df Hdf. apply untouched_rows. intros r Hrr.
    assert (Hp : df_path df ∈ df_path <$> fset_files fset) by (by apply elem_of_list_fmap_1).
    unfold fset in Hp. rewrite fset_files_filter in Hp. apply elem_of_list_fmap in Hp as (mr&Hpath&[_ Hmr]%elem_of_list_filter).
    apply snap_rows_shows in Hrows. unfold drows in Hrr. rewrite Hpath in Hrr.
    assert (Hph : r ∈ phys_rows (w_fs (y_world σ)) base).
    { unfold phys_rows. rewrite man_rows_bind. apply elem_of_list_bind. eauto. }
    apply elem_of_list_lookup in Hph as [i Hi'].
    destruct (Forall2_lookup_l _ _ _ _ _ Hrows Hi') as (y&Hy&Hv). apply elem_of_list_lookup_2 in Hy.
    destruct (Hdec y Hy) as [b He].
    assert (Hnames : r.*1 = s_names s).
    { assert (Hmm : mr ∈ snap_mrows (w_fs (y_world σ)) base) by done.
      eapply Forall_forall in Hl; [|exact Hdf]. destruct Hl as (_&_&m'&Hm'&Hp'&_).
      rewrite <-Hpath, Hp' in Hrr. apply wf_mrow_conforms in Hm'. eapply Forall_forall in Hm'; [|exact Hrr].
      by apply conforms_names. }
    rewrite <-(vrow_matches _ _ _ _ (EUn FnNot e) Hv Hnames (ignores_un _ _ _ Hig)), (not_matches _ _ _ He).
    by rewrite Hno. }
  exact (delete_idle _ _ _ _ _ _ _ _ _ _ _ Hseen Hsn Hmf (fun _ => Ht)).
Qed.

(** Filters on other columns: the statistics leave every file. *)
Lemma undecidable_keeps s e :
  wf_schema s → buildable s e → undecidable_part (s_pks s) e = true →
  build_manifest_filter (fenv_of s) e = Ok None.
Proof.
  intros Hs Hbu Hu. destruct (build_total s e Hs Hbu) as [mf Hmf]. rewrite Hmf. f_equal.
  unfold build_manifest_filter in Hmf. destruct (fields_exist _ _); [|done].
  destruct (falsify (fenv_of s) true e) as [[ff|]| |] eqn:Hf; try congruence.
  apply undecidable_none in Hf; [done| |done]. apply aligned_plain; [done|]. intros n Hn. by apply Hbu.
Qed.
Lemma delete_skips σ hid s E fo e before :
  reachable σ → schema_at σ hid = Some s → reads σ hid None before →
  ignores (s_recs s) e → buildable s e → undecidable_part (s_pks s) e = true →
  decided e before → (∀ r, r ∈ before → matches e r = false) →
  before ≠ [] → (∀ man t, man ∈ layout σ hid → t ∈ man → t ≠ []) → w_fs (y_world σ) !! PExt "" = None →
  result σ hid (run_delete E fo e) = Some (Ok JSkipped)
  ∧ y_world (after σ hid (run_delete E fo e)) = y_world σ.
Proof.
  intros Hr Hsc Hb Hig Hbu Hu Hdec Hno Hne Hlay Hext.
  assert (∃ h, y_handles σ !! hid = Some h) as [h Hh].
  { unfold schema_at in Hsc. destruct (y_handles σ !! hid); [eauto|done]. }
  destruct (reachable_seen _ _ _ Hr Hh) as (s'&q&m&Hseen).
  assert (s' = s) as ->.
  { unfold schema_at in Hsc. rewrite Hh in Hsc. cbn in Hsc. pose proof (sn_handle _ _ _ _ _ _ Hseen) as (Hwm&_).
    rewrite (wm_schema _ _ _ Hwm) in Hsc. by injection Hsc. }
  pose proof Hseen as [Hs _ Hwf Hst Hm Hws]. pose proof (si_world _ _ Hs) as Hi.
  pose proof (proj1 (reads_iff _ _ _ _ _ _ _ _ Hseen) Hb) as (base&Hsn&Hrows).
  destruct (sync_spec s (y_world σ) q m h Hst Hm Hwf) as (Hwf0&Hm0&_&Hb0&_).
  assert (Hget : get_snapshot (sync q m h) None = Ok base).
  { apply (get_snapshot_snap_of _ m); [done|]. by rewrite Hb0. }
  pose proof (get_snapshot_wf _ _ _ _ _ (proj1 Hwf0) Hget) as Hwb.
  set (fset := fset_at (w_fs (y_world σ)) None (sn_idx base)).
  assert (Hc : result σ hid (candidates e) = Some (Ok fset)).
  { rewrite (result_eq _ _ _ _ Hh). unfold candidates.
    rewrite (bind_run' _ _ _ _ _ (reload_run q m h (y_world σ) Hst)), (data_files_run s) by apply Hwf0.
    rewrite Hget. cbn [snd man_filter]. assert (Hk : build_manifest_filter (fenv_of s) e = Ok None) by (by apply undecidable_keeps; [apply Hi|..]).
    by rewrite Hk. }
  destruct (delete_nothing σ hid s E fo e before fset Hr Hsc Hb Hig Hdec Hno Hc) as [Hres Hw].
  split; [|done]. rewrite Hres. do 2 f_equal.
  assert (some_candidates fset = true) as ->; [|done]. unfold some_candidates. apply andb_true_intro. split.
  - apply negb_true_iff, bool_decide_false. intros Hf. apply Hne.
    apply picked_none in Hf. rewrite picked_rows_none in Hf. apply snap_rows_shows in Hrows. rewrite Hf in Hrows.
    by inversion Hrows.
  - apply forallb_forall. intros df Hdf%elem_of_list_In. apply andb_true_intro.
    assert (Hl : listed s (y_world σ) df).
    { eapply Forall_forall; [|exact Hdf]. apply fset_listed, Hwb. }
    assert (Hp : df_path df ∈ df_path <$> fset_files fset) by (by apply elem_of_list_fmap_1).
    unfold fset in Hp. rewrite fset_files_filter in Hp. apply elem_of_list_fmap in Hp as (mr&Hpath&[_ Hmr]%elem_of_list_filter).
    apply elem_of_list_bind in Hmr as (man&Hmr&Hman).
    split; apply negb_true_iff.
    + apply Z.eqb_neq. rewrite (listed_rows s (y_world σ) df Hl). unfold drows. rewrite Hpath. intros Hz.
      apply (Hlay ((fun m => file_rows (w_fs (y_world σ)) (mr_path m)) <$> man_at (w_fs (y_world σ)) man) (file_rows (w_fs (y_world σ)) (mr_path mr))).
      * rewrite (layout_eq s σ hid h q m base Hseen Hsn). unfold snap_layout. apply elem_of_list_fmap. by exists man.
      * by apply (elem_of_list_fmap_1 (fun m => file_rows (w_fs (y_world σ)) (mr_path m))).
      * apply nil_length_inv. lia.
    + apply bool_decide_false. intros He. destruct Hl as (_&_&m'&(cols&gs&E'&Hp'&_)&Hp2&_).
      rewrite <-Hp2, He, Hext in Hp'. done.
Qed.
