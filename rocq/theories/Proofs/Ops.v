(** The bodies of the mutating methods: they leave the handle alone, write only
    new files, and return a well-formed patch. *)
From Verif.Model Require Import System.
From Verif.Spec Require Import Logical.
From Verif.Proofs Require Import Lib World Resolve AppendSpec SchemaFacts ReadSpec Wf OpSpec Inv FileSet.

(** * delete *)
Lemma kept_pos_bound e w df i : i ∈ kept_pos e w df → i < length (drows w df).
Proof.
  unfold kept_pos. intros ([j r]&->&[_ Hin]%elem_of_list_filter)%elem_of_list_fmap.
  apply elem_of_lookup_imap in Hin as (k&x&[= -> ->]&Hx). cbn. by eapply lookup_lt_Some.
Qed.
Lemma build_bitmap_file df l : rb_file (build_bitmap df l) = df_path df.
Proof. unfold build_bitmap. by case_decide. Qed.
Lemma build_bitmap_wf s w df l :
  listed s w df → wf_bitmap s (w_fs w) (build_bitmap df l).
Proof.
  intros Hl. pose proof (listed_rows s w df Hl) as Hr. destruct Hl as (_&_&m&Hm&Hp&Hs).
  exists (drows w df). rewrite build_bitmap_file. unfold drows. rewrite Hp. split_and!.
  - by apply wf_mrow_readable.
  - by apply wf_mrow_resolve.
  - unfold build_bitmap. case_decide; [done|]. cbn. intros _. apply Forall_forall.
    intros i [_ Hi]%elem_of_list_filter. rewrite Hr in Hi. unfold drows in Hi. rewrite Hp, Nat2Z.id in Hi.
    by apply elem_of_seq in Hi as [_ ?].
  - unfold drows in Hr. rewrite Hp in Hr. rewrite <-Hr. unfold build_bitmap. by case_decide.
Qed.
Lemma delete_out_wf s e w fset op w' :
  bounded w → wnew w w' →
  Forall (listed s w) (fset_files fset) →
  (∀ i q, fset_mans fset !! i = Some q → wf_man s (w_fs w) q) →
  delete_out s e w fset op w' → wf_opatch s (w_fs w') op.
Proof.
  intros Hb Hw Hl Hm. destruct op as [p|]; [|done].
  intros (HT&mids&mans&lkept&Hnd&Hmids&Hf2&Hdel&Hres&Hadd&Hrec&Hlog&_). cbn.
  pose proof (wnew_keeps _ _ Hb Hw) as Hk. split_and!.
  - destruct lkept as [|r lkept]; [by rewrite Hadd|].
    destruct Hadd as (u&ms&->&_&_&Hfs&Hms&_). repeat constructor. eexists. split; [exact Hfs|].
    apply Forall_app. split; [|done]. apply Forall_forall. intros m [_ Hin]%elem_of_list_filter.
    apply elem_of_list_bind in Hin as (q&Hmq&Hq). apply elem_of_list_lookup in Hq as [k Hq].
    destruct (Forall2_lookup_r _ _ _ _ _ Hf2 Hq) as (i&_&Hi). apply Hm, wf_man_at in Hi as [_ Hi].
    eapply Forall_forall in Hi; [|exact Hmq]. by eapply wf_mrow_keeps.
  - by rewrite Hrec.
  - rewrite Hlog. unfold wf_log. cbn. rewrite app_nil_r. apply Forall_forall.
    intros b (df&->&Hdf)%elem_of_list_fmap. apply elem_of_list_filter in Hdf as [_ Hdf].
    eapply Forall_forall in Hl; [|exact Hdf]. eapply wf_bitmap_keeps; [exact Hk|]. by apply build_bitmap_wf.
Qed.
Lemma delete_op_out E fo s e fset w :
  wf_schema s → bounded w →
  Forall (listed s w) (fset_files fset) →
  (∀ i q, fset_mans fset !! i = Some q → wf_man s (w_fs w) q) →
  let '(w', r) := delete_op E fo s e fset w in
  wnew w w' ∧ match r with Ok op => delete_out s e w fset op w' | Err _ => True end.
Proof.
  intros Hs Hb Hl Hm.
  pose proof (delete_op_spec E fo s e w Hs Hb fset Hl Hm w eq_refl ltac:(lia)) as [Hw Hr].
  by destruct (delete_op E fo s e fset w) as [w' r].
Qed.

(** * append_parquet *)
Lemma resolve_rows_nil rv rows : resolve_rows rv [] rows = Some rows.
Proof.
  induction rows as [|r rows IH]; [done|]. unfold resolve_rows in *. cbn. rewrite IH.
  assert (resolve_row rv [] r = Some r) as ->; [|done].
  induction r as [|c r IHr]; [done|]. unfold resolve_row in *. cbn. rewrite IHr.
  unfold resolve_field. by rewrite decide_False by set_solver.
Qed.
(** The rows of external files. *)
Definition parquet_out (s : schema) (w : world) (paths : list path) (op : option patch) (w' : world) : Prop :=
  s_recs s = [] ∧ ∃ p ms, op = Some p ∧ mr_path <$> ms = paths
    ∧ Forall (wf_mrow s (w_fs w')) ms
    ∧ (match ms with
       | [] => pa_add_idx p = []
       | _ => ∃ u, pa_add_idx p = [PGen KIdxMan u] ∧ (w_next w ≤ u)%N ∧ (u < w_next w')%N
                ∧ w_fs w' !! PGen KIdxMan u = Some (FIdxMan ms) end)
    ∧ pa_add_rec p = [] ∧ pa_del_idx p = [] ∧ pa_log p = None
    ∧ pa_stats p = foldl update_index_stats stats0 (mrow_stats <$> ms).
Lemma finish_index_manifest_run lo mc ms w :
  bounded w → (lo ≤ w_next w)%N →
  let '(w', r) := finish_index_manifest mc ms w in
  wle lo w w' ∧ ∃ op, r = Ok op ∧
  match mc ++ ms with
  | [] => op = None
  | _ => ∃ u, op = Some (PGen KIdxMan u) ∧ (w_next w ≤ u)%N ∧ (u < w_next w')%N
                ∧ w_fs w' !! PGen KIdxMan u = Some (FIdxMan (mc ++ ms)) end.
Proof.
  intros Hb Hlo. unfold finish_index_manifest. destruct (mc ++ ms) as [|m l].
  - cbn. split; [apply wle_refl|]. eauto.
  - cbn. split.
    + assert (HT : touches lo (w_next (bump_world w)) (PGen KIdxMan (w_next w))).
      { exists KIdxMan, (w_next w). split; [done|]. cbn. lia. }
      eapply wle_trans; [apply wle_bump|]. eapply wle_trans; [exact (wle_put _ _ _ FPartial HT)|].
      exact (wle_put _ (put_world _ _ _) _ _ HT).
    + eexists. split; [done|]. exists (w_next w). split_and!; [done|lia|lia|]. by rewrite lookup_insert.
Qed.
Lemma parquet_load_out E s w paths :
  wf_schema s → bounded w → (∀ p, p ∈ paths → external_ok s (w_fs w) p) →
  let '(w', r) := parquet_load_op E s paths w in
  wnew w w' ∧ match r with Ok op => parquet_out s w paths op w' | Err _ => True end.
Proof.
  intros Hs Hb Hext. unfold parquet_load_op.
  destruct (s_recs s) as [|] eqn:Hrecs; [|split; [apply wnew_refl|done]].
  set (f := fun p : path => _).
  assert (Hread : ∃ r, mapM_st f paths w = (w, r) ∧
     match r with Ok ms => mr_path <$> ms = paths ∧ Forall (wf_mrow s (w_fs w)) ms | Err _ => True end).
  { induction paths as [|p paths IH]; [by exists (Ok [])|].
    destruct IH as (r&Hr&Hok); [set_solver|]. cbn [mapM_st]. unfold bind at 1.
    assert (∃ rp, f p w = (w, rp) ∧ match rp with Ok m => mr_path m = p ∧ wf_mrow s (w_fs w) m | Err _ => True end)
      as (rp&Hrp&Hp).
    { unfold f, read_index, read_file, bind. cbn. destruct (w_fs w !! p) as [g|] eqn:Hg; cbn; [|by eexists].
      destruct g; cbn; try by eexists.
      destruct (manifest_row E (phys_schema s) (s_pks s) p groups) as [m|] eqn:Hm; [|by eexists].
      exists (Ok m). split; [done|]. pose proof (manifest_row_fields _ _ _ _ _ Hm) as [Hmp _].
      split; [done|]. exists cols, groups, E. rewrite Hmp. destruct (Hext p) as [_ Hx]; [set_solver|].
      destruct (Hx _ _ Hg) as [Hc Hrows]. split_and!; try done. rewrite Hrecs, resolve_rows_nil. by eexists. }
    rewrite Hrp. destruct rp as [m|]; [|by eexists]. unfold bind. rewrite Hr.
    destruct r as [ms|]; [|by eexists]. exists (Ok (m :: ms)). split; [done|]. destruct Hp, Hok.
    split; [by rewrite fmap_cons; f_equal|by constructor]. }
  destruct Hread as (r&Hr&Hok). unfold bind at 1. rewrite Hr. destruct r as [ms|]; [|split; [apply wnew_refl|done]].
  destruct Hok as [Hpaths Hms].
  pose proof (finish_index_manifest_run (w_next w) [] ms w Hb ltac:(lia)) as Hfin.
  destruct (finish_index_manifest [] ms w) as [w1 r1] eqn:Hf. destruct Hfin as (Hw1&op&->&Hop).
  erewrite bind_run; [|exact Hf]. cbn. split; [done|]. split; [done|]. eexists _, ms. split; [done|].
  split_and!; try done.
  - eapply Forall_impl; [exact Hms|]. intros. eapply wf_mrow_keeps; [|done]. by apply wnew_keeps.
  - cbn [app] in Hop. destruct ms as [|m ms]; [by rewrite Hop|]. destruct Hop as (u&->&?&?&?). exists u. by split_and!.
Qed.
Lemma parquet_out_wf s w paths op w' : parquet_out s w paths op w' → wf_opatch s (w_fs w') op.
Proof.
  intros (_&p&ms&->&_&Hms&Hadd&Hrec&Hdel&Hlog&_). split_and!.
  - destruct ms as [|m ms]; [by rewrite Hadd|]. destruct Hadd as (u&->&_&_&?). repeat constructor. eexists. eauto.
  - by rewrite Hrec.
  - by rewrite Hlog.
Qed.

(** * append_array_record *)
(** The rows that loading record files adds: one per record, in file order. *)
Definition loaded_rows (s : schema) (f : string) (index_fn : string → row) (recs : list string) : list row :=
  tappend f ((fun r => CVal (SStr r)) <$> recs) (index_row s f <$> (index_fn <$> recs)).
Definition recs_at (fs : fsys) (p : path) : list string := default [] (records_in fs p).
Definition array_record_out (s : schema) (w : world) (paths : list path) (index_fn : string → row)
    (op : option patch) (w' : world) : Prop :=
  ∃ f fid rows, rec_fields s = [(f, fid)]
    ∧ (∀ p, p ∈ paths → w_fs w !! p = Some (FRecord (recs_at (w_fs w) p)))
    ∧ tsel (out_names s) (paths ≫= (fun p => loaded_rows s f index_fn (recs_at (w_fs w) p))) = Ok rows
    ∧ match op with
      | None => rows = []
      | Some p => ∃ p0 total, patch_adds s (w_next w) w' p0 [] rows
          ∧ p = Patch (pa_add_idx p0) (pa_add_rec p0) (pa_del_idx p0) (pa_log p0)
                  (update_record_bytes (pa_stats p0) (Stats 0 0 0 total))
      end.
Lemma tappend_length n col (t : list row) : length (tappend n col t) = length t `min` length col.
Proof. unfold tappend. apply zip_with_length. Qed.
Lemma resolve_row_other rv recs (r : row) :
  Forall (fun c => c.1 ∉ recs) r → resolve_row rv recs r = Some r.
Proof.
  induction 1 as [|c r Hc _ IH]; [done|]. unfold resolve_row in *. cbn. rewrite IH.
  unfold resolve_field. by rewrite decide_False.
Qed.
Lemma resolve_loaded s rv f fid p recs index_fn :
  rec_fields s = [(f, fid)] → (∀ n, n ∈ s_recs s → n ∈ s_names s) → rv p = Some recs →
  resolve_rows rv (s_recs s) (tappend f (address_column p 0 (length recs)) (index_row s f <$> (index_fn <$> recs)))
    = Some (loaded_rows s f index_fn recs).
Proof.
  intros Hf Hsub Hp.
  assert (Hrec : f ∈ s_recs s ∧ ∀ n, n ∈ s_recs s → n = f).
  { assert (Hr : (rec_fields s).*1 = record_names s) by apply rec_fields_names. rewrite Hf in Hr. cbn in Hr.
    split.
    - assert (f ∈ record_names s) by (rewrite <-Hr; set_solver). by apply elem_of_list_filter in H as [? _].
    - intros n Hn. assert (Hin : n ∈ record_names s) by (apply elem_of_list_filter; auto).
      rewrite <-Hr in Hin. by apply elem_of_list_singleton in Hin. }
  destruct Hrec as [Hfr Hall]. unfold resolve_rows, loaded_rows, address_column. apply mapM_Some.
  assert (Hgen : ∀ k (l : list string), (∀ i x, l !! i = Some x → recs !! (k + i) = Some x) →
    Forall2 (fun x y => resolve_row rv (s_recs s) x = Some y)
      (tappend f ((fun i => CAddr p (0 + Z.of_nat i)) <$> seq k (length l)) (index_row s f <$> (index_fn <$> l)))
      (tappend f ((fun r => CVal (SStr r)) <$> l) (index_row s f <$> (index_fn <$> l)))).
  { intros k l. revert k. induction l as [|x l IH]; intros k Hk; [constructor|]. constructor.
    - apply mapM_app_Some. eexists _, _. split_and!; [| |done].
      + apply resolve_row_other. apply Forall_forall. intros [n c] (m&[= -> ->]&[Hm _]%elem_of_list_filter)%elem_of_list_fmap.
        cbn. by intros ->%Hall.
      + cbn. unfold resolve_field. cbn. rewrite decide_True by done. cbn.
        rewrite decide_True by lia. rewrite Hp. cbn.
        specialize (Hk 0 x eq_refl). replace (Z.to_nat (0 + Z.of_nat k)) with k by lia.
        rewrite Nat.add_0_r in Hk. by rewrite Hk.
    - apply IH. intros i y Hy. rewrite Nat.add_succ_comm. by apply (Hk (S i)). }
  apply (Hgen 0 recs). intros i x. by rewrite Nat.add_0_l.
Qed.

Lemma array_record_load_out E fo s w paths index_fn nbytes :
  wf_schema s → bounded w → (∀ p, p ∈ paths → path_is_ext p) →
  let '(w', r) := array_record_load_op E fo s paths index_fn nbytes w in
  wnew w w' ∧ match r with Ok op => array_record_out s w paths index_fn op w' | Err _ => True end.
Proof.
  intros Hs Hb Hext. unfold array_record_load_op.
  destruct (rec_fields s) as [|[f fid] [|]] eqn:Hf; try (split; [apply wnew_refl|done]).
  set (lo := w_next w). set (body := fun '(st, total) (p : path) => _).
  assert (Hloop : ∀ paths st total rows,
    (∀ p, p ∈ paths → path_is_ext p) →
    hoare lo (fun w1 => (ainv E s lo [] st rows w1 ∧ nonempty_writer st) ∧ wle lo w w1)
      (foldM_st body (st, total) paths)
      (fun st' w1 => (nonempty_writer st'.1 ∧ wle lo w w1) ∧
         ∃ add, (∀ p, p ∈ paths → w_fs w !! p = Some (FRecord (recs_at (w_fs w) p)))
         ∧ tsel (out_names s) (paths ≫= (fun p => loaded_rows s f index_fn (recs_at (w_fs w) p))) = Ok add
         ∧ ainv E s lo [] st'.1 (rows ++ add) w1)).
  { clear paths Hext. induction paths as [|p paths IH]; intros st total rows Hext.
    - cbn [foldM_st]. apply hoare_ret'. intros w1 Hlo [[Ha Hne] Hw1]. split; [done|]. exists [].
      rewrite app_nil_r. split_and!; try done. intros p. set_solver.
    - cbn [foldM_st]. eapply hoare_bind with (Q := fun st' w1 => ((nonempty_writer st'.1 ∧ wle lo w w1) ∧
         ∃ add, w_fs w !! p = Some (FRecord (recs_at (w_fs w) p))
         ∧ tsel (out_names s) (loaded_rows s f index_fn (recs_at (w_fs w) p)) = Ok add
         ∧ ainv E s lo [] st'.1 (rows ++ add) w1)).
      + unfold body. eapply hoare_bind; [apply hoare_read_records|]. intros recs.
        apply (hoare_pre _ _ (fun w1 => (w_fs w !! p = Some (FRecord recs)) ∧
          ((ainv E s lo [] st rows w1 ∧ nonempty_writer st) ∧ 
            resolve_rows (old_view lo (w_fs w1)) (s_recs s)
              (tappend f (address_column p 0 (length recs)) (index_row s f <$> (index_fn <$> recs)))
              = Some (loaded_rows s f index_fn recs)) ∧ wle lo w w1)).
        { intros w1 Hlo [Hp [[Ha Hne] Hw1]]. assert (Hpe : path_is_ext p) by (apply Hext; set_solver).
          destruct p as [| |nm]; try done. split_and!; try done.
          - by rewrite (wle_pext _ _ _ nm Hw1) in Hp.
          - eapply (resolve_loaded s _ f fid); [done|apply Hs|].
            unfold old_view. rewrite decide_True by done. unfold records_in. by rewrite Hp. }
        apply hoare_pure. intros Hp.
        assert (Hra : recs_at (w_fs w) p = recs) by (unfold recs_at, records_in; by rewrite Hp).
        eapply hoare_bind.
        { eapply (hoare_frame _ _ _ _ (fun w1 => wle lo w w1)); [intros; by eapply wle_trans|].
          apply (append_write_spec E fo s lo true [] st rows _ (loaded_rows s f index_fn recs)). }
        intros st'. apply hoare_ret'. intros w1 Hlo [[Hne (add&Hadd&Ha)] Hw1]. split; [done|].
        exists add. rewrite Hra. done.
      + intros [st1 tot1]. cbn [fst]. 
        apply (hoare_pre _ _ (fun w1 => ∃ add, (w_fs w !! p = Some (FRecord (recs_at (w_fs w) p))
         ∧ tsel (out_names s) (loaded_rows s f index_fn (recs_at (w_fs w) p)) = Ok add) ∧
         (ainv E s lo [] st1 (rows ++ add) w1 ∧ nonempty_writer st1) ∧ wle lo w w1)).
        { intros w1 _ [[? ?] (add&?&?&?)]. exists add. by split_and!. }
        apply hoare_ex. intros add. apply hoare_pure. intros [Hp Hadd].
        eapply hoare_post; [apply IH; set_solver|]. intros [st2 tot2] w2 _ [Hx (add2&H1&H2&H3)]. cbn [fst] in *.
        split; [done|]. exists (add ++ add2). split_and!.
        * intros q [->|Hq]%elem_of_cons; auto.
        * rewrite bind_cons. apply rmapM_app. eauto.
        * by rewrite app_assoc. }
  match goal with |- let '(_, _) := ?m w in _ => assert (Hh : hoare lo (fun w1 => w1 = w) m (array_record_out s w paths index_fn)) end.
  { eapply hoare_bind.
    { eapply hoare_pre; [|apply (Hloop paths append_init 0%Z [] Hext)]. intros w1 _ ->.
      split; [|apply wle_refl]. split; [by apply append_init_inv|by left]. }
    intros [st total]. cbn [fst app].
    apply (hoare_pre _ _ (fun w1 => ∃ rows, ((∀ p, p ∈ paths → w_fs w !! p = Some (FRecord (recs_at (w_fs w) p)))
         ∧ tsel (out_names s) (paths ≫= (fun p => loaded_rows s f index_fn (recs_at (w_fs w) p))) = Ok rows) ∧
         ainv E s lo [] st rows w1 ∧ nonempty_writer st)).
    { intros w1 _ [[? ?] (add&?&?&?)]. exists add. by split_and!. }
    apply hoare_ex. intros rows. apply hoare_pure. intros [Hp Hrows].
    eapply hoare_bind; [apply (append_finish_spec E s lo [] st rows)|]. intros op. apply hoare_ret'.
    intros w1 _ Hout. exists f, fid, rows. split_and!; try done. destruct op as [p|]; [|by destruct Hout].
    cbn. eexists p, _. split; [|reflexivity]. by eapply append_out_adds. }
  specialize (Hh w eq_refl ltac:(unfold lo; lia)).
  by match goal with |- let '(_, _) := ?x in _ => destruct x as [w' r] end.
Qed.
Lemma array_record_out_wf s w paths index_fn op w' :
  array_record_out s w paths index_fn op w' → wf_opatch s (w_fs w') op.
Proof.
  intros (f&fid&rows&_&_&_&Hop). destruct op as [p|]; [|done]. destruct Hop as (p0&total&Hp&->).
  apply (patch_adds_wf s) in Hp; [|constructor]. exact Hp.
Qed.

(** * insert and upsert *)
Lemma merge_two_wf s fs a b : wf_patch s fs a → wf_patch s fs b → wf_patch s fs (merge_two a b).
Proof.
  intros (?&?&Hla) (?&?&Hlb). split_and!; cbn; [by apply Forall_app|by apply Forall_app|].
  destruct (pa_log a) as [c|], (pa_log b) as [d|]; cbn; try done.
  unfold wf_log in *. cbn. apply Forall_app in Hla as [??], Hlb as [??]. rewrite !Forall_app. by split_and!.
Qed.
Lemma merge_patches_wf s fs l : Forall (wf_opatch s fs) l → wf_opatch s fs (merge_patches l).
Proof.
  intros Hl. unfold merge_patches.
  assert (Hf : Forall (wf_patch s fs) (omap id l)).
  { induction Hl as [|[p|] l Hp _ IH]; cbn; [constructor|by constructor|done]. }
  destruct (omap id l) as [|p ps]; [done|]. unfold wf_opatch.
  assert (H0 : wf_patch s fs patch0) by (split_and!; done || constructor).
  revert H0. generalize patch0. induction Hf as [|q qs Hq _ IH]; intros a Ha; cbn [foldl]; [done|].
  apply IH. by apply merge_two_wf.
Qed.

Definition fset_now (fs : fsys) (h : handle) (mf : option sexpr) : file_set :=
  match get_snapshot h None with Ok sn => fset_at fs mf (sn_idx sn) | Err _ => FileSet [] ∅ end.
Lemma get_snapshot_wf s fs h sid sn :
  wf_meta s fs (h_meta h) → get_snapshot h sid = Ok sn → wf_snap s fs sn.
Proof.
  intros Hm Hsn. unfold get_snapshot in Hsn. apply rbind_ok in Hsn as (i&_&Hi). apply of_opt_ok in Hi.
  by apply (wm_snaps _ _ _ Hm) in Hi as (_&?&_).
Qed.
Lemma readonly_read_record_column l : readonly (read_record_column l).
Proof.
  apply readonly_bind; [apply readonly_lift|]. intros ?. apply readonly_bind; [|intros; apply readonly_ret].
  apply readonly_mapM. intros p. apply readonly_bind; [apply readonly_read_records|]. intros ?.
  apply readonly_bind; [apply readonly_lift|]. intros ?. apply readonly_ret.
Qed.
Lemma readonly_read_files E s o dfs : readonly (read_files E s o dfs).
Proof.
  apply readonly_bind; [|intros; apply readonly_ret]. apply readonly_mapM. intros df.
  apply readonly_bind; [apply readonly_read_index|]. intros [cols gs].
  apply readonly_bind; [apply readonly_lift|]. intros t.
  assert (Hir : ∀ c t, readonly (read_index_and_record c t)).
  { intros c t'. apply readonly_bind; [apply readonly_lift|]. intros base. apply readonly_foldM.
    intros b [n f]. apply readonly_bind; [apply readonly_lift|]. intros ?.
    apply readonly_bind; [apply readonly_read_record_column|]. intros. apply readonly_ret. }
  destruct (ro_ref o); [apply readonly_ret|]. apply readonly_bind; [apply readonly_lift|]. intros cl.
  destruct (df_slice df).
  - apply readonly_bind; [apply Hir|]. intros. apply readonly_ret.
  - apply readonly_mapM. intros. apply Hir.
Qed.
Lemma readonly_filter_matched E s fset e : readonly (filter_matched E s fset e).
Proof. apply readonly_bind; [apply readonly_read_files|]. intros. apply readonly_ret. Qed.

(** What the body of insert or upsert does, step by step. *)
Definition insert_out (E : env) (s : schema) (mode : insert_mode) (data : list row)
    (h : handle) (w : world) (op : option patch) (w' : world) : Prop :=
  (data = [] ∧ op = None ∧ w' = w) ∨
  (data ≠ [] ∧ ∃ sn e mf w1 dop rows aop,
    primary_key_filter (s_pks s) data = Ok (Some e)
    ∧ get_snapshot h None = Ok sn
    ∧ build_manifest_filter (fenv_of s) e = Ok mf
    ∧ let fset := fset_at (w_fs w) mf (sn_idx sn) in
      match mode with
      | MInsert => w1 = w ∧ dop = None
          ∧ (fset_files fset = [] ∨ filter_matched E s fset e w = (w, Ok false))
      | MUpsert => wnew w w1 ∧ (fset_files fset = [] ∧ dop = None ∧ w1 = w
                               ∨ fset_files fset ≠ [] ∧ delete_out s e w fset dop w1)
      end
    ∧ wnew w1 w'
    ∧ tsel (out_names s) data = Ok rows
    ∧ match aop with None => rows = [] | Some p => patch_adds s (w_next w1) w' p [] rows end
    ∧ op = merge_patches (match mode, fset_files fset with
                          | MUpsert, _ :: _ => [dop; aop] | _, _ => [aop] end)).

Lemma insert_op_run E fo s mode data h w :
  winv s w → wf_handle s w h →
  ∃ w' r, insert_op E fo mode data (h, w) = ((h, w'), r) ∧ wnew w w'
    ∧ match r with Ok op => insert_out E s mode data h w op w' | Err _ => True end.
Proof.
  intros Hi Hh. pose proof Hh as (Hm&_&_). pose proof Hi as [Hb Hs _]. unfold insert_op.
  destruct data as [|d0 d1].
  { exists w. eexists. split; [done|]. split; [apply wnew_refl|]. left. done. }
  cbv iota. assert (Hne : d0 :: d1 ≠ []) by done. revert Hne. generalize (d0 :: d1). clear d0 d1. intros data Hne.
  rewrite get_handle_bind, lift_bind. rewrite (wm_schema _ _ _ Hm).
  destruct (primary_key_filter (s_pks s) data) as [[e|]|] eqn:Hpk;
    [|exists w; eexists; split; [done|]; split; [apply wnew_refl|done]..].
  unfold bind at 1. rewrite (data_files_run s) by done.
  destruct (get_snapshot h None) as [sn|] eqn:Hsn; [|exists w; eexists; split; [done|]; split; [apply wnew_refl|done]].
  cbn [man_filter].
  destruct (build_manifest_filter (fenv_of s) e) as [mf|] eqn:Hmf;
    [|exists w; eexists; split; [done|]; split; [apply wnew_refl|done]]. cbn [rmap].
  set (fset := fset_at (w_fs w) mf (sn_idx sn)).
  pose proof (get_snapshot_wf _ _ _ _ _ Hm Hsn) as Hwsn.
  assert (Hl : Forall (listed s w) (fset_files fset)) by (apply fset_listed; apply Hwsn).
  assert (Hmans : ∀ i q, fset_mans fset !! i = Some q → wf_man s (w_fs w) q).
  { intros i q. apply fset_mans_wf, Hwsn. }
  (* the final append *)
  assert (Happ : ∀ w1 ps, bounded w1 → wnew w w1 →
    ∃ w' r, bind (liftM (append_op E fo s [data])) (fun p => ret (merge_patches (ps ++ [p]))) (h, w1) = ((h, w'), r)
     ∧ wnew w1 w' ∧ match r with
       | Ok op => ∃ rows aop, tsel (out_names s) data = Ok rows
            ∧ match aop with None => rows = [] | Some p => patch_adds s (w_next w1) w' p [] rows end
            ∧ op = merge_patches (ps ++ [aop])
       | Err _ => True end).
  { intros w1 ps Hb1 Hw1. pose proof (append_op_out E fo s [data] w1 Hb1) as Ha.
    destruct (append_op E fo s [data] w1) as [w2 r] eqn:Hap. destruct Ha as (Hw2&_&Hr).
    unfold bind. rewrite (liftM_run _ h w1 _ _ Hap). destruct r as [aop|].
    - exists w2. eexists. split; [done|]. split; [done|]. destruct Hr as (rows&Hrows&Haop).
      cbn in Hrows. rewrite app_nil_r in Hrows. eauto.
    - exists w2. eexists. split; [done|]. done. }
  destruct mode.
  - (* insert *)
    destruct (fset_files fset) as [|df dfs] eqn:Hfiles.
    + destruct (Happ w [] Hb (wnew_refl w)) as (w'&r&Hr&Hw'&Hok). exists w', r. split; [exact Hr|]. split; [done|].
      destruct r as [op|]; [|done]. destruct Hok as (rows&aop&Hrows&Haop&->). right. split; [done|].
      exists sn, e, mf, w, None, rows, aop. cbv zeta. fold fset. rewrite Hfiles. split_and!; try done. by left.
    + pose proof (readonly_filter_matched E s fset e w) as Hro.
      destruct (filter_matched E s fset e w) as [w1 r1] eqn:Hfm. cbn in Hro. subst w1.
      unfold bind at 1 2. rewrite (liftM_run _ h w _ _ Hfm).
      destruct r1 as [[]|]; [by exists w; eexists; split; [done|]; split; [apply wnew_refl|done]| |
                             by exists w; eexists; split; [done|]; split; [apply wnew_refl|done]].
      destruct (Happ w [] Hb (wnew_refl w)) as (w'&r&Hr&Hw'&Hok). exists w', r. split; [exact Hr|]. split; [done|].
      destruct r as [op|]; [|done]. destruct Hok as (rows&aop&Hrows&Haop&->). right. split; [done|].
      exists sn, e, mf, w, None, rows, aop. cbv zeta. fold fset. rewrite Hfiles. split_and!; try done. by right.
  - (* upsert *)
    destruct (fset_files fset) as [|df dfs] eqn:Hfiles.
    + destruct (Happ w [] Hb (wnew_refl w)) as (w'&r&Hr&Hw'&Hok). exists w', r. split; [exact Hr|]. split; [done|].
      destruct r as [op|]; [|done]. destruct Hok as (rows&aop&Hrows&Haop&->). right. split; [done|].
      exists sn, e, mf, w, None, rows, aop. cbv zeta. fold fset. rewrite Hfiles. split_and!; try done; [apply wnew_refl|by left].
    + rewrite <-Hfiles in Hl.
      pose proof (delete_op_out E fo s e fset w Hs Hb Hl Hmans) as Hd.
      destruct (delete_op E fo s e fset w) as [w1 r1] eqn:Hdo. destruct Hd as [Hw1 Hd].
      unfold bind at 1 2. rewrite (liftM_run _ h w _ _ Hdo).
      destruct r1 as [dop|]; [|by exists w1; eexists; split; [done|]; split].
      destruct (Happ w1 [dop]) as (w'&r&Hr&Hw'&Hok); [by eapply wle_bounded|done|].
      exists w', r. split; [exact Hr|]. split; [by eapply wnew_trans|].
      destruct r as [op|]; [|done]. destruct Hok as (rows&aop&Hrows&Haop&->). right. split; [done|].
      exists sn, e, mf, w1, dop, rows, aop. cbv zeta. fold fset. rewrite Hfiles. split_and!; try done. right. split; [done|exact Hd].
Qed.
Lemma insert_out_wf E s mode data h w op w' :
  winv s w → wf_handle s w h → insert_out E s mode data h w op w' → wf_opatch s (w_fs w') op.
Proof.
  intros Hi Hh [(->&->&->)|(_&sn&e&mf&w1&dop&rows&aop&_&Hsn&_&Hmode&Hw'&_&Haop&->)]; [done|].
  pose proof Hh as (Hm&_&_). pose proof Hi as [Hb Hs _].
  pose proof (get_snapshot_wf _ _ _ _ _ Hm Hsn) as Hwsn.
  set (fset := fset_at (w_fs w) mf (sn_idx sn)) in *.
  assert (Hl : Forall (listed s w) (fset_files fset)) by (apply fset_listed; apply Hwsn).
  assert (Hmans : ∀ i q, fset_mans fset !! i = Some q → wf_man s (w_fs w) q).
  { intros i q. apply fset_mans_wf, Hwsn. }
  assert (Hd : wnew w w1 ∧ wf_opatch s (w_fs w1) dop).
  { destruct mode.
    - destruct Hmode as (->&->&_). split; [apply wnew_refl|done].
    - destruct Hmode as (Hw1&[(_&->&_)|[_ Hd]]); split; try done.
      eapply (delete_out_wf s e w fset); try done. }
  destruct Hd as [Hw1 Hd].
  assert (Hd' : wf_opatch s (w_fs w') dop).
  { eapply wf_opatch_keeps; [|exact Hd]. apply wnew_keeps; [|done]. by eapply wle_bounded. }
  assert (Ha : wf_opatch s (w_fs w') aop).
  { destruct aop as [p|]; [|done]. eapply patch_adds_wf; [|exact Haop]. constructor. }
  apply merge_patches_wf. destruct mode, (fset_files fset); by repeat constructor.
Qed.

