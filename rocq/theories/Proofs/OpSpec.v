(** What append and delete operations produce, in terms of well-formed files. *)
From Verif.Model Require Import Storage Runner.
From Verif.Spec Require Import Logical.
From Verif.Proofs Require Import Lib World Resolve AppendSpec SchemaFacts ReadSpec Wf.

Lemma made_wf E s lo w ms :
  Forall (made E s lo w) ms →
  is_Some (resolve_rows (records_in (w_fs w)) (s_recs s) (man_rows (w_fs w) ms)) →
  Forall (wf_mrow s (w_fs w)) ms.
Proof.
  induction 1 as [|m ms Hm _ IH]; [constructor|]. rewrite man_rows_cons. intros [l Hl].
  apply mapM_app_Some in Hl as (l1&l2&H1&H2&_). constructor; [|apply IH; by exists l2].
  destruct Hm as (u&gs&Hp&_&_&Hfs&Hc&_&Hm). exists (header s), gs, E. split_and!; auto.
  - apply header_ok.
  - unfold file_rows in H1. rewrite Hfs in H1. by exists l1.
Qed.
Lemma rmade_wf lo w rms :
  Forall (rmade lo w) rms →
  Forall (fun m => ∃ rs, w_fs w !! rm_path m = Some (FRecord rs) ∧ rm_rows m = Z.of_nat (length rs)) rms.
Proof. intros H. eapply Forall_impl; [done|]. intros m (f&u&rs&?&?&?&?&?). eauto. Qed.

(** Rows written by an append determine the column order. *)
Lemma made_out_names E s lo w ms rows data :
  Forall (made E s lo w) ms → rows ≠ [] → tsel (out_names s) data = Ok rows →
  resolve_rows (records_in (w_fs w)) (s_recs s) (man_rows (w_fs w) ms) = Some rows →
  out_names s = s_names s.
Proof.
  intros Hms Hne Hsel Hres. destruct rows as [|l rows]; [done|].
  apply mapM_Some in Hres. inversion Hres as [|r ? prows ? Hr _ Hp]; subst.
  assert (Hin : r ∈ man_rows (w_fs w) ms) by (rewrite <-Hp; set_solver).
  apply elem_of_list_bind in Hin as (m&Hrm&Hm).
  eapply Forall_forall in Hms; [|exact Hm]. destruct Hms as (u&gs&_&_&_&Hfs&Hc&_&_).
  unfold file_rows in Hrm. rewrite Hfs in Hrm. eapply Forall_forall in Hc; [|exact Hrm].
  rewrite <-(conforms_names s r Hc), <-(resolve_row_names _ _ _ _ Hr).
  apply tsel_ok in Hsel. inversion Hsel as [|? ? ? ? Hl _]; subst. by rewrite (rsel_names _ _ _ Hl).
Qed.
Lemma rsel_id names (r : row) : NoDup names → r.*1 = names → rsel names r = Ok r.
Proof. intros Hnd <-. by apply rsel_all. Qed.
Lemma tsel_id names (t : list row) :
  NoDup names → Forall (fun r => r.*1 = names) t → tsel names t = Ok t.
Proof.
  intros Hnd H. apply tsel_ok. induction H; constructor; [by apply rsel_id|done].
Qed.

Lemma resolve_names rv recs (rows l : list row) names :
  Forall (fun r => r.*1 = names) rows → resolve_rows rv recs rows = Some l →
  Forall (fun r => r.*1 = names) l.
Proof.
  intros Hn Hr%mapM_Some. induction Hr as [|r l' rows l Hr _ IH]; [constructor|].
  inversion Hn; subst. constructor; [by eapply resolve_row_names|auto].
Qed.

(** A patch that adds one index manifest: [mc] carried over and [ms] new. *)
Definition patch_adds (s : schema) (lo : N) (w : world) (p : patch) (mc : list mrow) (rows : list row) : Prop :=
  ∃ ms rms u, rows ≠ []
    ∧ pa_add_idx p = [PGen KIdxMan u] ∧ (lo ≤ u)%N ∧ (u < w_next w)%N
    ∧ w_fs w !! PGen KIdxMan u = Some (FIdxMan (mc ++ ms))
    ∧ Forall (wf_mrow s (w_fs w)) ms
    ∧ Forall (fun m => file_rows (w_fs w) (mr_path m) ≠ []) ms
    ∧ Forall (fun m => ∃ k, mr_path m = PGen KIndex k ∧ (lo ≤ k)%N ∧ (k < w_next w)%N) ms
    ∧ resolve_rows (records_in (w_fs w)) (s_recs s) (man_rows (w_fs w) ms) = Some rows
    ∧ (match rms with [] => pa_add_rec p = []
         | _ => ∃ u2, pa_add_rec p = [PGen KRecMan u2] ∧ (lo ≤ u2)%N ∧ (u2 < w_next w)%N
                  ∧ w_fs w !! PGen KRecMan u2 = Some (FRecMan rms) end)
    ∧ Forall (wf_rman (w_fs w)) (pa_add_rec p)
    ∧ out_names s = s_names s
    ∧ pa_del_idx p = []
    ∧ pa_log p = Some (ChangeLog [] (added_bitmap <$> ms))
    ∧ pa_stats p = man_stats ms rms
    ∧ st_rows (pa_stats p) = Z.of_nat (length rows).

Lemma append_out_adds E s lo mc rows data p w :
  append_out E s lo mc rows (Some p) w → tsel (out_names s) data = Ok rows →
  patch_adds s lo w p mc rows.
Proof.
  intros (Hb&ms&rms&u&Hne&Hadd&Hlo&Hhi&Hman&Hmade&Hres&Hrmade&Hrec&Hdel&Hlog&Hstats&Hrows) Hsel.
  exists ms, rms, u. split_and!; try done.
  - by eapply made_wf.
  - eapply Forall_impl; [done|]. intros m (k&gs&?&?&?&Hfs&?&?&?). unfold file_rows. by rewrite Hfs.
  - eapply Forall_impl; [done|]. intros m (k&gs&?&?&?&?). eauto.
  - destruct rms as [|rm rms]; [by rewrite Hrec|]. destruct Hrec as (u2&->&_&_&Hu2).
    repeat constructor. eexists. split; [done|]. by eapply rmade_wf.
  - by eapply made_out_names.
Qed.

Lemma patch_adds_wf s lo w p mc rows :
  Forall (wf_mrow s (w_fs w)) mc → patch_adds s lo w p mc rows → wf_patch s (w_fs w) p.
Proof.
  intros Hmc (ms&rms&u&Hne&Hadd&Hlo&Hhi&Hman&Hms&Hnem&Hk&Hres&Hrec&Hrman&Hout&Hdel&Hlog&Hstats&Hrows).
  split_and!.
  - rewrite Hadd. repeat constructor. eexists. split; [done|]. by apply Forall_app.
  - done.
  - rewrite Hlog. unfold wf_log. simpl. apply Forall_fmap. eapply Forall_impl; [exact Hms|].
    intros m Hm. exists (file_rows (w_fs w) (mr_path m)). simpl. split_and!; [|by apply wf_mrow_resolve|done|].
    + by apply wf_mrow_readable.
    + by apply (wf_mrow_rows s).
Qed.

Lemma append_op_out E O s batches w :
  bounded w →
  let '(w', r) := append_op E O s batches w in
  wnew w w' ∧ bounded w' ∧
  match r with
  | Ok op => ∃ rows, tsel (out_names s) (concat batches) = Ok rows
      ∧ match op with None => rows = [] | Some p => patch_adds s (w_next w) w' p [] rows end
  | Err _ => True
  end.
Proof.
  intros Hb. pose proof (append_op_spec E O s (w_next w) batches w Hb ltac:(lia)) as [Hw Hr].
  destruct (append_op E O s batches w) as [w' r]. simpl in *. split; [done|].
  split; [by eapply wle_bounded|]. destruct r as [op|]; [|done].
  destruct Hr as (rows&Hsel&Hout). exists rows. split; [done|].
  destruct op as [p|]; [by eapply append_out_adds|by destruct Hout].
Qed.

(** * Delete *)
Section delete.
Context (E : env) (O : fopts) (s : schema) (e : filter_expr) (w0 : world).
Context (Hwf : wf_schema s) (Hb0 : bounded w0).
Notation fs0 := (w_fs w0).
Notation lo := (w_next w0).

(** A data file as listed by data_files. *)
Definition listed (df : data_file) : Prop :=
  df_bitmap df = None ∧ df_slice df = None ∧
  ∃ m, wf_mrow s fs0 m ∧ df_path df = mr_path m ∧ df_stats df = mrow_stats m.

Definition drows (df : data_file) : list row := file_rows fs0 (df_path df).
Definition kept (df : data_file) : list row := filter (fun r => matches (EUn FnNot e) r = true) (drows df).
Definition kept_pos (df : data_file) : list nat :=
  (filter (fun ir => matches (EUn FnNot e) ir.2 = true) (imap pair (drows df))).*1.
Definition touched (df : data_file) : Prop := length (kept df) ≠ length (drows df).
Global Instance touched_dec df : Decision (touched df).
Proof. unfold touched. apply _. Defined.

Lemma filter_imap_snd {A} (P : A → Prop) `{∀ x, Decision (P x)} (l : list A) (f : nat → A → nat * A) :
  (∀ i x, (f i x).2 = x) → (filter (fun ix : nat * A => P ix.2) (imap f l)).*2 = filter P l.
Proof.
  revert f. induction l as [|x l IH]; intros f Hf; [done|]. rewrite imap_cons, !filter_cons.
  rewrite Hf. case_decide; [rewrite fmap_cons; f_equal; [apply Hf|]|]; apply IH; intros; apply Hf.
Qed.

Lemma kept_pairs df : (filter (fun ir => matches (EUn FnNot e) ir.2 = true) (imap pair (drows df))).*2 = kept df.
Proof. exact (filter_imap_snd (fun r => matches (EUn FnNot e) r = true) (drows df) pair (fun _ _ => eq_refl)). Qed.
Lemma kept_pos_length df : length (kept_pos df) = length (kept df).
Proof. unfold kept_pos. by rewrite <-kept_pairs, !fmap_length. Qed.

Lemma listed_rows df : listed df → st_rows (df_stats df) = Z.of_nat (length (drows df)).
Proof.
  intros (_&_&m&Hm&Hp&Hs). rewrite Hs. unfold drows. rewrite Hp. simpl. by apply (wf_mrow_rows s).
Qed.
Lemma kept_le df : length (kept df) ≤ length (drows df).
Proof. apply filter_length. Qed.
Lemma resolve_kept df : listed df →
  is_Some (resolve_rows (records_in fs0) (s_recs s) (kept df)).
Proof.
  intros (_&_&m&Hm&Hp&_).
  apply (wf_mrow_resolve s) in Hm as [l Hl]. destruct (resolve_rows_sub _ _ _ _ (kept df) Hl) as [k Hk]; [|by exists k].
  unfold kept, drows. rewrite Hp. by intros r [_ Hr]%elem_of_list_filter.
Qed.

Definition drop_count (D : list data_file) : Z :=
  Zsum ((fun df => Z.of_nat (length (drows df)) - Z.of_nat (length (kept df)))%Z <$> D).

Definition dinv (D : list data_file) (st : del_st) (w : world) : Prop :=
  wle lo w0 w ∧
  ∃ l0 lrows, resolve_rows (records_in fs0) (s_recs s) (filter touched D ≫= kept) = Some l0
    ∧ tsel (out_names s) l0 = Ok lrows
    ∧ ainv E s lo [] (ds_append st) lrows w
    ∧ nonempty_writer (ds_append st)
    ∧ ds_log st = (fun df => build_bitmap df (kept_pos df)) <$> filter touched D
    ∧ ds_files st = df_path <$> filter touched D
    ∧ NoDup (ds_mids st)
    ∧ (∀ i, i ∈ ds_mids st ↔ i ∈ df_mid <$> filter touched D)
    ∧ ds_rows st = drop_count D
    ∧ ds_before st = foldl update_index_stats stats0 (df_stats <$> D).

Lemma filter_snoc {A} (P : A → Prop) `{∀ x, Decision (P x)} l x :
  filter P (l ++ [x]) = if decide (P x) then filter P l ++ [x] else filter P l.
Proof. rewrite filter_app, filter_cons, filter_nil. case_decide; [done|]. by rewrite app_nil_r. Qed.

Lemma fs0_vle w : wle lo w0 w → vle (records_in fs0) (old_view lo (w_fs w)).
Proof.
  intros Hw p rs. unfold records_in. destruct (fs0 !! p) as [[]|] eqn:Hp; try done. intros [= <-].
  exists []. rewrite app_nil_r. unfold old_view. pose proof (Hb0 _ _ Hp) as Hbe.
  rewrite decide_True by done. unfold records_in. by rewrite (wle_lookup _ _ _ p Hw Hbe), Hp.
Qed.

Lemma delete_file_spec D st df :
  listed df → hoare lo (dinv D st) (delete_file E O s e st df) (fun st' w => dinv (D ++ [df]) st' w).
Proof.
  intros Hl. unfold delete_file.
  eapply hoare_bind; [apply hoare_read_index|]. intros [cols gs]. cbn [fst snd].
  apply (hoare_pre _ _ (fun w => concat gs = drows df ∧ dinv D st w)).
  { intros w _ [Hf Hd]. split; [|done]. destruct Hd as [Hw _].
    destruct Hl as (_&_&m&(cols'&gs'&E'&Hp&_)&Hpath&_). unfold drows, file_rows. rewrite Hpath in *.
    rewrite (wle_lookup _ _ _ _ Hw (Hb0 _ _ Hp)), Hp in Hf. rewrite Hp. by simplify_eq. }
  apply hoare_pure. intros ->. change (reinsert_filter e) with (EUn FnNot e).
  pose proof (kept_pairs df) as Hkp. pose proof (kept_pos_length df) as Hkl. unfold kept_pos in Hkl.
  pose proof (kept_pos_length df) as Hkl'. fold (kept_pos df) in Hkl.
  assert (Hlen : length (filter (fun ir : nat * row => matches (EUn FnNot e) ir.2 = true) (imap pair (drows df))) = length (kept df)).
  { by rewrite <-Hkp, fmap_length. }
  rewrite Hlen. rewrite (listed_rows df Hl).
  pose proof (kept_le df) as Hle.
  destruct (Z.of_nat (length (kept df)) =? Z.of_nat (length (drows df)))%Z eqn:Heq.
  { apply Z.eqb_eq in Heq. apply hoare_ret'. intros w _ (Hw&l0&lrows&H1&H2&H3&H4&H5&H6&H7&H8&H9&H10).
    split; [done|]. exists l0, lrows. cbn.
    rewrite filter_snoc, decide_False by (unfold touched; lia).
    split_and!; try done.
    - rewrite H9. unfold drop_count. rewrite fmap_app, Zsum_app. cbn. lia.
    - by rewrite fmap_app, foldl_app, H10. }
  apply Z.eqb_neq in Heq. assert (Ht : touched df) by (unfold touched; lia).
  assert (Hmids : ∀ (mids : list nat) T, NoDup mids → (∀ i, i ∈ mids ↔ i ∈ df_mid <$> T) →
    let mids' := if decide (df_mid df ∈ mids) then mids else mids ++ [df_mid df] in
    NoDup mids' ∧ ∀ i, i ∈ mids' ↔ i ∈ df_mid <$> (T ++ [df])).
  { intros mids T Hnd Hiff. cbn. setoid_rewrite fmap_app. setoid_rewrite elem_of_app. setoid_rewrite <-Hiff.
    cbn. setoid_rewrite elem_of_list_singleton. case_decide.
    - split; [done|]. intros i. split; [by left|]. intros [?| ->]; done.
    - split; [|intros i; rewrite elem_of_app, elem_of_list_singleton; done].
      apply NoDup_app. split_and!; [done| |apply NoDup_singleton]. intros i Hi ->%elem_of_list_singleton. done. }
  match goal with |- hoare _ _ (match ?k with _ => _ end) _ => remember k as pairs eqn:Hpairs end.
  destruct pairs as [|ir pairs].
  - assert (Hk : kept df = []) by (rewrite <-Hkp; done).
    apply hoare_ret'. intros w _ (Hw&l0&lrows&H1&H2&H3&H4&H5&H6&H7&H8&H9&H10).
    split; [done|]. exists l0, lrows. cbn [ds_append ds_log ds_files ds_mids ds_rows ds_before].
    rewrite filter_snoc, decide_True by done. destruct (Hmids _ _ H7 H8) as [Hm1 Hm2].
    split_and!; try done.
    + rewrite bind_app, bind_cons, Hk. cbn. by rewrite app_nil_r.
    + rewrite H5, fmap_app. f_equal. cbn [fmap list_fmap]. do 2 f_equal. symmetry.
      apply nil_length_inv. by rewrite Hkl', Hk.
    + by rewrite H6, fmap_app.
    + rewrite H9. unfold drop_count. rewrite fmap_app, Zsum_app. cbn. lia.
    + by rewrite fmap_app, foldl_app, H10.
  - clear Hkl. rewrite Hkp, Hpairs. clear ir pairs Hpairs Hkp Hlen.
    destruct (resolve_kept df Hl) as [ldata Hld].
    apply (hoare_pre _ _ (fun w => ∃ l0 lrows, (resolve_rows (records_in fs0) (s_recs s) (filter touched D ≫= kept) = Some l0
      ∧ tsel (out_names s) l0 = Ok lrows
    ∧ ds_log st = (fun df => build_bitmap df (kept_pos df)) <$> filter touched D
    ∧ ds_files st = df_path <$> filter touched D
    ∧ NoDup (ds_mids st)
    ∧ (∀ i, i ∈ ds_mids st ↔ i ∈ df_mid <$> filter touched D)
    ∧ ds_rows st = drop_count D
    ∧ ds_before st = foldl update_index_stats stats0 (df_stats <$> D)) ∧
     (((ainv E s lo [] (ds_append st) lrows w ∧ nonempty_writer (ds_append st)) ∧
        resolve_rows (old_view lo (w_fs w)) (s_recs s) (kept df) = Some ldata) ∧ wle lo w0 w))).
    { intros w _ (Hw&l0&lrows&H1&H2&H3&H4&H5&H6&H7&H8&H9&H10). exists l0, lrows. split_and!; try done.
      eapply resolve_rows_vle; [by apply fs0_vle|done]. }
    apply hoare_ex. intros l0. apply hoare_ex. intros lrows. apply hoare_pure.
    intros (H1&H2&H5&H6&H7&H8&H9&H10).
    eapply hoare_bind.
    { eapply (hoare_frame _ _ _ _ (fun w => wle lo w0 w)); [intros; by eapply wle_trans|].
      apply (append_write_spec E O s lo true [] (ds_append st) lrows (kept df) ldata). }
    intros ap. apply hoare_ret'. intros w _ [(Hne&add&Hadd&Ha) Hw].
    split; [done|]. exists (l0 ++ ldata), (lrows ++ add). cbn [ds_append ds_log ds_files ds_mids ds_rows ds_before].
    rewrite filter_snoc, decide_True by done. destruct (Hmids _ _ H7 H8) as [Hm1 Hm2].
    split_and!; try done.
    + rewrite bind_app, bind_cons. cbn. rewrite app_nil_r. apply mapM_app_Some. eauto.
    + apply rmapM_app. eauto.
    + rewrite H5, fmap_app. done.
    + by rewrite H6, fmap_app.
    + rewrite H9. unfold drop_count. rewrite fmap_app, Zsum_app. cbn. lia.
    + by rewrite fmap_app, foldl_app, H10.
Qed.

Lemma delete_files_spec D st dfs :
  Forall listed dfs → hoare lo (dinv D st) (foldM_st (delete_file E O s e) st dfs) (fun st' w => dinv (D ++ dfs) st' w).
Proof.
  intros Hl. revert D st. induction Hl as [|df dfs Hdf _ IH]; intros D st; simpl.
  - apply hoare_ret'. by rewrite app_nil_r.
  - eapply hoare_bind; [by apply delete_file_spec|]. intros st'. specialize (IH (D ++ [df]) st').
    by rewrite <-app_assoc in IH.
Qed.

Lemma drop_count_cons df D :
  drop_count (df :: D) = (Z.of_nat (length (drows df)) - Z.of_nat (length (kept df)) + drop_count D)%Z.
Proof. done. Qed.
Lemma drop_count_nonneg D : (0 ≤ drop_count D)%Z.
Proof.
  induction D as [|df D IH]; [done|]. rewrite drop_count_cons. pose proof (kept_le df). lia.
Qed.
Lemma drop_count_zero D : drop_count D = 0%Z → Forall (fun df => ¬ touched df) D.
Proof.
  induction D as [|df D IH]; [constructor|]. rewrite drop_count_cons. intros H.
  pose proof (drop_count_nonneg D). pose proof (kept_le df).
  constructor; [unfold touched; lia|]. apply IH. lia.
Qed.
Lemma not_touched_kept df : ¬ touched df → kept df = drows df.
Proof.
  unfold touched, kept. intros H. apply dec_stable in H. revert H.
  generalize (drows df). intros l. induction l as [|r l IH]; [done|].
  rewrite filter_cons. case_decide; cbn; intros Hl; [f_equal; auto|].
  exfalso. pose proof (filter_length (fun r => matches (EUn FnNot e) r = true) l). lia.
Qed.

(** Bytes recorded: of the files added, and of the files lost, less those of all
    files looked at. *)
Definition delete_bytes (st : stats) (added lost : list mrow) (seen : list stats) : Prop :=
  st_cb st = (Zsum (mr_cb <$> added) + Zsum (mr_cb <$> lost) - Zsum (st_cb <$> seen))%Z
  ∧ st_ub st = (Zsum (mr_ub <$> added) + Zsum (mr_ub <$> lost) - Zsum (st_ub <$> seen))%Z.
Lemma stats_sum l st :
  st_cb (foldl update_index_stats st l) = (st_cb st + Zsum (st_cb <$> l))%Z
  ∧ st_ub (foldl update_index_stats st l) = (st_ub st + Zsum (st_ub <$> l))%Z.
Proof.
  revert st. induction l as [|x l IH]; intros st; [cbn; lia|]. rewrite !fmap_cons. cbn [foldl].
  destruct (IH (update_index_stats st x)) as [-> ->]. unfold Zsum. cbn. lia.
Qed.
Definition delete_out (fset : file_set) (op : option patch) (w : world) : Prop :=
  let T := filter touched (fset_files fset) in
  match op with
  | None => T = []
  | Some p => T ≠ [] ∧ ∃ mids mans lkept, NoDup mids
      ∧ (∀ i, i ∈ mids ↔ i ∈ df_mid <$> T)
      ∧ Forall2 (fun i q => fset_mans fset !! i = Some q) mids mans
      ∧ pa_del_idx p = mans
      ∧ resolve_rows (records_in fs0) (s_recs s) (T ≫= kept) = Some lkept
      ∧ let survivors := filter (fun m => mr_path m ∉ df_path <$> T) (mans ≫= man_at fs0) in
        (match lkept with
         | [] => pa_add_idx p = []
         | _ => ∃ u ms, pa_add_idx p = [PGen KIdxMan u] ∧ (lo ≤ u)%N ∧ (u < w_next w)%N
             ∧ w_fs w !! PGen KIdxMan u = Some (FIdxMan (survivors ++ ms))
             ∧ Forall (wf_mrow s (w_fs w)) ms
             ∧ Forall (fun m => file_rows (w_fs w) (mr_path m) ≠ []) ms
             ∧ Forall (fun m => ∃ k, mr_path m = PGen KIndex k ∧ (lo ≤ k)%N ∧ (k < w_next w)%N) ms
             ∧ resolve_rows (records_in (w_fs w)) (s_recs s) (man_rows (w_fs w) ms) = Some lkept
         end)
      ∧ pa_add_rec p = []
      ∧ pa_log p = Some (ChangeLog ((fun df => build_bitmap df (kept_pos df)) <$> T) [])
      ∧ st_rows (pa_stats p) = (- drop_count (fset_files fset))%Z
      ∧ delete_bytes (pa_stats p) (pa_add_idx p ≫= man_at (w_fs w))
          (match pa_add_idx p with [] => survivors | _ => [] end) (df_stats <$> fset_files fset)
  end.

Lemma read_mans_spec (mans : list path) w :
  Forall (wf_man s fs0) mans → wle lo w0 w →
  ∃ ts, mapM_st read_idx_man mans w = (w, Ok ts) ∧ concat ts = mans ≫= man_at fs0.
Proof.
  intros Hm Hw. induction Hm as [|p mans Hp _ (ts&IH&Hts)]; [by exists []|].
  destruct Hp as (ms&Hp&_). exists (ms :: ts).
  split; [|rewrite bind_cons; cbn; unfold man_at at 1; by rewrite Hp, Hts].
  cbn [mapM_st]. erewrite bind_run; [erewrite bind_run; [done|exact IH]|].
  unfold read_idx_man, read_file, bind. cbn.
  by rewrite (wle_lookup _ _ _ _ Hw (Hb0 _ _ Hp)), Hp.
Qed.

Lemma delete_op_spec fset :
  Forall listed (fset_files fset) →
  (∀ i q, fset_mans fset !! i = Some q → wf_man s fs0 q) →
  hoare lo (fun w => w = w0) (delete_op E O s e fset) (delete_out fset).
Proof.
  intros Hfiles Hmans. unfold delete_op. destruct (validate_files fset); [|apply hoare_raise].
  eapply hoare_bind.
  { eapply hoare_pre; [|apply (delete_files_spec [] _ _ Hfiles)].
    intros w _ ->. split; [apply wle_refl|]. exists [], []. cbn.
    split_and!; try done; [by apply append_init_inv|by left|apply NoDup_nil_2]. }
  intros st. cbn [app].
  destruct (ds_rows st =? 0)%Z eqn:Hz.
  { apply Z.eqb_eq in Hz. apply hoare_ret'. intros w _ (Hw&l0&lrows&H1&H2&H3&H4&H5&H6&H7&H8&H9&H10).
    cbn. rewrite Hz in H9. symmetry in H9. apply drop_count_zero in H9.
    induction H9; [done|]. rewrite filter_cons, decide_False by done.
    inversion Hfiles; subst. clear - H9. induction H9; [done|]. by rewrite filter_cons, decide_False. }
  apply Z.eqb_neq in Hz. apply hoare_lift_bind. intros mans Hmids.
  apply rmapM_ok in Hmids.
  assert (Hm2 : Forall2 (fun i q => fset_mans fset !! i = Some q) (ds_mids st) mans).
  { eapply Forall2_impl; [exact Hmids|]. intros i q. by rewrite of_opt_ok. }
  assert (Hwfm : Forall (wf_man s fs0) mans).
  { clear - Hm2 Hmans. induction Hm2; constructor; eauto. }
  set (T := filter touched (fset_files fset)).
  apply (hoare_pre _ _ (fun w => ∃ l0 lrows, (resolve_rows (records_in fs0) (s_recs s) (T ≫= kept) = Some l0
      ∧ tsel (out_names s) l0 = Ok lrows ∧ nonempty_writer (ds_append st)
    ∧ ds_log st = (fun df => build_bitmap df (kept_pos df)) <$> T
    ∧ ds_files st = df_path <$> T
    ∧ NoDup (ds_mids st)
    ∧ (∀ i, i ∈ ds_mids st ↔ i ∈ df_mid <$> T)
    ∧ ds_rows st = drop_count (fset_files fset)
    ∧ ds_before st = foldl update_index_stats stats0 (df_stats <$> fset_files fset)) ∧
     (wle lo w0 w ∧ ainv E s lo [] (ds_append st) lrows w))).
  { intros w _ (Hw&l0&lrows&H1&H2&H3&H4&H5&H6&H7&H8&H9&H10). exists l0, lrows. by split_and!. }
  apply hoare_ex. intros l0. apply hoare_ex. intros lrows. apply hoare_pure.
  intros (H1&H2&H4&H5&H6&H7&H8&H9&H10).
  assert (HT : T ≠ []).
  { intros HT. apply Hz. rewrite H9. clear - HT. unfold T in HT. induction (fset_files fset) as [|df D IH]; [done|].
    rewrite filter_cons in HT. case_decide as Ht; [done|]. rewrite drop_count_cons.
    specialize (IH HT). unfold touched in Ht. lia. }
  eapply hoare_bind; [apply hoare_readonly, readonly_mapM, readonly_read_idx_man|].
  intros ts.
  apply (hoare_pre _ _ (fun w => concat ts = mans ≫= man_at fs0 ∧ wle lo w0 w ∧ ainv E s lo [] (ds_append st) lrows w)).
  { intros w _ [Hr [Hw Ha]]. split; [|done]. destruct (read_mans_spec mans w Hwfm Hw) as (ts'&Hts'&Hc).
    rewrite Hr in Hts'. by simplify_eq. }
  apply hoare_pure. intros ->. rewrite H6.
  set (survivors := filter (fun m => mr_path m ∉ df_path <$> T) (mans ≫= man_at fs0)).
  eapply hoare_bind.
  { eapply hoare_pre; [|eapply (hoare_frame _ _ _ _ (fun w => wle lo w0 w)); [intros; by eapply wle_trans|
      apply (append_finish_spec E s lo survivors (append_index_manifest (ds_append st) survivors) lrows)]].
    intros w _ [Hw Ha]. split; [|done]. split; [|exact H4].
    destruct Ha. split; simpl; try done. by rewrite ai_cached. }
  intros re. apply hoare_ret'. intros w _ [Hre Hw]. unfold delete_out. fold T. split; [done|].
  exists (ds_mids st), mans, l0. cbn [pa_del_idx pa_add_idx pa_add_rec pa_log pa_stats].
  fold survivors. split_and!; try done.
  - destruct re as [pre|].
    + pose proof (append_out_adds _ _ _ _ _ _ _ _ Hre H2) as
        (ms&rms&u&Hne&Hadd&Hlo&Hhi&Hman&Hms&Hnem&Hk&Hres&Hrec&Hrman&Hout&Hdel&Hlog&Hstats&Hrows).
      assert (l0 = lrows) as ->.
      { rewrite Hout in H2. assert (tsel (s_names s) l0 = Ok l0) as H2'; [|congruence].
        apply tsel_id; [apply Hwf|].
        eapply resolve_names; [|exact H1]. apply Forall_forall. intros r (df&Hr&Hdf)%elem_of_list_bind.
        apply elem_of_list_filter in Hdf as [_ Hdf]. eapply Forall_forall in Hdf; [|exact Hfiles].
        apply elem_of_list_filter in Hr as [_ Hr]. unfold drows in Hr.
        destruct Hdf as (_&_&m&Hm&Hp&_). rewrite Hp in Hr. apply wf_mrow_conforms in Hm.
        eapply Forall_forall in Hm; [|exact Hr]. by apply conforms_names. }
      destruct lrows as [|r0 lrows]; [done|]. exists u, ms. by split_and!.
    + destruct Hre as [_ ->]. destruct l0 as [|r l0]; [done|]. apply tsel_ok in H2. inversion H2.
  - rewrite H5. destruct T; [done|]. done.
  - cbn. by rewrite H9.
  - cbn. rewrite H10. destruct (stats_sum (df_stats <$> fset_files fset) stats0) as [Hc Hu].
    unfold delete_bytes. cbn [st_cb st_ub]. rewrite Hc, Hu. cbn [st_cb st_ub stats0].
    destruct re as [pre|].
    + pose proof (append_out_adds _ _ _ _ _ _ _ _ Hre H2) as
        (ms&rms&u&Hne&Hadd&Hlo&Hhi&Hman&Hms&Hnem&Hk&Hres&Hrec&Hrman&Hout&Hdel&Hlog&Hstats&Hrows).
      rewrite Hadd, Hstats. cbn [mbind list_bind]. unfold man_at at 1 2. rewrite Hman, app_nil_r, !fmap_app, !Zsum_app. cbn. lia.
    + cbn. lia.
Qed.
End delete.
