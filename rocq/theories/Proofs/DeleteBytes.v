(** What a delete does to the byte statistics. *)
From Verif.Model Require Import System.
From Verif.Spec Require Import Logical Api Pruning Layout Sizes.
From Verif.Proofs Require Import Lib World Resolve ReadSpec SchemaFacts AppendSpec Wf Inv FileSet Ops Bodies SysInv OpSpec Effects Observe
  ReadRun Reads View Prune DeleteEffect Mutations Calls Txn Evolve Durable Serial Succeeds DeleteExact.

Lemma Zsum_perm l k : l ≡ₚ k → Zsum l = Zsum k.
Proof. unfold Zsum. induction 1; cbn; lia. Qed.

Lemma cut_unique fs qs m1 m2 :
  Forall2 (cut_like fs) qs m1 → Forall2 (cut_like fs) qs m2 → rows_of (concat m1) = rows_of (concat m2) → m1 = m2.
Proof.
  assert (Hone : ∀ ms k1 k2 t1 t2,
    Forall2 (fun m (f : path * list row) => f.1 = mr_path m ∧ length f.2 = length (file_table fs (mr_path m))) ms k1 →
    Forall2 (fun m (f : path * list row) => f.1 = mr_path m ∧ length f.2 = length (file_table fs (mr_path m))) ms k2 →
    rows_of k1 ++ t1 = rows_of k2 ++ t2 → k1 = k2 ∧ t1 = t2).
  { induction ms as [|m ms IH]; intros k1 k2 t1 t2 H1 H2 Heq.
    - apply Forall2_nil_inv_l in H1 as ->. apply Forall2_nil_inv_l in H2 as ->. done.
    - apply Forall2_cons_inv_l in H1 as ([p1 r1]&k1'&[Hp1 Hl1]&H1&->).
      apply Forall2_cons_inv_l in H2 as ([p2 r2]&k2'&[Hp2 Hl2]&H2&->). cbn [fst snd] in *.
      unfold rows_of in Heq. rewrite !fmap_cons in Heq. cbn [concat snd] in Heq. rewrite <-!app_assoc in Heq.
      apply app_inj_1 in Heq as [-> Heq]; [|congruence]. destruct (IH _ _ _ _ H1 H2 Heq) as [-> ->]. by subst. }
  revert m1 m2. induction qs as [|q qs IH]; intros m1 m2 H1 H2 Heq.
  - apply Forall2_nil_inv_l in H1 as ->. by apply Forall2_nil_inv_l in H2 as ->.
  - apply Forall2_cons_inv_l in H1 as (a1&b1&Ha1&Hb1&->). apply Forall2_cons_inv_l in H2 as (a2&b2&Ha2&Hb2&->).
    cbn [concat] in Heq. unfold rows_of in Heq. rewrite !fmap_app, !concat_app in Heq.
    destruct (Hone _ _ _ _ _ Ha1 Ha2 Heq) as [-> Heq']. f_equal. by apply IH.
Qed.
Lemma divides_unique σ hid before m1 m2 : divides σ hid before m1 → divides σ hid before m2 → m1 = m2.
Proof.
  intros (sn1&H1&Hc1&Hr1) (sn2&H2&Hc2&Hr2). rewrite H1 in H2. injection H2 as <-.
  eapply cut_unique; [done..|]. congruence.
Qed.

Lemma flat_cut {B} (R : mrow → B → Prop) (f : path → list mrow) l k :
  Forall2 (fun q man => Forall2 R (f q) man) l k → Forall2 R (l ≫= f) (concat k).
Proof. induction 1; [constructor|]. rewrite bind_cons. cbn [concat]. by apply Forall2_app. Qed.
Lemma gone_whole {B} (R : mrow → B → Prop) (P : mrow → Prop) (Q : B → Prop) `{∀ x, Decision (P x)} `{∀ x, Decision (Q x)}
    (f : path → list mrow) l k :
  Forall2 (fun q man => Forall2 R (f q) man) l k → (∀ m b, R m b → P m ↔ Q b) →
  Forall (fun man => Exists Q man → Forall Q man) k →
  (fst <$> filter (fun qm : path * list B => Exists Q qm.2) (zip l k)) ≫= f = filter P (l ≫= f).
Proof.
  intros Hc Hpq. induction Hc as [|q man l k Hq _ IH]; intros Hall; [done|].
  apply Forall_cons in Hall as [Hman Hall]. cbn [zip zip_with]. rewrite filter_cons, bind_cons, filter_app, <-IH by done. cbn [snd].
  destruct (decide (Exists Q man)) as [Hx|Hx].
  - rewrite fmap_cons, bind_cons. cbn [fst]. f_equal. rewrite filter_every; [done|]. intros m Hm.
    apply elem_of_list_lookup in Hm as [i Hi]. destruct (Forall2_lookup_l _ _ _ _ _ Hq Hi) as (b&Hb&Hr).
    apply (Hpq m b Hr). specialize (Hman Hx). eapply Forall_forall; [exact Hman|]. by eapply elem_of_list_lookup_2.
  - assert (filter P (f q) = []) as ->; [|done]. destruct (filter P (f q)) as [|m ms] eqn:Hm; [done|]. exfalso. apply Hx.
    assert (Hin : m ∈ filter P (f q)) by (rewrite Hm; left). apply elem_of_list_filter in Hin as [HP Hin].
    apply elem_of_list_lookup in Hin as [i Hi]. destruct (Forall2_lookup_l _ _ _ _ _ Hq Hi) as (b&Hb&Hr).
    apply Exists_exists. exists b. split; [by eapply elem_of_list_lookup_2|by apply (Hpq m b Hr)].
Qed.
Section bytes.
Context (s : schema) (e : filter_expr) (w : world) (mf : option sexpr) (base : snapshot) (old : list row).
Notation fs := (w_fs w).
Hypothesis Hbase : wf_snap s fs base.
Hypothesis Hold : snap_rows s fs base old.
Hypothesis Hig : ignores (s_recs s) e.
Notation fset := (fset_at fs mf (sn_idx base)).
Notation cs := (df_path <$> fset_files fset).
Notation rep := (rep s w base).
Context (mans : list (list (path * list row))).
Hypothesis Hcut : Forall2 (fun q man => Forall2 rep (man_at fs q) man) (sn_idx base) mans.

Lemma flat_rep : Forall2 rep (snap_mrows fs base) (concat mans).
Proof. by apply flat_cut. Qed.
Lemma hit_rewritten m : m ∈ snap_mrows fs base → hit e w mf m ↔ mr_path m ∈ fst <$> filter (rewritten cs e) (concat mans).
Proof.
  intros Hm. split.
  - intros Hh. apply elem_of_list_lookup in Hm as [i Hi]. destruct (Forall2_lookup_l _ _ _ _ _ flat_rep Hi) as (f&Hf&Hr).
    pose proof Hr as (_&Hp&_). apply elem_of_list_fmap. exists f. split; [done|]. apply elem_of_list_filter.
    split; [by apply (rep_hit s e w mf base old Hbase Hold Hig m f Hr)|by eapply elem_of_list_lookup_2].
  - intros (f&Hp&[Hrw Hf]%elem_of_list_filter)%elem_of_list_fmap. apply elem_of_list_lookup in Hf as [i Hi].
    destruct (Forall2_lookup_r _ _ _ _ _ flat_rep Hi) as (m'&Hm'&Hr). apply elem_of_list_lookup_2 in Hm'.
    apply (rep_hit s e w mf base old Hbase Hold Hig m' f Hr) in Hrw. pose proof Hr as (_&Hp'&_).
    apply (hit_iff s e w mf base Hbase m Hm). rewrite Hp, Hp'. by apply (hit_iff s e w mf base Hbase m' Hm').
Qed.
Lemma gone_mans ms :
  (∀ q, q ∈ ms ↔ q ∈ sn_idx base ∧ ∃ m, m ∈ man_at fs q ∧ hit e w mf m) → NoDup ms →
  fst <$> filter (fun qm => Exists (rewritten cs e) qm.2) (zip (sn_idx base) mans) ≡ₚ ms.
Proof.
  intros Hspec Hnd.
  assert (Heq : fst <$> filter (fun qm => Exists (rewritten cs e) qm.2) (zip (sn_idx base) mans)
    = filter (fun q => q ∈ ms) (sn_idx base)).
  { assert (Hin : ∀ q, q ∈ sn_idx base → q ∈ ms ↔ ∃ m, m ∈ man_at fs q ∧ hit e w mf m).
    { intros q Hq. rewrite Hspec. tauto. }
    clear Hspec Hnd. revert Hin. generalize (rep_hit s e w mf base old Hbase Hold Hig). generalize cs. intros cs0 Hrh.
    revert Hrh Hcut. generalize rep. intros R Hrh Hc. clear -Hc Hrh.
    induction Hc as [|q man qs mans' Hq Hrest IH]; intros Hin; [done|].
    cbn [zip zip_with]. rewrite !filter_cons. rewrite <-IH by (intros; apply Hin; by right).
    assert (q ∈ ms ↔ Exists (rewritten cs0 e) man) as Hiff.
    { rewrite Hin, Exists_exists by by left. split.
      - intros (m&Hm&Hh). apply elem_of_list_lookup in Hm as [i Hi]. destruct (Forall2_lookup_l _ _ _ _ _ Hq Hi) as (f&Hf&Hr).
        exists f. split; [by eapply elem_of_list_lookup_2|]. by apply (Hrh m f).
      - intros (f&Hf&Hh). apply elem_of_list_lookup in Hf as [i Hi]. destruct (Forall2_lookup_r _ _ _ _ _ Hq Hi) as (m&Hm&Hr).
        exists m. split; [by eapply elem_of_list_lookup_2|]. by apply (Hrh m f). }
    cbn [snd]. destruct (decide (Exists (rewritten cs0 e) man)), (decide (q ∈ ms)); try tauto. }
  rewrite Heq. apply NoDup_Permutation; [apply NoDup_filter; apply Hbase|done|].
  intros q. rewrite elem_of_list_filter. split; [by intros [? _]|]. intros Hq. split; [done|]. by apply Hspec.
Qed.

Lemma delete_excess pd w1 fs' sn sz :
  delete_out s e w fset (Some pd) w1 → keeps fs (w_fs w1) → keeps (w_fs w1) fs' →
  sn_idx sn = filter (fun x => x ∉ pa_del_idx pd) (sn_idx base) ++ pa_add_idx pd →
  sn_stats sn = update_record_bytes (update_index_stats (sn_stats base) (pa_stats pd)) (pa_stats pd) →
  wf_patch s (w_fs w1) pd → sz ∈ index_sizes →
  excess sz fs' sn = (excess sz fs base + sum_of (sz.1 <$> gone_files fs (sn_idx base) cs e mans)
     + sum_of (sz.1 <$> lost_files fs (sn_idx base) cs e mans) - sum_of (sz.2 <$> (df_stats <$> fset_files fset)))%Z.
Proof.
  intros Hout Hk1 Hk2 Hidx Hstats Hwp Hsz. pose proof Hout as (HT&mids&ms&lkept&Hnd&Hmids&Hf2&Hdel&Hres&Hadd&_&_&_&Hbytes).
  pose proof (mans_spec e w mf base mids ms Hmids Hf2) as Hspec.
  assert (Hndm : NoDup ms) by by eapply mans_nodup.
  pose proof (gone_mans ms Hspec Hndm) as Hgone.
  assert (Hgf : gone_files fs (sn_idx base) cs e mans ≡ₚ ms ≫= man_at fs).
  { unfold gone_files. rewrite Hgone. done. }
  (* lost files *)
  assert (Hkr : lkept = [] ↔ kept_rows cs e mans = []).
  { assert (Hh : shows s fs (man_rows fs (filter (hit e w mf) (snap_mrows fs base))) (rows_of (filter (rewritten cs e) (concat mans)))).
    { apply rep_rows with (base := base), Forall2_filter2; [apply flat_rep|]. intros m f _ Hr.
      by apply (rep_hit s e w mf base old Hbase Hold Hig). }
    assert (Hkept : (filter (touched e w) (fset_files fset) ≫= kept e w)
      = filter (fun r => matches (EUn FnNot e) r = true) (man_rows fs (filter (hit e w mf) (snap_mrows fs base)))).
    { etransitivity; [apply (touched_kept e w mf base)|apply left_rows]. }
    assert (Hyk : shows s fs (filter (fun r => matches (EUn FnNot e) r = true) (man_rows fs (filter (hit e w mf) (snap_mrows fs base))))
      (kept_rows cs e mans)).
    { apply Forall2_filter2; [done|]. intros r y Hr Hv. unfold stays.
      assert (matches (EUn FnNot e) y = matches (EUn FnNot e) r) as ->; [|done].
      eapply vrow_matches; [done| |by apply ignores_un].
      rewrite man_rows_bind in Hr. apply elem_of_list_bind in Hr as (m&Hr&[_ Hm]%elem_of_list_filter).
      by destruct (shown_row s fs base old m r Hbase Hold Hm Hr) as (_&?&_). }
    rewrite <-Hkept in Hyk. apply shows_iff in Hyk as (l&Hl&Hyk). rewrite Hl in Hres. injection Hres as ->.
    apply rmapM_ok, Forall2_length in Hyk. rewrite <-!length_zero_iff_nil. by rewrite Hyk. }
  set (sv := filter (fun m => mr_path m ∉ df_path <$> filter (touched e w) (fset_files fset)) (ms ≫= man_at fs)) in *.
  assert (Hlost : lost_files fs (sn_idx base) cs e mans ≡ₚ match pa_add_idx pd with [] => sv | _ => [] end).
  { unfold lost_files. destruct lkept as [|r0 lkept].
    - rewrite (proj1 Hkr eq_refl). rewrite Hadd. rewrite Hgf. unfold sv. erewrite filter_ext_in; [done|].
      intros m (q&Hm&Hq)%elem_of_list_bind. apply Hspec in Hq as [Hq _].
      assert (Hin : m ∈ snap_mrows fs base) by (apply elem_of_list_bind; eauto).
      rewrite <-(hit_rewritten m Hin). by rewrite (hit_iff s e w mf base Hbase m Hin).
    - destruct (kept_rows cs e mans) eqn:Hk; [by destruct Hkr as [_ Hx]; specialize (Hx eq_refl)|].
      destruct Hadd as (u&ms'&->&_). done. }
  (* all files before *)
  assert (Hall : snap_mrows fs base ≡ₚ (filter (fun x => x ∉ ms) (sn_idx base) ≫= man_at fs) ++ (ms ≫= man_at fs)).
  { unfold snap_mrows. rewrite <-bind_app. by rewrite <-(mans_split s e w mf base Hbase mids ms Hnd Hmids Hf2). }
  assert (Hafter : snap_mrows fs' sn = (filter (fun x => x ∉ ms) (sn_idx base) ≫= man_at fs) ++ (pa_add_idx pd ≫= man_at (w_fs w1))).
  { unfold snap_mrows. rewrite Hidx, Hdel, bind_app. f_equal.
    - apply (bind_man_keeps s fs fs'); [by eapply keeps_trans|].
      apply Forall_forall. intros q [_ Hq]%elem_of_list_filter. destruct Hbase as (_&Hwm&_). by eapply Forall_forall in Hwm.
    - apply (bind_man_keeps s (w_fs w1) fs'); [done|]. apply Hwp. }
  destruct Hbytes as [Hcb Hub]. unfold excess.
  change (files_of fs' sn) with (snap_mrows fs' sn). change (files_of fs base) with (snap_mrows fs base).
  change sum_of with Zsum.
  apply elem_of_cons in Hsz as [->|Hsz]; [|apply elem_of_list_singleton in Hsz as ->]; cbn [fst snd].
  - rewrite Hafter, fmap_app, Zsum_app. rewrite (Zsum_perm _ _ (fmap_Permutation mr_cb _ _ Hall)), fmap_app, Zsum_app.
    rewrite (Zsum_perm _ _ (fmap_Permutation mr_cb _ _ Hgf)), (Zsum_perm _ _ (fmap_Permutation mr_cb _ _ Hlost)).
    rewrite Hstats. cbn [st_cb update_record_bytes update_index_stats]. lia.
  - rewrite Hafter, fmap_app, Zsum_app. rewrite (Zsum_perm _ _ (fmap_Permutation mr_ub _ _ Hall)), fmap_app, Zsum_app.
    rewrite (Zsum_perm _ _ (fmap_Permutation mr_ub _ _ Hgf)), (Zsum_perm _ _ (fmap_Permutation mr_ub _ _ Hlost)).
    rewrite Hstats. cbn [st_ub update_record_bytes update_index_stats]. lia.
Qed.

Lemma whole_gone : rewrites_whole cs e mans → gone_files fs (sn_idx base) cs e mans = filter (hit e w mf) (snap_mrows fs base).
Proof.
  intros [_ Hall]. unfold gone_files, snap_mrows. change (manifest_rows fs) with (man_at fs).
  apply gone_whole with (R := rep); [done| |done]. intros m b Hr. by apply (rep_hit s e w mf base old Hbase Hold Hig).
Qed.
Lemma whole_lost : rewrites_whole cs e mans → lost_files fs (sn_idx base) cs e mans = [].
Proof.
  intros Hw. unfold lost_files. destruct (kept_rows cs e mans); [|done]. rewrite whole_gone by done.
  destruct (filter _ (filter _ _)) as [|m l] eqn:Hm; [done|]. exfalso.
  assert (Hin : m ∈ m :: l) by left. rewrite <-Hm in Hin. apply elem_of_list_filter in Hin as [Hn [Hh Hin]%elem_of_list_filter].
  by apply Hn, hit_rewritten.
Qed.
Lemma whole_seen : rewrites_whole cs e mans → df_stats <$> fset_files fset = mrow_stats <$> filter (hit e w mf) (snap_mrows fs base).
Proof.
  intros [Hc _].
  assert (df_stats <$> fset_files fset = mrow_stats <$> filter (fun m => mrow_matches mf m = true) (snap_mrows fs base)) as ->.
  { unfold snap_mrows. rewrite <-(picked_filter fs mf (sn_idx base) 1). cbn [fset_files fset_at]. generalize (picked fs mf (sn_idx base) 1). intros l.
    induction l as [|x l IH]; [done|]. unfold picked_files in *. rewrite !bind_cons, !fmap_app, IH.
    f_equal. rewrite <-list_fmap_compose. by apply list_fmap_ext. }
  f_equal. apply filter_ext_in. intros m Hm. split; [|by intros [? _]]. intros Hmm.
  apply elem_of_list_lookup in Hm as [i Hi]. destruct (Forall2_lookup_l _ _ _ _ _ flat_rep Hi) as (f&Hf&Hr).
  apply (rep_hit s e w mf base old Hbase Hold Hig m f Hr).
  eapply Forall_forall in Hc; [apply Hc|by eapply elem_of_list_lookup_2].
  destruct Hr as (_&->&_). rewrite fset_files_filter. apply elem_of_list_fmap. exists m. split; [done|].
  apply elem_of_list_filter. split; [done|]. by eapply elem_of_list_lookup_2.
Qed.
Lemma whole_balance sz : sz ∈ index_sizes → rewrites_whole cs e mans →
  (sum_of (sz.1 <$> gone_files fs (sn_idx base) cs e mans)
     + sum_of (sz.1 <$> lost_files fs (sn_idx base) cs e mans) - sum_of (sz.2 <$> (df_stats <$> fset_files fset)) = 0)%Z.
Proof.
  intros Hsz Hw. rewrite whole_gone, whole_lost, whole_seen by done. rewrite <-list_fmap_compose.
  apply elem_of_cons in Hsz as [->|Hsz]; [|apply elem_of_list_singleton in Hsz as ->]; cbn [fst snd].
  - change (st_cb ∘ mrow_stats) with mr_cb. cbn. lia.
  - change (st_ub ∘ mrow_stats) with mr_ub. cbn. lia.
Qed.
End bytes.

Lemma delete_bytes_exact σ hid s E fo e st before fset sn mans :
  reachable σ → schema_at σ hid = Some s → current σ hid = Some sn → reads σ hid None before → ignores (s_recs s) e →
  result σ hid (candidates e) = Some (Ok fset) → divides σ hid before mans →
  result σ hid (run_delete E fo e) = Some (Ok (JSucceeded st)) →
  let cs := df_path <$> fset_files fset in
  let fs := w_fs (y_world σ) in
  let σ' := after σ hid (run_delete E fo e) in
  ∃ sn', current σ' hid = Some sn' ∧ ∀ sz, sz ∈ index_sizes →
    excess sz (w_fs (y_world σ')) sn' = (excess sz fs sn + sum_of (sz.1 <$> gone_files fs (sn_idx sn) cs e mans)
      + sum_of (sz.1 <$> lost_files fs (sn_idx sn) cs e mans) - sum_of (sz.2 <$> (df_stats <$> fset_files fset)))%Z.
Proof.
  intros Hr Hsch Hcur Hb Hig Hc Hdiv Hres cs fs σ'.
  destruct (op_before σ hid s E fo (ODelete e) st before Hr) as (h&p&m&h'&base&sn'&pa&w1&q&H1&H2&Hd&Hold&Hlay&Hrd);
    [by intros ??|done..|].
  pose proof (od_base _ _ _ _ _ _ _ _ _ _ _ _ _ Hd) as Hsn.
  assert (base = sn) as -> by (rewrite (current_eq _ _ _ _ _ _ H1) in Hcur; congruence).
  destruct (candidates_run _ _ _ _ _ _ _ _ _ H1 Hsn Hc) as (mf&Hmf&->).
  destruct (cut s (y_world σ) sn before Hold) as (mans'&Hcut&Hrows).
  assert (mans' = mans) as -> by (exact (divides_unique σ hid before _ _ (cut_divides _ _ _ _ _ _ _ _ _ H1 Hsn Hcut Hrows) Hdiv)).
  pose proof (od_idx _ _ _ _ _ _ _ _ _ _ _ Hd) as Hidx.
  pose proof (od_effect _ _ _ _ _ _ _ _ _ _ _ _ _ Hd) as [(h0&Hbr&Hm0'&(sn0&mf'&Hg&Hmf'&Hout)) Hwp _ _ Hwb (i&t&(_&_&_&_&Hstats&_)) Hk1 Hk2].
  rewrite (od_same_base _ _ _ _ _ _ _ _ _ _ _ _ _ (od_effect _ _ _ _ _ _ _ _ _ _ _ _ _ Hd) Hbr Hm0' Hg) in Hout.
  assert (mf' = mf) as -> by congruence.
  exists sn'. split.
  - etransitivity; [exact (current_eq _ _ _ _ _ _ H2)|]. rewrite (od_branch _ _ _ _ _ _ _ _ _ _ _ _ _ Hd).
    by rewrite snap_of_with_snap.
  - intros sz Hsz. by eapply (delete_excess s e (y_world σ) mf sn before Hwb Hold Hig mans Hcut pa w1).
Qed.
Lemma delete_bytes_whole σ hid s E fo e st before fset sn mans :
  reachable σ → schema_at σ hid = Some s → current σ hid = Some sn → reads σ hid None before → ignores (s_recs s) e →
  result σ hid (candidates e) = Some (Ok fset) → divides σ hid before mans →
  rewrites_whole (df_path <$> fset_files fset) e mans →
  result σ hid (run_delete E fo e) = Some (Ok (JSucceeded st)) →
  let σ' := after σ hid (run_delete E fo e) in
  ∃ sn', current σ' hid = Some sn' ∧ ∀ sz, sz ∈ index_sizes →
    excess sz (w_fs (y_world σ')) sn' = excess sz (w_fs (y_world σ)) sn.
Proof.
  intros Hr Hsch Hcur Hb Hig Hc Hdiv Hw Hres σ'.
  destruct (delete_bytes_exact σ hid s E fo e st before fset sn mans) as (sn'&Hsn'&Hex); try done.
  exists sn'. split; [done|]. intros sz Hsz. pose proof (Hex sz Hsz) as Hx. cbv zeta in Hx. unfold σ'. rewrite Hx. clear Hx Hex.
  destruct (result_handle _ _ _ _ Hc) as [h Hh].
  destruct (reachable_seen _ _ _ Hr Hh) as (s'&p&m&H1).
  assert (s' = s) as -> by (rewrite (sn_schema _ _ _ _ _ _ H1) in Hsch; congruence).
  apply (reads_iff _ _ _ _ _ _ _ _ H1) in Hb as Hb'. destruct Hb' as (base&Hsn&Hold).
  assert (base = sn) as -> by (rewrite (current_eq _ _ _ _ _ _ H1) in Hcur; congruence).
  destruct (candidates_run _ _ _ _ _ _ _ _ _ H1 Hsn Hc) as (mf&Hmf&->).
  destruct (cut s (y_world σ) sn before Hold) as (mans'&Hcut&Hrows).
  assert (mans' = mans) as -> by (exact (divides_unique σ hid before _ _ (cut_divides _ _ _ _ _ _ _ _ _ H1 Hsn Hcut Hrows) Hdiv)).
  assert (Hwb : wf_snap s (w_fs (y_world σ)) sn).
  { destruct (seen_sync _ _ _ _ _ _ H1) as (Hm0&Hb0&Hwf0&Hms).
    eapply (get_snapshot_wf _ _ (sync p m h)); [apply Hwf0|].
    apply (get_snapshot_snap_of _ m); [done|]. by rewrite Hb0. }
  pose proof (whole_balance s e (y_world σ) mf sn before Hwb Hold Hig mans Hcut sz Hsz Hw). lia.
Qed.

(** Tests for examples. *)
Definition cut_test (fs : fsys) (qs : list path) (mans : list (list (path * list row))) : bool :=
  bool_decide (Forall2 (fun q man => Forall2 (fun m (f : path * list row) =>
    f.1 = mr_path m ∧ length f.2 = length (file_table fs (mr_path m))) (manifest_rows fs q) man) qs mans).
Lemma cut_tested fs qs mans : cut_test fs qs mans = true → Forall2 (cut_like fs) qs mans.
Proof. unfold cut_test. by rewrite bool_decide_eq_true. Qed.
Definition whole_test (cs : list path) (e : filter_expr) (mans : list (list (path * list row))) : bool :=
  bool_decide (Forall (fun f => f.1 ∈ cs → rewritten cs e f) (concat mans)
    ∧ Forall (fun man => Exists (rewritten cs e) man → Forall (rewritten cs e) man) mans).
Lemma whole_tested cs e mans : whole_test cs e mans = true → rewrites_whole cs e mans.
Proof. unfold whole_test. by rewrite bool_decide_eq_true. Qed.
