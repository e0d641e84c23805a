(** Which rows a delete leaves. *)
From Verif.Model Require Import System.
From Verif.Spec Require Import Logical Pruning Layout.
From Verif.Proofs Require Import Lib FalsifySound World Resolve AppendSpec SchemaFacts ReadSpec Bounds Wf OpSpec
  Inv FileSet Ops Bodies Txn ReadRun Effects View Prune.

(** The statistics of a listed file depend on the file only. *)
Lemma wf_mrow_stats s fs m m' :
  wf_mrow s fs m → wf_mrow s fs m' → mr_path m = mr_path m' → mr_stats m = mr_stats m'.
Proof.
  intros (cols&gs&E&Hf&_&_&Hm&_) (cols'&gs'&E'&Hf'&_&_&Hm'&_) Hp.
  rewrite Hp, Hf' in Hf. injection Hf as <- <-. unfold manifest_row in Hm, Hm'.
  apply rbind_ok in Hm as (c&Hc&[= <-]). apply rbind_ok in Hm' as (c'&Hc'&[= <-]). cbn.
  rewrite Hc in Hc'. by injection Hc'.
Qed.
Lemma wf_mrow_matches_same s fs m m' mf :
  wf_mrow s fs m → wf_mrow s fs m' → mr_path m = mr_path m' → mrow_matches mf m = mrow_matches mf m'.
Proof.
  intros Hm Hm' Hp. pose proof (wf_mrow_stats _ _ _ _ Hm Hm' Hp) as Hs.
  destruct mf as [e|]; [|done]. cbn. f_equal. unfold stat_look. by rewrite Hs.
Qed.

Lemma submseteq_NoDup {A} (l k : list A) : l ⊆+ k → NoDup k → NoDup l.
Proof. intros [l' Hl]%submseteq_Permutation. rewrite Hl. by intros [? _]%NoDup_app. Qed.
Lemma filter_split {A} (P : A → Prop) `{∀ x, Decision (P x)} (l : list A) :
  l ≡ₚ filter P l ++ filter (fun x => ¬ P x) l.
Proof.
  induction l as [|x l IH]; [done|]. rewrite !filter_cons. destruct (decide (P x)).
  - rewrite decide_False by naive_solver. cbn. by constructor.
  - rewrite decide_True by done. rewrite <-Permutation_middle. by constructor.
Qed.
Lemma filter_none {A} (P : A → Prop) `{∀ x, Decision (P x)} (l : list A) : (∀ x, x ∈ l → ¬ P x) → filter P l = [].
Proof.
  induction l as [|x l IH]; intros Hn; [done|]. rewrite filter_cons, decide_False by set_solver. apply IH. set_solver.
Qed.
Lemma filter_every {A} (P : A → Prop) `{∀ x, Decision (P x)} (l : list A) : (∀ x, x ∈ l → P x) → filter P l = l.
Proof.
  induction l as [|x l IH]; intros Hn; [done|]. rewrite filter_cons, decide_True by set_solver.
  f_equal. apply IH. set_solver.
Qed.
Lemma filter_length_every {A} (P : A → Prop) `{∀ x, Decision (P x)} (l : list A) :
  length (filter P l) = length l → filter P l = l.
Proof.
  induction l as [|x l IH]; [done|]. rewrite filter_cons. case_decide.
  - cbn. intros [= Hl]. by rewrite IH.
  - pose proof (filter_length P l). cbn. lia.
Qed.

Section shape.
Context (s : schema) (e : filter_expr) (w : world) (mf : option sexpr) (base : snapshot).
Hypothesis Hbase : wf_snap s (w_fs w) base.
Notation fs := (w_fs w).
Definition left_in (p : path) : list row :=
  filter (fun r => matches (EUn FnNot e) r = true) (file_rows fs p).
Definition hit_path (p : path) : Prop := length (left_in p) ≠ length (file_rows fs p).
Definition hit (m : mrow) : Prop := mrow_matches mf m = true ∧ hit_path (mr_path m).
#[global] Instance hit_dec m : Decision (hit m).
Proof. unfold hit, hit_path. apply _. Defined.
Notation fset := (fset_at fs mf (sn_idx base)).
Notation T := (filter (touched e w) (fset_files fset)).

Lemma base_mrows_wf m : m ∈ snap_mrows fs base → wf_mrow s fs m.
Proof.
  unfold snap_mrows. intros (q&Hm&Hq)%elem_of_list_bind. destruct Hbase as (_&Hall&_).
  eapply Forall_forall in Hall; [|exact Hq]. apply wf_man_at in Hall as [_ Hall].
  by eapply Forall_forall in Hall.
Qed.
Lemma filter_fmap_path {A B} (f : A → B) (P : B → Prop) (Q : A → Prop)
    `{∀ x, Decision (P x)} `{∀ x, Decision (Q x)} (l : list A) :
  (∀ x, Q x ↔ P (f x)) → f <$> filter Q l = filter P (f <$> l).
Proof.
  intros Hpq. induction l as [|x l IH]; [done|]. rewrite fmap_cons, !filter_cons.
  specialize (Hpq x). repeat case_decide; try naive_solver. by rewrite fmap_cons, IH.
Qed.
#[global] Instance hit_path_dec p : Decision (hit_path p).
Proof. unfold hit_path. apply _. Defined.
Lemma touched_paths : df_path <$> T = mr_path <$> filter hit (snap_mrows fs base).
Proof.
  rewrite (filter_fmap_path df_path hit_path (touched e w)) by done.
  rewrite fset_files_filter.
  rewrite <-(filter_fmap_path mr_path hit_path (fun m => hit_path (mr_path m))) by done.
  rewrite list_filter_filter. f_equal. apply filter_ext_in. intros m _. unfold hit. tauto.
Qed.
Lemma touched_kept : (T ≫= kept e w) = filter hit (snap_mrows fs base) ≫= (fun m => left_in (mr_path m)).
Proof.
  transitivity ((df_path <$> T) ≫= left_in).
  - generalize T. intros l. induction l as [|x l IH]; [done|]. rewrite fmap_cons, !bind_cons, IH. done.
  - rewrite touched_paths. generalize (filter hit (snap_mrows fs base)). intros l.
    induction l as [|x l IH]; [done|]. by rewrite fmap_cons, !bind_cons, IH.
Qed.

Context (mids : list nat) (mans : list path).
Hypothesis Hmids : NoDup mids.
Hypothesis Hmids_in : ∀ i, i ∈ mids ↔ i ∈ df_mid <$> T.
Hypothesis Hf2 : Forall2 (fun i q => fset_mans fset !! i = Some q) mids mans.

Lemma mans_spec q : q ∈ mans ↔ q ∈ sn_idx base ∧ ∃ m, m ∈ man_at fs q ∧ hit m.
Proof.
  split.
  - intros Hq. apply elem_of_list_lookup in Hq as [k Hq].
    destruct (Forall2_lookup_r _ _ _ _ _ Hf2 Hq) as (i&Hi&Hm).
    apply elem_of_list_lookup_2, Hmids_in, elem_of_list_fmap in Hi as (df&->&[Ht Hdf]%elem_of_list_filter).
    cbn in Hdf. apply elem_of_list_bind in Hdf as (x&Hdf&Hx). apply elem_of_list_fmap in Hdf as (m&->&Hmx).
    cbn in Hm. rewrite (picked_mans_in _ x (picked_nodup _ _ _ _) Hx) in Hm. injection Hm as <-.
    apply picked_spec in Hx as (Hx1&Hx2&_). split; [done|]. exists m. rewrite Hx2 in Hmx.
    apply elem_of_list_filter in Hmx as [Hmt Hin]. by split_and!.
  - intros (Hq&m&Hm&Hmt&Hhit).
    destruct (picked_complete fs mf (sn_idx base) 1 q m Hq Hm Hmt) as (x&Hx&<-&Hmx).
    assert (Hi : x.1.1 ∈ mids).
    { apply Hmids_in, elem_of_list_fmap. exists (mk_df x.1.1 m). split; [done|]. apply elem_of_list_filter.
      split; [done|]. cbn. apply elem_of_list_bind. exists x. split; [|done]. apply elem_of_list_fmap. eauto. }
    apply elem_of_list_lookup in Hi as [k Hk]. destruct (Forall2_lookup_l _ _ _ _ _ Hf2 Hk) as (q&Hq'&Hl).
    cbn in Hl. rewrite (picked_mans_in _ x (picked_nodup _ _ _ _) Hx) in Hl. injection Hl as <-.
    by eapply elem_of_list_lookup_2.
Qed.
Lemma mans_nodup : NoDup mans.
Proof.
  apply NoDup_alt. intros i j q Hi Hj.
  destruct (Forall2_lookup_r _ _ _ _ _ Hf2 Hi) as (a&Ha&Hqa).
  destruct (Forall2_lookup_r _ _ _ _ _ Hf2 Hj) as (b&Hb&Hqb).
  cbn in Hqa, Hqb.
  apply picked_mans_inv in Hqa as (x&Hx&<-&Hxq); [|apply picked_nodup].
  apply picked_mans_inv in Hqb as (y&Hy&<-&Hyq); [|apply picked_nodup].
  assert (x = y) as ->.
  { apply elem_of_list_lookup in Hx as [k Hk]. apply elem_of_list_lookup in Hy as [l Hl].
    assert (k = l) as ->; [|congruence].
    eapply (NoDup_lookup ((fun x => x.1.2) <$> picked fs mf (sn_idx base) 1) k l q).
    - destruct Hbase as [Hnd _]. eapply submseteq_NoDup; [|exact Hnd].
      apply sublist_submseteq, picked_paths.
    - by rewrite list_lookup_fmap, Hk; cbn; rewrite Hxq.
    - by rewrite list_lookup_fmap, Hl; cbn; rewrite Hyq. }
  by eapply NoDup_lookup.
Qed.

Lemma hit_iff m : m ∈ snap_mrows fs base → hit m ↔ mr_path m ∈ df_path <$> T.
Proof.
  intros Hm. rewrite touched_paths. split.
  - intros Hh. apply elem_of_list_fmap. exists m. split; [done|]. by apply elem_of_list_filter.
  - intros (m'&Hp&[[Hmt Hh] Hm']%elem_of_list_filter)%elem_of_list_fmap. split; [|by rewrite Hp].
    rewrite <-Hmt. eapply wf_mrow_matches_same; [| |exact Hp]; by apply base_mrows_wf.
Qed.
Definition apart : list mrow := filter (fun q => q ∉ mans) (sn_idx base) ≫= man_at fs.
Definition survivors : list mrow := filter (fun m => mr_path m ∉ df_path <$> T) (mans ≫= man_at fs).
Lemma mans_split : sn_idx base ≡ₚ filter (fun q => q ∉ mans) (sn_idx base) ++ mans.
Proof.
  rewrite (filter_split (fun q => q ∉ mans) (sn_idx base)) at 1. f_equiv.
  apply NoDup_Permutation; [apply NoDup_filter; apply Hbase|apply mans_nodup|].
  intros q. rewrite elem_of_list_filter. split.
  - intros [Hq _]. by destruct (decide (q ∈ mans)).
  - intros Hq. split; [naive_solver|]. by apply mans_spec.
Qed.
Lemma apart_miss m : m ∈ apart → m ∈ snap_mrows fs base ∧ ¬ hit m.
Proof.
  unfold apart. intros (q&Hm&[Hq Hin]%elem_of_list_filter)%elem_of_list_bind. split.
  - apply elem_of_list_bind. eauto.
  - intros Hh. apply Hq, mans_spec. eauto.
Qed.
Lemma survivors_miss m : m ∈ survivors → m ∈ snap_mrows fs base ∧ ¬ hit m.
Proof.
  unfold survivors. intros [Hp Hm]%elem_of_list_filter.
  assert (Hin : m ∈ snap_mrows fs base).
  { apply elem_of_list_bind in Hm as (q&Hm&Hq). apply elem_of_list_bind. exists q. split; [done|]. by apply mans_spec. }
  split; [done|]. by rewrite hit_iff.
Qed.
Lemma delete_shape : snap_mrows fs base ≡ₚ apart ++ survivors ++ filter hit (snap_mrows fs base).
Proof.
  assert (Hs : snap_mrows fs base ≡ₚ apart ++ (mans ≫= man_at fs)).
  { unfold snap_mrows. rewrite mans_split at 1. by rewrite bind_app. }
  rewrite Hs at 1. f_equiv. rewrite Hs, filter_app.
  rewrite (filter_none hit apart) by (intros m Hm; by apply apart_miss). cbn [app].
  rewrite (filter_split hit (mans ≫= man_at fs)) at 1.
  rewrite (Permutation_app_comm (filter hit _)). f_equiv. unfold survivors.
  rewrite (filter_ext_in (fun x => ¬ hit x) (fun m => mr_path m ∉ df_path <$> T)); [done|].
  intros m Hm. rewrite hit_iff; [done|].
  apply elem_of_list_bind in Hm as (q&Hm&Hq). apply elem_of_list_bind. exists q. split; [done|]. by apply mans_spec.
Qed.
(** Files that are not hit either have no row to drop, or are pruned. *)
Lemma miss_left m : m ∈ snap_mrows fs base → ¬ hit m → mrow_matches mf m = true →
  left_in (mr_path m) = file_rows fs (mr_path m).
Proof.
  intros Hm Hh Hmt. apply filter_length_every. unfold hit, hit_path, left_in in Hh.
  destruct (decide (length (filter (fun r => matches (EUn FnNot e) r = true) (file_rows fs (mr_path m)))
                    = length (file_rows fs (mr_path m)))); naive_solver.
Qed.
End shape.

(** The rows of a snapshot made by a delete, possibly together with added
    manifests [extra]. *)
Lemma man_rows_perm fs l l' : l ≡ₚ l' → man_rows fs l ≡ₚ man_rows fs l'.
Proof. intros Hl. rewrite !man_rows_bind. by rewrite Hl. Qed.
Lemma left_rows e w l :
  l ≫= (fun m => left_in e w (mr_path m)) = filter (fun r => matches (EUn FnNot e) r = true) (man_rows (w_fs w) l).
Proof. induction l as [|m l IH]; [done|]. by rewrite bind_cons, man_rows_cons, filter_app, IH. Qed.

Definition misses (e : filter_expr) (w : world) (mf : option sexpr) (base : snapshot) (m : mrow) : Prop :=
  m ∈ snap_mrows (w_fs w) base ∧ ¬ hit e w mf m.
Lemma delete_view s e w mf base pd w1 fs' sn extra xs old :
  wf_snap s (w_fs w) base →
  delete_out s e w (fset_at (w_fs w) mf (sn_idx base)) (Some pd) w1 →
  keeps (w_fs w) (w_fs w1) → keeps (w_fs w1) fs' →
  sn_idx sn = filter (fun x => x ∉ pa_del_idx pd) (sn_idx base) ++ pa_add_idx pd ++ extra →
  shows s fs' (man_rows fs' (extra ≫= man_at fs')) xs →
  snap_rows s (w_fs w) base old →
  ∃ am sm ya ys yh yk,
    snap_mrows (w_fs w) base ≡ₚ am ++ sm ++ filter (hit e w mf) (snap_mrows (w_fs w) base)
    ∧ (∀ m, m ∈ am ++ sm → misses e w mf base m)
    ∧ (∃ m, m ∈ snap_mrows (w_fs w) base ∧ hit e w mf m)
    ∧ (∀ m, m ∈ sm → ∃ q m', q ∈ sn_idx base ∧ m ∈ man_at (w_fs w) q ∧ m' ∈ man_at (w_fs w) q ∧ hit e w mf m')
    ∧ (∀ q m m', q ∈ sn_idx base → m ∈ man_at (w_fs w) q → m' ∈ man_at (w_fs w) q → hit e w mf m →
         ¬ hit e w mf m' → m' ∈ sm)
    ∧ old ≡ₚ ya ++ ys ++ yh
    ∧ shows s (w_fs w) (man_rows (w_fs w) am) ya
    ∧ shows s (w_fs w) (man_rows (w_fs w) sm) ys
    ∧ shows s (w_fs w) (man_rows (w_fs w) (filter (hit e w mf) (snap_mrows (w_fs w) base))) yh
    ∧ shows s (w_fs w) (filter (fun r => matches (EUn FnNot e) r = true)
                          (man_rows (w_fs w) (filter (hit e w mf) (snap_mrows (w_fs w) base)))) yk
    ∧ snap_rows s fs' sn (ya ++ match yk with [] => [] | _ => ys ++ yk end ++ xs).
Proof.
  intros Hb (HT&mids&mans&lkept&Hnd&Hmids&Hf2&Hdel&Hres&Hadd&Hrec&Hlog&_) Hk1 Hk2 Hidx Hx Hold.
  set (fs := w_fs w) in *. set (fset := fset_at fs mf (sn_idx base)) in *.
  set (T := filter (touched e w) (fset_files fset)) in *.
  pose proof (keeps_trans _ _ _ Hk1 Hk2) as Hk.
  set (am := apart w base mans). set (sm := survivors e w mf base mans).
  set (hm := filter (hit e w mf) (snap_mrows fs base)).
  pose proof (delete_shape s e w mf base Hb mids mans Hnd Hmids Hf2) as Hshape. fold am sm fs hm in Hshape.
  apply snap_rows_shows in Hold. unfold phys_rows in Hold.
  destruct (Forall2_perm_l _ _ _ _ (man_rows_perm fs _ _ Hshape) Hold) as (ys0&Hys0&Hp0).
  rewrite !man_rows_app in Hys0.
  apply Forall2_app_inv_l in Hys0 as (ya&y1&Hya&Hy1&->). apply Forall2_app_inv_l in Hy1 as (ys&yh&Hys&Hyh&->).
  destruct (shows_sub s fs _ (filter (fun r => matches (EUn FnNot e) r = true) (man_rows fs hm)) _ Hyh) as [yk Hyk].
  { by intros r [_ ?]%elem_of_list_filter. }
  exists am, sm, ya, ys, yh, yk. split_and!; try done.
  - intros m [Hm|Hm]%elem_of_app.
    + by apply (apart_miss e w mf base mids mans Hmids Hf2).
    + by apply (survivors_miss s e w mf base Hb mids mans Hmids Hf2).
  - pose proof (touched_paths e w mf base) as Htp. change (df_path <$> T = mr_path <$> hm) in Htp.
    destruct hm as [|m hm'] eqn:Hhm; [by destruct T|].
    assert (Hm : m ∈ hm) by (rewrite Hhm; set_solver). apply elem_of_list_filter in Hm as [??]. by exists m.
  - intros m [_ Hm]%elem_of_list_filter. apply elem_of_list_bind in Hm as (q&Hm&Hq).
    pose proof (proj1 (mans_spec e w mf base mids mans Hmids Hf2 q) Hq) as (Hq'&m'&Hm'&Hh). exists q, m'. done.
  - intros q m m' Hq Hm Hm' Hh Hh'.
    assert (Hqm : q ∈ mans) by (apply (mans_spec e w mf base mids mans Hmids Hf2); eauto).
    apply elem_of_list_filter. split; [|apply elem_of_list_bind; eauto].
    rewrite <-(hit_iff s e w mf base Hb); [done|]. apply elem_of_list_bind; eauto.
  - apply snap_rows_shows. unfold phys_rows, snap_mrows. rewrite Hidx, Hdel, !bind_app, !man_rows_app.
    assert (Hwfa : Forall (wf_mrow s fs) am).
    { apply Forall_forall. intros m Hm. eapply base_mrows_wf; [done|].
      by apply (apart_miss e w mf base mids mans Hmids Hf2). }
    assert (Hwfs : Forall (wf_mrow s fs) sm).
    { apply Forall_forall. intros m Hm. eapply base_mrows_wf; [done|].
      by apply (survivors_miss s e w mf base Hb mids mans Hmids Hf2). }
    assert (Hap : man_rows fs' (filter (fun x => x ∉ mans) (sn_idx base) ≫= man_at fs') = man_rows fs am).
    { rewrite (bind_man_keeps s fs fs').
      - by apply (man_rows_keeps s fs fs').
      - done.
      - apply Forall_forall. intros q [_ Hq]%elem_of_list_filter. destruct Hb as (_&Hall&_).
        by eapply Forall_forall in Hall. }
    rewrite Hap. apply Forall2_app; [by eapply shows_keeps|]. apply Forall2_app; [|done].
    (* the reinserted rows *)
    assert (Hkept : (T ≫= kept e w) = filter (fun r => matches (EUn FnNot e) r = true) (man_rows fs hm)).
    { etransitivity; [apply (touched_kept e w mf base)|apply left_rows]. }
    rewrite Hkept in Hres.
    assert (Hlk : tsel (out_names s) lkept = Ok yk).
    { apply shows_iff in Hyk as (l&Hl&Hyk). rewrite Hl in Hres. by injection Hres as ->. }
    destruct lkept as [|r0 lkept].
    + rewrite Hadd. injection Hlk as <-. constructor.
    + destruct yk as [|y0 yk]; [by apply tsel_length in Hlk|].
      destruct Hadd as (u&ms&->&_&_&Hfu&Hms&_&_&Hrms).
      assert (Hfu' : fs' !! PGen KIdxMan u = Some (FIdxMan (sm ++ ms))).
      { by apply (Hk2 _ _ Hfu). }
      cbn [mbind list_bind]. rewrite app_nil_r, (man_at_some _ _ _ Hfu'), man_rows_app.
      apply Forall2_app.
      * rewrite (man_rows_keeps s fs fs') by done. by eapply shows_keeps.
      * rewrite (man_rows_keeps s (w_fs w1) fs') by done. apply (shows_keeps s (w_fs w1)); [done|].
        apply shows_iff. eauto.
Qed.

(** Rows decided by the filter. *)
Lemma not_matches e r b : eval (row_look r) e = Some (SBool b) → matches (EUn FnNot e) r = negb (matches e r).
Proof. unfold matches. cbn. intros ->. by destruct b. Qed.
Definition snap_layout (fs : fsys) (sn : snapshot) : list (list (list row)) :=
  (fun q => (fun m => file_rows fs (mr_path m)) <$> man_at fs q) <$> sn_idx sn.
Lemma snap_layout_in fs sn man t :
  man ∈ snap_layout fs sn → t ∈ man →
  ∃ q m, q ∈ sn_idx sn ∧ m ∈ man_at fs q ∧ t = file_rows fs (mr_path m)
    ∧ man = (fun m => file_rows fs (mr_path m)) <$> man_at fs q.
Proof.
  unfold snap_layout. intros (q&->&Hq)%elem_of_list_fmap (m&->&Hm)%elem_of_list_fmap. eauto 10.
Qed.

Section exact.
Context (s : schema) (e : filter_expr) (w : world) (mf : option sexpr) (base : snapshot) (old : list row).
Notation fs := (w_fs w).
Hypothesis Hs : wf_schema s.
Hypothesis Hbase : wf_snap s fs base.
Hypothesis Hold : snap_rows s fs base old.
Hypothesis Hsafe : safe_filter s e.
Hypothesis Hmf : build_manifest_filter (fenv_of s) e = Ok mf.
Hypothesis Hnan : no_nan_keys (s_pks s) old.
Hypothesis Hdec : decided e old.
Notation inb m r := (m ∈ snap_mrows fs base ∧ r ∈ file_rows fs (mr_path m)).

Lemma row_decided m r : inb m r → matches (EUn FnNot e) r = negb (matches e r).
Proof.
  intros [Hm Hr]. destruct (shown_decided s fs base old e m r Hbase Hold) as [b Hb]; try done; [apply Hsafe|].
  by eapply not_matches.
Qed.
Lemma row_picked m r : inb m r → matches e r = true → mrow_matches mf m = true.
Proof.
  intros [Hm Hr]. eapply prune_file; try done; [by eapply shown_row|by eapply shown_no_nan].
Qed.
Lemma hit_row m : m ∈ snap_mrows fs base → hit e w mf m ↔ ∃ r, r ∈ file_rows fs (mr_path m) ∧ matches e r = true.
Proof.
  intros Hm. split.
  - intros [_ Hh].
    destruct (decide (Exists (fun r => matches e r = true) (file_rows fs (mr_path m)))) as [Hx|Hx].
    { apply Exists_exists in Hx as (r&?&?). eauto. }
    exfalso. apply Hh. unfold left_in. rewrite filter_every; [done|].
    intros r Hr. rewrite (row_decided m) by done. apply negb_true_iff, not_true_iff_false. intros He.
    apply Hx, Exists_exists. eauto.
  - intros (r&Hr&He). split; [by eapply (row_picked m r)|]. intros Hlen.
    pose proof (filter_length_every _ _ Hlen) as Hall.
    assert (Hin : r ∈ left_in e w (mr_path m)) by (unfold left_in; by rewrite Hall).
    apply elem_of_list_filter in Hin as [Hn _]. rewrite (row_decided m), He in Hn by done. done.
Qed.
Lemma miss_row m r : misses e w mf base m → r ∈ file_rows fs (mr_path m) → matches e r = false.
Proof.
  intros [Hm Hh] Hr. apply not_true_iff_false. intros He. apply Hh, hit_row; eauto.
Qed.
Lemma vrow_keep r y m : inb m r → vrow s fs r y → matches (EUn FnNot e) r = negb (matches e y).
Proof.
  intros Hin Hv. rewrite (row_decided m) by done. f_equal. symmetry. eapply vrow_matches; [done| |apply Hsafe].
  destruct Hin. by eapply (shown_row s fs base old m r).
Qed.
Definition unmatched (ys : list row) : list row := filter (fun y => matches e y = false) ys.

Lemma delete_exact pd w1 fs' sn extra xs :
  delete_out s e w (fset_at fs mf (sn_idx base)) (Some pd) w1 →
  keeps fs (w_fs w1) → keeps (w_fs w1) fs' →
  sn_idx sn = filter (fun x => x ∉ pa_del_idx pd) (sn_idx base) ++ pa_add_idx pd ++ extra →
  shows s fs' (man_rows fs' (extra ≫= man_at fs')) xs →
  ∃ new lost, snap_rows s fs' sn (new ++ xs)
    ∧ unmatched old ≡ₚ new ++ lost
    ∧ (lost = [] ↔ lossless (snap_layout fs base) (fun r => matches e r = true)).
Proof.
  intros Hd Hk1 Hk2 Hidx Hx.
  destruct (delete_view s e w mf base pd w1 fs' sn extra xs old Hbase Hd Hk1 Hk2 Hidx Hx Hold)
    as (am&sm&ya&ys&yh&yk&Hshape&Hmiss&(mh&Hmh&Hhit)&Hsm&Hsmin&Hp&Hya&Hys&Hyh&Hyk&Hnew).
  set (hm := filter (hit e w mf) (snap_mrows fs base)) in *.
  (* logical rows *)
  assert (Hsame : ∀ l z, (∀ m, m ∈ l → misses e w mf base m) → shows s fs (man_rows fs l) z → unmatched z = z).
  { intros l z Hl Hz. apply filter_every. intros y Hy. apply elem_of_list_lookup in Hy as [i Hi].
    destruct (Forall2_lookup_r _ _ _ _ _ Hz Hi) as (r&Hr&Hv). apply elem_of_list_lookup_2 in Hr.
    rewrite man_rows_bind in Hr. apply elem_of_list_bind in Hr as (m&Hr&Hm).
    pose proof (miss_row m r (Hl m Hm) Hr) as Hf. rewrite <-Hf.
    eapply vrow_matches; [done| |apply Hsafe].
    destruct (Hl m Hm) as [Hin _]. by eapply (shown_row s fs base old m r). }
  assert (Hua : unmatched ya = ya) by (eapply (Hsame am); [intros; apply Hmiss; set_solver|done]).
  assert (Hus : unmatched ys = ys) by (eapply (Hsame sm); [intros; apply Hmiss; set_solver|done]).
  assert (Huh : unmatched yh = yk).
  { eapply shows_fun; [|exact Hyk]. apply Forall2_filter_both; [done|]. intros r y Hr Hv.
    rewrite man_rows_bind in Hr. apply elem_of_list_bind in Hr as (m&Hr&[_ Hm]%elem_of_list_filter).
    rewrite (vrow_keep r y m) by done. by rewrite negb_true_iff. }
  assert (Hold' : unmatched old ≡ₚ ya ++ ys ++ yk).
  { assert (Happ : ∀ a b, unmatched (a ++ b) = unmatched a ++ unmatched b) by (intros; apply filter_app).
    transitivity (unmatched (ya ++ ys ++ yh)); [unfold unmatched; by rewrite Hp|].
    by rewrite !Happ, Hua, Hus, Huh. }
  (* when are the survivors kept *)
  assert (Hyk_ne : yk ≠ [] ↔ ∃ man t r r', man ∈ snap_layout fs base ∧ t ∈ man ∧ r ∈ t ∧ r' ∈ t
                               ∧ matches e r = true ∧ ¬ matches e r' = true).
  { split.
    - intros Hne. destruct yk as [|y yk]; [done|]. inversion Hyk as [|r ? ? ? Hv _ Hfl]; subst.
      assert (Hr : r ∈ filter (fun r => matches (EUn FnNot e) r = true) (man_rows fs hm)) by (rewrite <-Hfl; set_solver).
      apply elem_of_list_filter in Hr as [Hk Hr]. rewrite man_rows_bind in Hr.
      apply elem_of_list_bind in Hr as (m&Hr&[Hh Hm]%elem_of_list_filter).
      destruct (proj1 (hit_row m Hm) Hh) as (r1&Hr1&He1).
      rewrite (row_decided m r), negb_true_iff in Hk by done.
      pose proof Hm as (q&Hmq&Hq)%elem_of_list_bind.
      exists ((fun m => file_rows fs (mr_path m)) <$> man_at fs q), (file_rows fs (mr_path m)), r1, r.
      split_and!; try done; [apply elem_of_list_fmap; eauto..|by rewrite Hk].
    - intros (man&t&r&r'&Hman&Ht&Hr&Hr'&He&He'%not_true_iff_false).
      destruct (snap_layout_in _ _ _ _ Hman Ht) as (q&m&Hq&Hm&->&_).
      assert (Hin : m ∈ snap_mrows fs base) by (apply elem_of_list_bind; eauto).
      assert (Hk : r' ∈ filter (fun r => matches (EUn FnNot e) r = true) (man_rows fs hm)).
      { apply elem_of_list_filter. rewrite (row_decided m r'), He' by done. split; [done|].
        rewrite man_rows_bind. apply elem_of_list_bind. exists m. split; [done|]. apply elem_of_list_filter.
        split; [|done]. apply hit_row; eauto. }
      intros ->. inversion Hyk as [Hnil|]. rewrite <-Hnil in Hk. set_solver. }
  assert (Hys_nil : yk = [] → ys = [] ↔ (∀ man t t' r r', man ∈ snap_layout fs base → t ∈ man → t' ∈ man → r ∈ t →
             matches e r = true → r' ∈ t' → ∃ r'', r'' ∈ t' ∧ matches e r'' = true)).
  { intros Hyk0. split.
    - intros Hys0 man t t' r r' Hman Ht Ht' Hr He Hr'.
      destruct (snap_layout_in _ _ _ _ Hman Ht) as (q&m&Hq&Hm&->&Hman').
      rewrite Hman' in Ht'. apply elem_of_list_fmap in Ht' as (m'&->&Hm').
      assert (Hin : m ∈ snap_mrows fs base) by (apply elem_of_list_bind; eauto).
      assert (Hin' : m' ∈ snap_mrows fs base) by (apply elem_of_list_bind; eauto).
      destruct (decide (hit e w mf m')) as [Hh|Hh]; [by apply hit_row|].
      exfalso. (* m' would be a survivor with rows *)
      assert (Hsmq : m' ∈ sm) by (eapply (Hsmin q m m'); try done; apply hit_row; eauto).
      subst ys. assert (Hr2 : r' ∈ man_rows fs sm) by (rewrite man_rows_bind; apply elem_of_list_bind; eauto).
      inversion Hys as [Hnil|]. rewrite <-Hnil in Hr2. set_solver.
    - intros Hprop. destruct ys as [|y ys]; [done|]. exfalso.
      inversion Hys as [|r ? ? ? Hv _ Hfl]; subst.
      assert (Hr : r ∈ man_rows fs sm) by (rewrite <-Hfl; set_solver).
      rewrite man_rows_bind in Hr. apply elem_of_list_bind in Hr as (m&Hr&Hm).
      destruct (Hsm m Hm) as (q&m'&Hq&Hmq&Hmq'&Hh').
      assert (Hin : m ∈ snap_mrows fs base) by (apply elem_of_list_bind; eauto).
      assert (Hin' : m' ∈ snap_mrows fs base) by (apply elem_of_list_bind; eauto).
      destruct (proj1 (hit_row m' Hin') Hh') as (r1&Hr1&He1).
      destruct (Hprop ((fun m => file_rows fs (mr_path m)) <$> man_at fs q) (file_rows fs (mr_path m'))
                  (file_rows fs (mr_path m)) r1 r) as (r2&Hr2&He2); try done.
      1-3: apply elem_of_list_fmap; eauto.
      destruct (Hmiss m ltac:(set_solver)) as [_ Hnh]. apply Hnh, hit_row; eauto. }
  exists (ya ++ match yk with [] => [] | _ => ys ++ yk end), (match yk with [] => ys | _ => [] end).
  split_and!.
  - by rewrite <-app_assoc.
  - rewrite Hold'. destruct yk; by rewrite ?app_nil_r, <-?app_assoc, ?app_nil_r.
  - unfold lossless. rewrite <-Hyk_ne. destruct yk as [|y yk].
    + rewrite Hys_nil by done. naive_solver.
    + split; [by left|done].
Qed.
(** Nothing to delete. *)
Lemma no_hit_exact :
  filter (touched e w) (fset_files (fset_at fs mf (sn_idx base))) = [] →
  unmatched old = old ∧ lossless (snap_layout fs base) (fun r => matches e r = true).
Proof.
  intros HT. assert (Hno : ∀ m, m ∈ snap_mrows fs base → ¬ hit e w mf m).
  { intros m Hm Hh. apply (hit_iff s e w mf base Hbase) in Hh; [|done]. rewrite HT in Hh. set_solver. }
  split.
  - apply filter_every. intros y Hy. apply snap_rows_shows in Hold as Hsh. apply elem_of_list_lookup in Hy as [i Hi].
    destruct (Forall2_lookup_r _ _ _ _ _ Hsh Hi) as (r&Hr&Hv). apply elem_of_list_lookup_2 in Hr.
    unfold phys_rows in Hr. rewrite man_rows_bind in Hr. apply elem_of_list_bind in Hr as (m&Hr&Hm).
    assert (Hms : misses e w mf base m) by (split; [done|by apply Hno]). rewrite <-(miss_row m r Hms Hr).
    eapply vrow_matches; [done| |apply Hsafe]. by eapply (shown_row s fs base old m r).
  - right. intros man t t' r r' Hman Ht _ Hr He _. exfalso.
    destruct (snap_layout_in _ _ _ _ Hman Ht) as (q&m&Hq&Hm&->&_).
    assert (Hin : m ∈ snap_mrows fs base) by (apply elem_of_list_bind; eauto).
    apply (Hno m Hin), hit_row; eauto.
Qed.
End exact.

(** Any delete leaves part of the rows. *)
Lemma delete_sub s e w mf base pd w1 fs' sn extra xs old :
  wf_snap s (w_fs w) base →
  delete_out s e w (fset_at (w_fs w) mf (sn_idx base)) (Some pd) w1 →
  keeps (w_fs w) (w_fs w1) → keeps (w_fs w1) fs' →
  sn_idx sn = filter (fun x => x ∉ pa_del_idx pd) (sn_idx base) ++ pa_add_idx pd ++ extra →
  shows s fs' (man_rows fs' (extra ≫= man_at fs')) xs →
  snap_rows s (w_fs w) base old →
  ∃ new, snap_rows s fs' sn (new ++ xs) ∧ new ⊆+ old.
Proof.
  intros Hb Hd Hk1 Hk2 Hidx Hx Hold.
  destruct (delete_view s e w mf base pd w1 fs' sn extra xs old Hb Hd Hk1 Hk2 Hidx Hx Hold)
    as (am&sm&ya&ys&yh&yk&_&_&_&_&_&Hp&_&_&Hyh&Hyk&Hnew).
  exists (ya ++ match yk with [] => [] | _ => ys ++ yk end). split; [by rewrite <-app_assoc|].
  rewrite Hp. apply submseteq_skips_l.
  assert (Hsub : yk ⊆+ yh).
  { apply sublist_submseteq. eapply Forall2_filter_sub; [|exact Hyh|exact Hyk]. apply vrow_fun. }
  destruct yk; [apply submseteq_nil_l|]. by apply submseteq_skips_l.
Qed.
