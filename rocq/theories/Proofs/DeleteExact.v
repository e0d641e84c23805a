(** Exactly what a delete leaves. *)
From Verif.Model Require Import System.
From Verif.Spec Require Import Logical Api Pruning Layout Deletion.
From Verif.Proofs Require Import Lib World Resolve ReadSpec SchemaFacts AppendSpec Wf Inv FileSet SysInv OpSpec Effects Observe
  ReadRun Reads View Prune DeleteEffect Mutations Calls Txn.

Lemma Forall2_bind_cut {A B C} (R : B → C → Prop) (f : A → list B) (l : list A) ys :
  Forall2 R (l ≫= f) ys → ∃ yss, Forall2 (fun x t => Forall2 R (f x) t) l yss ∧ ys = concat yss.
Proof.
  revert ys. induction l as [|x l IH]; intros ys H.
  - apply Forall2_nil_inv_l in H as ->. by exists [].
  - rewrite bind_cons in H. apply Forall2_app_inv_l in H as (y1&y2&H1&(yss&H2&->)%IH&->). exists (y1 :: yss). by split; [constructor|].
Qed.
Lemma Forall2_filter2 {A B} (R : A → B → Prop) (P : A → Prop) (Q : B → Prop)
    `{∀ x, Decision (P x)} `{∀ x, Decision (Q x)} l k :
  Forall2 R l k → (∀ x y, x ∈ l → R x y → P x ↔ Q y) → Forall2 R (filter P l) (filter Q k).
Proof.
  induction 1 as [|x y l k Hxy Hlk IH]; intros Hpq; [constructor|].
  assert (Hl : Forall2 R (filter P l) (filter Q k)) by (apply IH; intros; apply Hpq; [by right|done]).
  pose proof (Hpq x y ltac:(by left) Hxy). rewrite !filter_cons.
  destruct (decide (P x)), (decide (Q y)); try tauto. by constructor.
Qed.
Lemma Forall2_concat {A B} (R : A → B → Prop) l k : Forall2 (Forall2 R) l k → Forall2 R (concat l) (concat k).
Proof. induction 1; [constructor|]. cbn. by apply Forall2_app. Qed.

Section exact.
Context (s : schema) (e : filter_expr) (w : world) (mf : option sexpr) (base : snapshot) (old : list row).
Notation fs := (w_fs w).
Hypothesis Hbase : wf_snap s fs base.
Hypothesis Hold : snap_rows s fs base old.
Hypothesis Hig : ignores (s_recs s) e.
Notation cs := (df_path <$> fset_files (fset_at fs mf (sn_idx base))).
Definition rep (m : mrow) (f : path * list row) : Prop :=
  m ∈ snap_mrows fs base ∧ f.1 = mr_path m ∧ shows s fs (file_rows fs (mr_path m)) f.2.

Lemma rep_hit m f : rep m f → hit e w mf m ↔ rewritten cs e f.
Proof.
  intros (Hm&Hp&Hsh).
  assert (Hkeep : ∀ r y, r ∈ file_rows fs (mr_path m) → vrow s fs r y → matches (EUn FnNot e) r = matches (EUn FnNot e) y).
  { intros r y Hr Hv. symmetry. eapply vrow_matches; [done| |by apply ignores_un].
    by destruct (shown_row s fs base old m r Hbase Hold Hm Hr) as (_&?&_). }
  assert (Hcs : f.1 ∈ cs ↔ mrow_matches mf m = true).
  { rewrite Hp, fset_files_filter, elem_of_list_fmap. split.
    - intros (m'&Hp'&[Hmm Hm']%elem_of_list_filter). rewrite <-Hmm.
      eapply wf_mrow_matches_same; [| |exact Hp']; by eapply base_mrows_wf.
    - intros Hmm. exists m. split; [done|]. by apply elem_of_list_filter. }
  unfold hit, rewritten. rewrite Hcs. apply and_iff_compat_l. unfold hit_path, left_in. split.
  - intros Hlen. destruct (decide (Exists (fun r => ¬ stays e r) f.2)) as [|Hx]; [done|].
    exfalso. apply Hlen. rewrite filter_every; [done|]. intros r Hr.
    pose proof Hr as Hr'. apply elem_of_list_lookup in Hr' as [i Hi].
    destruct (Forall2_lookup_l _ _ _ _ _ Hsh Hi) as (y&Hy&Hv). rewrite (Hkeep r y Hr Hv).
    destruct (decide (stays e y)) as [Hst|Hst]; [done|]. exfalso. apply Hx, Exists_exists. exists y.
    split; [by eapply elem_of_list_lookup_2|done].
  - intros (y&Hy&Hst)%Exists_exists Hlen. apply filter_length_every in Hlen.
    apply elem_of_list_lookup in Hy as [i Hi]. destruct (Forall2_lookup_r _ _ _ _ _ Hsh Hi) as (r&Hr&Hv).
    apply elem_of_list_lookup_2 in Hr. apply Hst. unfold stays. rewrite <-(Hkeep r y Hr Hv).
    rewrite <-Hlen in Hr. by apply elem_of_list_filter in Hr as [? _].
Qed.
Lemma rep_rows ms fl : Forall2 rep ms fl → shows s fs (man_rows fs ms) (rows_of fl).
Proof.
  rewrite man_rows_bind. induction 1 as [|m f ms fl (_&_&Hsh) _ IH]; [constructor|].
  rewrite bind_cons. unfold rows_of. rewrite fmap_cons. cbn [concat]. by apply Forall2_app.
Qed.
Lemma cut : ∃ mans, Forall2 (fun q man => Forall2 rep (man_at fs q) man) (sn_idx base) mans ∧ rows_of (concat mans) = old.
Proof.
  apply snap_rows_shows in Hold as Hsh. unfold phys_rows in Hsh. rewrite man_rows_bind in Hsh. unfold snap_mrows in Hsh.
  assert (Hall : ∀ l ys, (∀ q, q ∈ l → q ∈ sn_idx base) →
     shows s fs ((l ≫= man_at fs) ≫= (fun m => file_rows fs (mr_path m))) ys →
     ∃ mans, Forall2 (fun q man => Forall2 rep (man_at fs q) man) l mans ∧ rows_of (concat mans) = ys).
  { intros l. induction l as [|q l IH]; intros ys Hin H.
    - apply Forall2_nil_inv_l in H as ->. by exists [].
    - rewrite bind_cons, bind_app in H. apply Forall2_app_inv_l in H as (y1&y2&H1&H2&->).
      destruct (IH y2) as (mans&Hm&<-); [intros; apply Hin; by right|done|].
      apply Forall2_bind_cut in H1 as (yss&H1&->).
      assert (Hq : ∀ m, m ∈ man_at fs q → m ∈ snap_mrows fs base).
      { intros m Hmq. apply elem_of_list_bind. exists q. split; [done|apply Hin; by left]. }
      assert (∃ man, Forall2 rep (man_at fs q) man ∧ rows_of man = concat yss) as (man&Hman&Heq).
      { clear -H1 Hq. induction H1 as [|m t ms yss Hmt _ IH']; [by exists []|].
        destruct IH' as (man&Hman&Heq); [intros; apply Hq; by right|].
        exists ((mr_path m, t) :: man). split.
        - constructor; [|done]. split; [apply Hq; by left|done].
        - unfold rows_of in *. rewrite fmap_cons. cbn [concat snd]. by rewrite Heq. }
      exists (man :: mans). split; [by constructor|]. cbn [concat]. unfold rows_of in *. by rewrite fmap_app, concat_app, Heq. }
  by apply Hall.
Qed.

Lemma delete_leaves pd w1 fs' sn mans :
  delete_out s e w (fset_at fs mf (sn_idx base)) (Some pd) w1 →
  keeps fs (w_fs w1) → keeps (w_fs w1) fs' →
  sn_idx sn = filter (fun x => x ∉ pa_del_idx pd) (sn_idx base) ++ pa_add_idx pd →
  Forall2 (fun q man => Forall2 rep (man_at fs q) man) (sn_idx base) mans →
  ∃ rows, snap_rows s fs' sn rows ∧ rows ≡ₚ remaining cs e mans.
Proof.
  intros (HT&mids&ms&lkept&Hnd&Hmids&Hf2&Hdel&Hres&Hadd&_) Hk1 Hk2 Hidx Hcut.
  pose proof (keeps_trans _ _ _ Hk1 Hk2) as Hk.
  set (T := filter (touched e w) (fset_files (fset_at fs mf (sn_idx base)))) in *.
  pose proof (mans_spec e w mf base mids ms Hmids Hf2) as Hspec.
  (* manifests *)
  assert (Hman : ∀ q man, q ∈ sn_idx base → Forall2 rep (man_at fs q) man → q ∈ ms ↔ Exists (rewritten cs e) man).
  { intros q man Hq Hr. rewrite Hspec, Exists_exists. split.
    - intros (_&m&Hm&Hh). apply elem_of_list_lookup in Hm as [i Hi].
      destruct (Forall2_lookup_l _ _ _ _ _ Hr Hi) as (f&Hf&Hrep). exists f. split; [by eapply elem_of_list_lookup_2|].
      by apply (rep_hit m f).
    - intros (f&Hf&Hh). split; [done|]. apply elem_of_list_lookup in Hf as [i Hi].
      destruct (Forall2_lookup_r _ _ _ _ _ Hr Hi) as (m&Hm&Hrep). exists m. split; [by eapply elem_of_list_lookup_2|].
      by apply (rep_hit m f). }
  set (out := filter (fun man => ¬ Exists (rewritten cs e) man) mans).
  set (hitm := filter (Exists (rewritten cs e)) mans).
  assert (Hout : Forall2 (fun q man => Forall2 rep (man_at fs q) man) (filter (fun q => q ∉ ms) (sn_idx base)) out).
  { apply Forall2_filter2; [done|]. intros q man Hq Hr. by rewrite (Hman q man). }
  assert (Hhit : Forall2 (fun q man => Forall2 rep (man_at fs q) man) (filter (fun q => q ∈ ms) (sn_idx base)) hitm).
  { apply Forall2_filter2; [done|]. intros q man Hq Hr. by rewrite (Hman q man). }
  assert (Hflat : ∀ l k, Forall2 (fun q man => Forall2 rep (man_at fs q) man) l k → Forall2 rep (l ≫= man_at fs) (concat k)).
  { clear. induction 1; [constructor|]. rewrite bind_cons. cbn. by apply Forall2_app. }
  (* files *)
  assert (Hms : filter (fun q => q ∈ ms) (sn_idx base) ≡ₚ ms).
  { apply NoDup_Permutation; [apply NoDup_filter; apply Hbase|by eapply mans_nodup|].
    intros q. rewrite elem_of_list_filter. split; [by intros [? _]|]. intros Hq. split; [done|]. by apply Hspec. }
  set (sm := survivors e w mf base ms).
  assert (Hsm : sm ≡ₚ filter (fun m => ¬ hit e w mf m) (filter (fun q => q ∈ ms) (sn_idx base) ≫= man_at fs)).
  { unfold sm, survivors. rewrite <-Hms at 1.
    rewrite (filter_ext_in (fun m => ¬ hit e w mf m) (fun m => mr_path m ∉ df_path <$> T)); [done|].
    intros m Hm. rewrite (hit_iff s e w mf base Hbase); [done|].
    apply elem_of_list_bind in Hm as (q&Hm&[_ Hq]%elem_of_list_filter). apply elem_of_list_bind. eauto. }
  assert (Hsv : shows s fs (man_rows fs (filter (fun m => ¬ hit e w mf m) (filter (fun q => q ∈ ms) (sn_idx base) ≫= man_at fs)))
    (rows_of (filter (fun f => ¬ rewritten cs e f) (concat hitm)))).
  { apply rep_rows, Forall2_filter2; [by apply Hflat|]. intros m f _ Hr. by rewrite (rep_hit m f Hr). }
  destruct (Forall2_perm_l _ _ _ _ (man_rows_perm fs _ _ (symmetry Hsm)) Hsv) as (ys&Hys&Hpys).
  (* rows kept *)
  assert (Hh : shows s fs (man_rows fs (filter (hit e w mf) (snap_mrows fs base))) (rows_of (filter (rewritten cs e) (concat mans)))).
  { apply rep_rows, Forall2_filter2; [by apply Hflat|]. intros m f _ Hr. by apply rep_hit. }
  assert (Hyk : shows s fs (filter (fun r => matches (EUn FnNot e) r = true) (man_rows fs (filter (hit e w mf) (snap_mrows fs base))))
      (kept_rows cs e mans)).
  { apply Forall2_filter2; [done|]. intros r y Hr Hv. unfold stays.
    assert (matches (EUn FnNot e) y = matches (EUn FnNot e) r) as ->; [|done].
    eapply vrow_matches; [done| |by apply ignores_un].
    rewrite man_rows_bind in Hr. apply elem_of_list_bind in Hr as (m&Hr&[_ Hm]%elem_of_list_filter).
    by destruct (shown_row s fs base old m r Hbase Hold Hm Hr) as (_&?&_). }
  assert (Hkept : (T ≫= kept e w) = filter (fun r => matches (EUn FnNot e) r = true) (man_rows fs (filter (hit e w mf) (snap_mrows fs base)))).
  { etransitivity; [apply (touched_kept e w mf base)|apply left_rows]. }
  rewrite Hkept in Hres.
  assert (Hlk : tsel (out_names s) lkept = Ok (kept_rows cs e mans)).
  { apply shows_iff in Hyk as (l&Hl&Hyk). rewrite Hl in Hres. by injection Hres as ->. }
  (* the new snapshot *)
  exists (rows_of (concat out) ++ match kept_rows cs e mans with [] => [] | kept => ys ++ kept end). split.
  2:{ unfold remaining. fold out hitm. f_equiv. revert Hpys. generalize (kept_rows cs e mans). intros [|y yk] Hpys; [done|]. by rewrite Hpys. }
  apply snap_rows_shows. unfold phys_rows, snap_mrows. rewrite Hidx, Hdel, bind_app, man_rows_app.
  apply Forall2_app.
  - rewrite (bind_man_keeps s fs fs'); [|done|].
    2:{ apply Forall_forall. intros q [_ Hq]%elem_of_list_filter. destruct Hbase as (_&Hall&_). by eapply Forall_forall in Hall. }
    rewrite (man_rows_keeps s fs fs'); [|done|].
    2:{ apply Forall_forall. intros m Hm. eapply base_mrows_wf; [done|]. by apply (apart_miss e w mf base mids ms Hmids Hf2). }
    apply (shows_keeps s fs); [done|]. by apply rep_rows, Hflat.
  - clear Hyk. revert Hlk. generalize (kept_rows cs e mans). intros yk Hlk. destruct lkept as [|r0 lkept].
    + rewrite Hadd. injection Hlk as <-. constructor.
    + destruct yk as [|y0 yk]; [by apply tsel_length in Hlk|].
      destruct Hadd as (u&mm&->&_&_&Hfu&Hms'&_&_&Hrms).
      assert (Hfu' : fs' !! PGen KIdxMan u = Some (FIdxMan (sm ++ mm))) by (by apply (Hk2 _ _ Hfu)).
      cbn [mbind list_bind]. rewrite app_nil_r, (man_at_some _ _ _ Hfu'), man_rows_app.
      apply Forall2_app.
      * rewrite (man_rows_keeps s fs fs'); [by eapply shows_keeps|done|].
        apply Forall_forall. intros m Hm. eapply base_mrows_wf; [done|].
        by apply (survivors_miss s e w mf base Hbase mids ms Hmids Hf2).
      * rewrite (man_rows_keeps s (w_fs w1) fs') by done. apply (shows_keeps s (w_fs w1)); [done|].
        apply shows_iff. eauto.
Qed.
End exact.

Lemma cut_divides s σ hid h p m base before mans :
  seen s σ hid h p m → snap_of m (h_branch h) None = Some base →
  Forall2 (fun q man => Forall2 (rep s (y_world σ) base) (man_at (w_fs (y_world σ)) q) man) (sn_idx base) mans →
  rows_of (concat mans) = before → divides σ hid before mans.
Proof.
  intros H1 Hsn Hcut Hrows. exists base. split_and!; [|..|done].
  - by rewrite (current_eq _ _ _ _ _ _ H1).
  - eapply Forall2_impl; [exact Hcut|]. intros q' man Hman. eapply Forall2_impl; [exact Hman|].
    intros m' f (_&Hp&Hsh). split; [done|]. by apply Forall2_length in Hsh as <-.
Qed.
Lemma candidates_run s σ hid h p m base e fset :
  seen s σ hid h p m → snap_of m (h_branch h) None = Some base →
  result σ hid (candidates e) = Some (Ok fset) →
  ∃ mf, build_manifest_filter (fenv_of s) e = Ok mf ∧ fset = fset_at (w_fs (y_world σ)) mf (sn_idx base).
Proof.
  intros [Hs Hh Hwf Hst Hm _] Hsn Hc. destruct (sync_spec s (y_world σ) p m h Hst Hm Hwf) as (Hwf0&Hm0&_&Hb0&_).
  assert (Hget : get_snapshot (sync p m h) None = Ok base).
  { apply (get_snapshot_snap_of _ m); [done|]. by rewrite Hb0. }
  rewrite (result_eq _ _ _ _ Hh) in Hc. unfold candidates in Hc.
  rewrite (bind_run' _ _ _ _ _ (reload_run p m h (y_world σ) Hst)) in Hc.
  rewrite (data_files_run s) in Hc by apply Hwf0. rewrite Hget in Hc. cbn [snd man_filter] in Hc.
  destruct (build_manifest_filter (fenv_of s) e) as [mf|] eqn:Hmf; [|done]. injection Hc as <-. eauto.
Qed.
Lemma delete_remaining_at σ hid s E fo e st before h p m mf base mans :
  reachable σ → seen s σ hid h p m → snap_of m (h_branch h) None = Some base →
  reads σ hid None before → ignores (s_recs s) e → build_manifest_filter (fenv_of s) e = Ok mf →
  Forall2 (fun q man => Forall2 (rep s (y_world σ) base) (man_at (w_fs (y_world σ)) q) man) (sn_idx base) mans →
  result σ hid (run_delete E fo e) = Some (Ok (JSucceeded st)) →
  ∃ rows, reads (after σ hid (run_delete E fo e)) hid None rows
    ∧ rows ≡ₚ remaining (df_path <$> fset_files (fset_at (w_fs (y_world σ)) mf (sn_idx base))) e mans.
Proof.
  intros Hr Hseen Hsn Hb Hig Hmf0 Hcut Hres.
  destruct (op_before σ hid s E fo (ODelete e) st before Hr) as (h1&p1&m1&h'&base1&sn&pa&w1&q&H1&H2&Hd&Hold&Hlay&Hrd);
    [by intros ??|apply Hseen|done..|].
  assert (h1 = h ∧ m1 = m) as [-> ->].
  { destruct H1 as [_ ? _ Hst1 _ _], Hseen as [_ ? _ Hst2 _ _]. split; [congruence|]. by eapply stored_fun. }
  pose proof (od_base _ _ _ _ _ _ _ _ _ _ _ _ _ Hd) as Hsn1. rewrite Hsn in Hsn1. injection Hsn1 as <-.
  pose proof (od_idx _ _ _ _ _ _ _ _ _ _ _ Hd) as Hidx.
  pose proof (od_effect _ _ _ _ _ _ _ _ _ _ _ _ _ Hd) as [(h0&Hbr&Hm0'&(sn0&mf'&Hg&Hmf&Hout)) _ _ _ Hwb _ Hk1 Hk2].
  rewrite (od_same_base _ _ _ _ _ _ _ _ _ _ _ _ _ (od_effect _ _ _ _ _ _ _ _ _ _ _ _ _ Hd) Hbr Hm0' Hg) in Hout.
  assert (mf' = mf) as -> by congruence.
  destruct (delete_leaves s e (y_world σ) mf base before Hwb Hold Hig pa w1 _ sn mans Hout Hk1 Hk2 Hidx Hcut) as (rows&Hnew&Hperm).
  exists rows. split; [by apply Hrd|done].
Qed.
Lemma delete_remaining σ hid s E fo e st before fset :
  reachable σ → schema_at σ hid = Some s → reads σ hid None before → ignores (s_recs s) e →
  result σ hid (candidates e) = Some (Ok fset) →
  result σ hid (run_delete E fo e) = Some (Ok (JSucceeded st)) →
  ∃ mans rows, divides σ hid before mans ∧ reads (after σ hid (run_delete E fo e)) hid None rows
    ∧ rows ≡ₚ remaining (df_path <$> fset_files fset) e mans.
Proof.
  intros Hr Hsch Hb Hig Hc Hres. destruct (result_handle _ _ _ _ Hc) as [h Hh].
  destruct (reachable_seen _ _ _ Hr Hh) as (s'&p&m&H1).
  assert (s' = s) as -> by (rewrite (sn_schema _ _ _ _ _ _ H1) in Hsch; congruence).
  apply (reads_iff _ _ _ _ _ _ _ _ H1) in Hb as Hb'. destruct Hb' as (base&Hsn&Hold).
  destruct (candidates_run _ _ _ _ _ _ _ _ _ H1 Hsn Hc) as (mf&Hmf&->).
  destruct (cut s (y_world σ) base before Hold) as (mans&Hcut&Hrows).
  destruct (delete_remaining_at σ hid s E fo e st before h p m mf base mans) as (rows&?&?); try done.
  exists mans, rows. split_and!; try done. by eapply cut_divides.
Qed.
