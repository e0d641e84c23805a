(** Exactly what a distributed delete leaves. *)
From Verif.Model Require Import System RayOps.
From Verif.Spec Require Import Logical Api Pruning Keys Layout Separable Deletion.
From Verif.Proofs Require Import Lib World Resolve ReadSpec SchemaFacts AppendSpec Wf Inv FileSet SysInv OpSpec Effects Observe
  ReadRun Reads View Prune DeleteEffect Mutations Calls Txn DeleteExact AnyOp Merge Ops Bodies RayDelete.

Section exact.
Context (s : schema) (e : filter_expr) (w : world) (mf : option sexpr) (base : snapshot) (old : list row).
Notation fs := (w_fs w).
Hypothesis Hbase : wf_snap s fs base.
Hypothesis Hold : snap_rows s fs base old.
Hypothesis Hig : ignores (s_recs s) e.
Notation fset := (fset_at fs mf (sn_idx base)).
Notation cs := (df_path <$> fset_files fset).
Notation rep := (rep s w base).
Notation rep_hit := (rep_hit s e w mf base old Hbase Hold Hig).

Lemma rep_left m f : rep m f → shows s fs (left_in e w (mr_path m)) (filter (stays e) f.2).
Proof.
  intros (Hm&Hp&Hsh). apply Forall2_filter2; [done|]. intros r y Hr Hv. unfold stays.
  assert (matches (EUn FnNot e) y = matches (EUn FnNot e) r) as ->; [|done].
  eapply vrow_matches; [done| |by apply ignores_un]. by destruct (shown_row s fs base old m r Hbase Hold Hm Hr) as (_&?&_).
Qed.
Lemma readd_shows q man :
  Forall2 rep (man_at fs q) man →
  shows s fs (filter (hit e w mf) (man_at fs q) ≫= readd_file e w q) (filter (rewritten cs e) man ≫= alone e man).
Proof.
  intros Hrep.
  assert (Hf : Forall2 rep (filter (hit e w mf) (man_at fs q)) (filter (rewritten cs e) man)).
  { apply Forall2_filter2; [done|]. intros m f _ Hr. by apply rep_hit. }
  induction Hf as [|m f ms fl Hmf' _ IH]; [constructor|]. rewrite !bind_cons. apply Forall2_app; [|exact IH]. clear IH.
  pose proof (rep_left m f Hmf') as Hl. unfold readd_file, alone.
  destruct (left_in e w (mr_path m)) as [|r0 rs], (filter (stays e) f.2) as [|y0 ys]; try by inversion Hl.
  apply Forall2_app; [|done]. apply (rep_rows s w base). apply Forall2_filter2; [done|].
  intros m' f' _ (_&Hp'&_). destruct Hmf' as (_&Hp&_). by rewrite Hp, Hp'.
Qed.

Lemma ray_delete_leaves fs1 fs' ps sn mans :
  keeps fs fs1 → keeps fs1 fs' → Forall2 (piece s e w (fset_mans fset) fs1) (fset_files fset) ps →
  sn_idx sn = filter (fun x => x ∉ omap id ps ≫= pa_del_idx) (sn_idx base) ++ (omap id ps ≫= pa_add_idx) →
  Forall2 (fun q man => Forall2 rep (man_at fs q) man) (sn_idx base) mans →
  snap_rows s fs' sn (apart_remaining cs e mans).
Proof.
  intros Hk0 Hk1 Hp Hidx Hcut. set (dels := omap id ps ≫= pa_del_idx) in *.
  assert (Hdel : ∀ q, q ∈ sn_idx base → q ∈ dels ↔ Exists (hit e w mf) (man_at fs q)).
  { intros q Hq. unfold dels. rewrite (pieces_dels _ _ _ _ _ _ _ _ Hp). split.
    - intros (df&Hdf&Ht&Hm). cbn in Hdf. apply elem_of_list_bind in Hdf as (x&Hdf&Hx).
      apply elem_of_list_fmap in Hdf as (m&->&Hmx). cbn in Hm.
      rewrite (picked_mans_in _ x (picked_nodup _ _ _ _) Hx) in Hm. injection Hm as <-.
      apply picked_spec in Hx as (Hx1&Hx2&_). rewrite Hx2 in Hmx. apply elem_of_list_filter in Hmx as [Hmt Hin].
      apply Exists_exists. exists m. split; [done|]. by split.
    - intros (m&Hm&Hmt&Hh)%Exists_exists. destruct (picked_complete fs mf (sn_idx base) 1 q m Hq Hm Hmt) as (x&Hx&<-&Hmx).
      exists (mk_df x.1.1 m). split_and!.
      + cbn. apply elem_of_list_bind. exists x. split; [|done]. apply elem_of_list_fmap. eauto.
      + done.
      + cbn. by apply picked_mans_in; [apply picked_nodup|]. }
  assert (Hman : ∀ q man, q ∈ sn_idx base → Forall2 rep (man_at fs q) man → q ∈ dels ↔ Exists (rewritten cs e) man).
  { intros q man Hq Hr. rewrite (Hdel q Hq), !Exists_exists. split.
    - intros (m&Hm&Hh). apply elem_of_list_lookup in Hm as [i Hi].
      destruct (Forall2_lookup_l _ _ _ _ _ Hr Hi) as (f&Hf&Hrep). exists f. split; [by eapply elem_of_list_lookup_2|].
      by apply (rep_hit m f).
    - intros (f&Hf&Hh). apply elem_of_list_lookup in Hf as [i Hi].
      destruct (Forall2_lookup_r _ _ _ _ _ Hr Hi) as (m&Hm&Hrep). exists m. split; [by eapply elem_of_list_lookup_2|].
      by apply (rep_hit m f). }
  apply snap_rows_shows. unfold phys_rows, snap_mrows. rewrite Hidx, bind_app, man_rows_app. unfold apart_remaining.
  assert (Hk : keeps fs fs') by (by eapply keeps_trans).
  apply Forall2_app.
  - assert (Hwf : Forall (wf_man s fs) (filter (fun x => x ∉ dels) (sn_idx base))).
    { apply Forall_forall. intros q [_ Hq]%elem_of_list_filter. destruct Hbase as (_&Hall&_). by eapply Forall_forall in Hall. }
    rewrite (bind_man_keeps s fs fs') by done. rewrite (man_rows_keeps s fs fs'); [|done|].
    + eapply shows_keeps; [exact Hk|]. apply (rep_rows s w base).
      assert (Hout : Forall2 (fun q man => Forall2 rep (man_at fs q) man) (filter (fun q => q ∉ dels) (sn_idx base))
         (filter (fun man => ¬ Exists (rewritten cs e) man) mans)).
      { apply Forall2_filter2; [done|]. intros q man Hq Hr. by rewrite (Hman q man). }
      clear -Hout. induction Hout; [constructor|]. rewrite bind_cons. cbn. by apply Forall2_app.
    + apply Forall_forall. intros m (q&Hm&Hq)%elem_of_list_bind. eapply Forall_forall in Hwf; [|exact Hq].
      apply wf_man_at in Hwf as [_ Hwf]. by eapply Forall_forall in Hwf.
  - apply (pieces_rows s e w (fset_mans fset)) with (fs1 := fs1) (dfs := fset_files fset); [|exact Hk0|exact Hk1|exact Hp|].
    + intros i q. apply fset_mans_wf, Hbase.
    + rewrite readded_files.
      assert (Hgo : ∀ l mans', Forall2 (fun q man => Forall2 rep (man_at fs q) man) l mans' →
        shows s fs (l ≫= (fun q => filter (hit e w mf) (man_at fs q) ≫= readd_file e w q))
          (mans' ≫= (fun man => filter (rewritten cs e) man ≫= alone e man))); [|by apply Hgo].
      clear -Hbase Hold Hig. induction 1 as [|q man l mans' Hq _ IH]; [constructor|]. rewrite !bind_cons.
      apply Forall2_app; [by apply readd_shows|exact IH].
Qed.
End exact.

(** * When these are the right rows *)
Lemma rows_of_app a b : rows_of (a ++ b) = rows_of a ++ rows_of b.
Proof. unfold rows_of. by rewrite fmap_app, concat_app. Qed.
Lemma elem_of_rows r l : r ∈ rows_of l ↔ ∃ f, f ∈ l ∧ r ∈ f.2.
Proof.
  unfold rows_of. induction l as [|f l IH]; cbn.
  - split; [by intros ?%elem_of_nil|by intros (?&?%elem_of_nil&_)].
  - rewrite elem_of_app, IH. split.
    + intros [?|(g&?&?)]; [exists f|exists g]; (split; [|done]); [left|by right].
    + intros (g&[->|?]%elem_of_cons&?); [by left|right; eauto].
Qed.
Lemma alone_rows e man f r : f ∈ man → r ∈ alone e man f → r ∈ rows_of man.
Proof.
  intros Hf. unfold alone. destruct (filter (stays e) f.2) as [|r0 rs] eqn:Hk; [by intros ?%elem_of_nil|].
  rewrite elem_of_app. intros [(g&[_ Hg]%elem_of_list_filter&?)%elem_of_rows|Hr]; apply elem_of_rows; [eauto|].
  rewrite <-Hk in Hr. apply elem_of_list_filter in Hr as [_ Hr]. eauto.
Qed.
Lemma apart_app cs e a b r :
  r ∈ apart_remaining cs e (a ++ b) ↔ r ∈ apart_remaining cs e a ∨ r ∈ apart_remaining cs e b.
Proof.
  unfold apart_remaining. rewrite filter_app, concat_app, rows_of_app, bind_app, !elem_of_app. tauto.
Qed.
Lemma apart_rows cs e mans r : r ∈ apart_remaining cs e mans → r ∈ rows_of (concat mans).
Proof.
  unfold apart_remaining. rewrite elem_of_app. intros [H|H].
  - apply elem_of_rows in H as (f&Hf&Hr). apply elem_of_rows. exists f. split; [|done].
    apply elem_of_list_In, in_concat in Hf as (man&Hm&Hf). apply elem_of_list_In, elem_of_list_filter in Hm as [_ Hm].
    apply elem_of_list_In, in_concat. exists man. split; [by apply elem_of_list_In|done].
  - apply elem_of_list_bind in H as (man&H&Hm). apply elem_of_list_bind in H as (f&Hr&[_ Hf]%elem_of_list_filter).
    apply (alone_rows _ _ _ _ Hf), elem_of_rows in Hr as (g&Hg&Hr). apply elem_of_rows. exists g. split; [|done].
    apply elem_of_list_In, in_concat. exists man. by rewrite <-!elem_of_list_In.
Qed.
Definition parted e (man : list (path * list row)) : Prop :=
  (∀ f r, f ∈ man → r ∈ f.2 → matches e r = true)
  ∨ ∃ a f b r, man = a ++ f :: b ∧ r ∈ f.2 ∧ matches e r = false ∧ ∀ g r', g ∈ a ++ b → r' ∈ g.2 → matches e r' = false.
Lemma apart_separable cs e mans :
  NoDup (rows_of (concat mans)) →
  (∀ f g, f ∈ concat mans → g ∈ concat mans → f.1 = g.1 → f.2 = g.2) →
  (∀ f, f ∈ concat mans → rewritten cs e f ↔ Exists (fun r => matches e r = true) f.2) →
  (∀ r, r ∈ rows_of (concat mans) → stays e r ↔ matches e r = false) →
  apart_remaining cs e mans ≡ₚ filter (fun r => matches e r = false) (rows_of (concat mans)) →
  ∀ man, man ∈ mans → parted e man.
Proof.
  intros Hnd Hpath Hrw Hst Hperm man [A [B ->]]%elem_of_list_split.
  rewrite concat_app, rows_of_app in Hnd, Hperm. cbn [concat] in Hnd, Hperm. rewrite rows_of_app in Hnd, Hperm.
  assert (Hin : ∀ f, f ∈ man → f ∈ concat (A ++ man :: B)).
  { intros f Hf. rewrite concat_app. cbn. rewrite !elem_of_app. auto. }
  assert (Hrin : ∀ f r, f ∈ man → r ∈ f.2 → r ∈ rows_of (concat (A ++ man :: B))).
  { intros f r Hf Hr. apply elem_of_rows. eauto. }
  destruct (decide (Exists (fun f => Exists (fun r => matches e r = false) f.2) man)) as [Hex|Hno].
  2:{ left. intros f r Hf Hr. destruct (matches e r) eqn:Hm; [done|]. exfalso. apply Hno, Exists_exists. exists f.
      split; [done|]. apply Exists_exists. eauto. }
  right. apply Exists_exists in Hex as (f0&Hf0&(r0&Hr0&Hm0)%Exists_exists).
  destruct (decide (Exists (fun f => rewritten cs e f ∧ filter (stays e) f.2 ≠ []) man)) as [Hk|Hk].
  - apply Exists_exists in Hk as (f&Hf&Hfr&Hfk).
    destruct (filter (stays e) f.2) as [|r rs] eqn:Hl; [done|]. clear Hfk.
    assert (Hr : r ∈ filter (stays e) f.2) by (rewrite Hl; left). apply elem_of_list_filter in Hr as [Hsr Hr].
    apply Hst in Hsr; [|by eapply Hrin].
    pose proof Hf as Hf'. apply elem_of_list_split in Hf' as (a&b&Hman). exists a, f, b, r. split_and!; try done.
    intros g r' Hg Hr'. assert (Hgm : g ∈ man).
    { rewrite Hman, elem_of_app, elem_of_cons. apply elem_of_app in Hg. tauto. }
    destruct (matches e r') eqn:Hm'; [|done]. exfalso. destruct (decide (g.1 = f.1)) as [Heq|Hne].
    + assert (g.2 = f.2) as Hgf by (apply Hpath; auto). rewrite Hgf in Hr'. clear Hperm.
      apply NoDup_app in Hnd as (_&_&Hnd). apply NoDup_app in Hnd as (Hnd&_).
      rewrite Hman, rows_of_app in Hnd. change (f :: b) with ([f] ++ b) in Hnd. rewrite rows_of_app in Hnd.
      assert (Hf1 : r' ∈ rows_of [f]) by (apply elem_of_rows; exists f; split; [left|done]).
      apply NoDup_app in Hnd as (_&Hd1&Hnd). apply NoDup_app in Hnd as (_&Hd2&_).
      apply elem_of_app in Hg as [Hg|Hg].
      * eapply Hd1; [apply elem_of_rows; exists g; split; [exact Hg|by rewrite Hgf]|]. apply elem_of_app. by left.
      * eapply Hd2; [exact Hf1|]. apply elem_of_rows. exists g. split; [done|by rewrite Hgf].
    + assert (Hx : r' ∈ apart_remaining cs e (A ++ man :: B)).
      { unfold apart_remaining. apply elem_of_app. right. apply elem_of_list_bind. exists man.
        split; [|rewrite elem_of_app; right; left]. apply elem_of_list_bind. exists f.
        split; [|by apply elem_of_list_filter]. unfold alone. rewrite Hl. apply elem_of_app. left. apply elem_of_rows.
        exists g. split; [by apply elem_of_list_filter|done]. }
      rewrite Hperm in Hx. apply elem_of_list_filter in Hx as [Hx _]. congruence.
  - destruct (decide (Exists (rewritten cs e) man)) as [Hre|Hre].
    + exfalso. assert (Hx : r0 ∈ apart_remaining cs e (A ++ man :: B)).
      { rewrite Hperm. apply elem_of_list_filter. split; [done|]. rewrite !elem_of_app. right. left. apply elem_of_rows. eauto. }
      change (man :: B) with ([man] ++ B) in Hx. rewrite !apart_app in Hx.
      assert (Hr0m : r0 ∈ rows_of man) by (apply elem_of_rows; eauto).
      apply NoDup_app in Hnd as (_&Hd1&Hnd). apply NoDup_app in Hnd as (_&Hd2&_).
      destruct Hx as [Hx|[Hx|Hx]].
      * apply apart_rows in Hx. eapply Hd1; [exact Hx|]. apply elem_of_app. by left.
      * unfold apart_remaining in Hx. rewrite filter_cons, decide_False in Hx by tauto. cbn [filter concat rows_of fmap list_fmap app mbind list_bind] in Hx.
        apply elem_of_app in Hx as [Hx|Hx]; [by apply elem_of_nil in Hx|]. rewrite app_nil_r in Hx.
        apply elem_of_list_bind in Hx as (f&Hx&[Hfr Hf]%elem_of_list_filter). unfold alone in Hx.
        destruct (filter (stays e) f.2) as [|r rs] eqn:Hl; [by apply elem_of_nil in Hx|]. apply Hk, Exists_exists. exists f. by rewrite Hl.
      * apply apart_rows in Hx. eapply Hd2; [exact Hr0m|done].
    + pose proof Hf0 as Hf0'. apply elem_of_list_split in Hf0' as (a&b&Hman). exists a, f0, b, r0. split_and!; try done.
      intros g r' Hg Hr'. destruct (matches e r') eqn:Hm'; [|done]. exfalso. apply Hre, Exists_exists.
      assert (Hgm : g ∈ man).
      { rewrite Hman, elem_of_app, elem_of_cons. apply elem_of_app in Hg. tauto. }
      exists g. split; [done|]. apply Hrw; [auto|]. apply Exists_exists. eauto.
Qed.

Section separate.
Context (s : schema) (e : filter_expr) (w : world) (mf : option sexpr) (base : snapshot) (old : list row).
Notation fs := (w_fs w).
Hypothesis Hs : wf_schema s.
Hypothesis Hbase : wf_snap s fs base.
Hypothesis Hold : snap_rows s fs base old.
Hypothesis Hsafe : safe_filter s e.
Hypothesis Hmf : build_manifest_filter (fenv_of s) e = Ok mf.
Hypothesis Hnan : no_nan_keys (s_pks s) old.
Hypothesis Hdec : decided e old.
Notation fset := (fset_at fs mf (sn_idx base)).
Notation cs := (df_path <$> fset_files fset).
Notation rep := (rep s w base).

Lemma rep_row m f r : rep m f → r ∈ f.2 →
  ∃ r0, r0 ∈ file_rows fs (mr_path m) ∧ matches e r = matches e r0 ∧ matches (EUn FnNot e) r = matches (EUn FnNot e) r0.
Proof.
  intros (Hm&_&Hsh) [i Hi]%elem_of_list_lookup. destruct (Forall2_lookup_r _ _ _ _ _ Hsh Hi) as (r0&H0&Hv).
  apply elem_of_list_lookup_2 in H0. destruct (shown_row s fs base old m r0 Hbase Hold Hm H0) as (_&Hn&_).
  exists r0. split_and!; [done|..]; eapply vrow_matches; try done; [apply Hsafe|apply ignores_un, Hsafe].
Qed.
Lemma row_rep m f r0 : rep m f → r0 ∈ file_rows fs (mr_path m) → ∃ r, r ∈ f.2 ∧ matches e r = matches e r0.
Proof.
  intros (Hm&_&Hsh) Hr0. pose proof Hr0 as [i Hi]%elem_of_list_lookup. destruct (Forall2_lookup_l _ _ _ _ _ Hsh Hi) as (r&H1&Hv).
  apply elem_of_list_lookup_2 in H1. destruct (shown_row s fs base old m r0 Hbase Hold Hm Hr0) as (_&Hn&_).
  exists r. split; [done|]. eapply vrow_matches; try done. apply Hsafe.
Qed.
Lemma apart_only mans :
  Forall2 (fun q man => Forall2 rep (man_at fs q) man) (sn_idx base) mans → rows_of (concat mans) = old → NoDup old →
  apart_remaining cs e mans ≡ₚ filter (fun r => matches e r = false) old →
  separable (snap_layout fs base) (fun r => matches e r = true).
Proof.
  intros Hcut Hrows Hnd Hperm. rewrite <-Hrows in Hnd, Hperm.
  assert (Hrep : ∀ f, f ∈ concat mans → ∃ m, rep m f).
  { intros f (man&Hman&Hf)%elem_of_list_In%in_concat. apply elem_of_list_In, elem_of_list_lookup in Hman as [i Hi].
    destruct (Forall2_lookup_r _ _ _ _ _ Hcut Hi) as (q&_&Hq). apply elem_of_list_In, elem_of_list_lookup in Hf as [j Hj].
    destruct (Forall2_lookup_r _ _ _ _ _ Hq Hj) as (m&_&Hm). eauto. }
  assert (Hig : ignores (s_recs s) e) by apply Hsafe.
  assert (Hsep : ∀ man, man ∈ mans → parted e man).
  { apply (apart_separable cs e mans Hnd); [..|exact Hperm].
    - intros f g (m&_&Hp&Hsh)%Hrep (m'&_&Hp'&Hsh')%Hrep Heq. rewrite Hp, Hp' in Heq. rewrite Heq in Hsh. by eapply shows_fun.
    - intros f (m&Hm)%Hrep. rewrite <-(rep_hit s e w mf base _ Hbase Hold Hig m f Hm).
      assert (Hx : hit e w mf m ↔ ∃ r, r ∈ file_rows fs (mr_path m) ∧ matches e r = true).
      { eapply hit_row; try done. apply Hm. }
      rewrite Hx, Exists_exists. split.
      + intros (r0&H0&He0). destruct (row_rep m f r0 Hm H0) as (r&Hr&Heq). exists r. by rewrite Heq.
      + intros (r&Hr&He). destruct (rep_row m f r Hm Hr) as (r0&H0&Heq&_). exists r0. by rewrite <-Heq.
    - intros r (f&Hf&Hr)%elem_of_rows. destruct (Hrep f Hf) as (m&Hm). destruct (rep_row m f r Hm Hr) as (r0&H0&H1&H2).
      unfold stays. rewrite H1, H2.
      assert (matches (EUn FnNot e) r0 = negb (matches e r0)) as ->.
      { eapply row_decided; try done. split; [apply Hm|done]. }
      apply negb_true_iff. }
  intros man (q&->&Hq)%elem_of_list_fmap. apply elem_of_list_lookup in Hq as [i Hi].
  destruct (Forall2_lookup_l _ _ _ _ _ Hcut Hi) as (man&Hman&Hms). apply elem_of_list_lookup_2 in Hman.
  destruct (Hsep man Hman) as [Hall|(a&f&b&r&->&Hr&Hn&Hoth)].
  - left. intros t r (m&->&Hm)%elem_of_list_fmap Hr. apply elem_of_list_lookup in Hm as [j Hj].
    destruct (Forall2_lookup_l _ _ _ _ _ Hms Hj) as (f&Hf&Hrp). destruct (row_rep m f r Hrp Hr) as (y&Hy&<-).
    eapply Hall; [by eapply elem_of_list_lookup_2|done].
  - right. apply Forall2_app_inv_r in Hms as (ma&mb&Ha&Hb&Heq).
    apply Forall2_cons_inv_r in Hb as (m&mb'&Hm&Hb&->).
    destruct (rep_row m f r Hm Hr) as (r0&H0&Hm0&_).
    exists ((fun m => file_rows fs (mr_path m)) <$> ma), (file_rows fs (mr_path m)), ((fun m => file_rows fs (mr_path m)) <$> mb'), r0.
    split_and!; [by rewrite Heq, fmap_app|done|rewrite <-Hm0, Hn; done|].
    intros t r' Ht Hr'. rewrite <-fmap_app in Ht. apply elem_of_list_fmap in Ht as (m'&->&Hm').
    pose proof (Forall2_app Ha Hb) as Hab. apply elem_of_list_lookup in Hm' as [j Hj].
    destruct (Forall2_lookup_l _ _ _ _ _ Hab Hj) as (g&Hg&Hrp). destruct (row_rep m' g r' Hrp Hr') as (y&Hy&<-).
    rewrite (Hoth g y); [done|by eapply elem_of_list_lookup_2|done].
Qed.
End separate.

(** * The call *)
Lemma ray_delete_remaining_at σ hid s E fo e st before h p m mf base mans :
  seen s σ hid h p m → snap_of m (h_branch h) None = Some base →
  reads σ hid None before → ignores (s_recs s) e → build_manifest_filter (fenv_of s) e = Ok mf →
  Forall2 (fun q man => Forall2 (rep s (y_world σ) base) (man_at (w_fs (y_world σ)) q) man) (sn_idx base) mans →
  result σ hid (run_ray_delete E fo e) = Some (Ok (JSucceeded st)) →
  reads (after σ hid (run_ray_delete E fo e)) hid None
    (apart_remaining (df_path <$> fset_files (fset_at (w_fs (y_world σ)) mf (sn_idx base))) e mans).
Proof.
  intros Hseen Hsn Hb Hig Hmf0 Hcut Hres. change (run_ray_delete E fo e) with (transactional (ray_delete_body E fo e)) in *.
  pose proof (si_world _ _ (sn_inv _ _ _ _ _ _ Hseen)) as Hi.
  assert (Hok : body_ok s (ray_delete_body E fo e) (y_world σ) m).
  { intros h0 Hh0 _. destruct (ray_delete_body_run E fo s e h0 _ Hi Hh0) as (w'&r&?&?&Hm).
    exists w', r. split_and!; try done. destruct r as [op|]; [|done]. destruct Hm as (sn&mf'&ps&_&_&Hp&_&->).
    apply merge_patches_wf. by eapply pieces_wf. }
  destruct (fn_succeeded s σ hid h p m _ st Hseen Hok Hres) as (h'&q&base'&sn&pa&w1&Hseen'&Hd).
  pose proof (reads_iff _ _ _ _ _ _ None before Hseen) as [Hiff _]. destruct (Hiff Hb) as (sn0&Hsn0&Hold).
  pose proof Hd as [(h0&Hh0&Hb0&Hm0&Hfn) _ _ -> Hbase Hwb Hnext _ Hk1 Hk2].
  rewrite Hsn in Hbase. injection Hbase as <-. rewrite Hsn in Hsn0. injection Hsn0 as <-.
  destruct (ray_delete_body_run E fo s e h0 _ Hi Hh0) as (w'&r&Hrun&_&Hrows).
  rewrite Hfn in Hrun. injection Hrun as <- <-. destruct Hrows as (sn1&mf'&ps&Hg&Hmf&Hps&_&Hmerge).
  assert (sn1 = base) as ->.
  { apply (get_snapshot_snap_of h0 m) in Hg; [|done]. rewrite Hb0 in Hg. congruence. }
  assert (mf' = mf) as -> by congruence.
  pose proof (merged ps) as Hmg. rewrite <-Hmerge in Hmg. destruct Hmg as [_ Hcat].
  destruct Hnext as (_&_&_&Hpm&_). apply patch_manifests_iff in Hpm as (_&Hidx&_); [|apply Hwb].
  destruct Hcat as [Hadd _ Hdel _ _ _ _]. rewrite Hadd, Hdel in Hidx.
  eapply fn_done_reads; [exact Hseen|exact Hseen'|exact Hd|exact Hb|].
  intros _. exact (ray_delete_leaves s e (y_world σ) mf base before Hwb Hold Hig (w_fs w1) _ ps sn mans Hk1 Hk2 Hps Hidx Hcut).
Qed.
Lemma ray_delete_remaining σ hid s E fo e st before fset :
  reachable σ → schema_at σ hid = Some s → reads σ hid None before → ignores (s_recs s) e →
  result σ hid (candidates e) = Some (Ok fset) →
  result σ hid (run_ray_delete E fo e) = Some (Ok (JSucceeded st)) →
  ∃ mans, divides σ hid before mans
    ∧ reads (after σ hid (run_ray_delete E fo e)) hid None (apart_remaining (df_path <$> fset_files fset) e mans).
Proof.
  intros Hr Hsch Hb Hig Hc Hres. destruct (result_handle _ _ _ _ Hc) as [h Hh].
  destruct (reachable_seen _ _ _ Hr Hh) as (s'&p&m&H1).
  assert (s' = s) as -> by (rewrite (sn_schema _ _ _ _ _ _ H1) in Hsch; congruence).
  apply (reads_iff _ _ _ _ _ _ _ _ H1) in Hb as Hb'. destruct Hb' as (base&Hsn&Hold).
  destruct (candidates_run _ _ _ _ _ _ _ _ _ H1 Hsn Hc) as (mf&Hmf&->).
  destruct (cut s (y_world σ) base before Hold) as (mans&Hcut&Hrows). exists mans. split; [by eapply cut_divides|].
  by eapply ray_delete_remaining_at.
Qed.
Lemma ray_delete_iff σ hid s E fo e st before :
  reachable σ → schema_at σ hid = Some s → reads σ hid None before →
  safe_filter s e → no_nan_keys (s_pks s) before → decided e before → NoDup before →
  result σ hid (run_ray_delete E fo e) = Some (Ok (JSucceeded st)) →
  ∃ rows, reads (after σ hid (run_ray_delete E fo e)) hid None rows
    ∧ (rows ≡ₚ filter (fun r => matches e r = false) before ↔ separable (layout σ hid) (fun r => matches e r = true)).
Proof.
  intros Hr Hsch Hb Hsafe Hnan Hdec Hnd Hres. destruct (result_handle _ _ _ _ Hres) as [h Hh].
  destruct (reachable_seen _ _ _ Hr Hh) as (s'&p&m&H1).
  assert (s' = s) as -> by (rewrite (sn_schema _ _ _ _ _ _ H1) in Hsch; congruence).
  apply (reads_iff _ _ _ _ _ _ _ _ H1) in Hb as Hb'. destruct Hb' as (base&Hsn&Hold).
  pose proof (si_world _ _ (sn_inv _ _ _ _ _ _ H1)) as Hi.
  assert (Hmf : ∃ mf, build_manifest_filter (fenv_of s) e = Ok mf).
  { change (run_ray_delete E fo e) with (transactional (ray_delete_body E fo e)) in *.
    assert (Hok : body_ok s (ray_delete_body E fo e) (y_world σ) m).
    { intros h0 Hh0 _. destruct (ray_delete_body_run E fo s e h0 _ Hi Hh0) as (w'&r&?&?&Hm).
      exists w', r. split_and!; try done. destruct r as [op|]; [|done]. destruct Hm as (sn&mf'&ps&_&_&Hp&_&->).
      apply merge_patches_wf. by eapply pieces_wf. }
    destruct (fn_succeeded s σ hid h p m _ st H1 Hok Hres) as (h'&q&base'&sn&pa&w1&_&[(h0&Hh0&_&_&Hfn) _ _ _ _ _ _ _ _ _]).
    destruct (ray_delete_body_run E fo s e h0 _ Hi Hh0) as (w'&r&Hrun&_&Hrows).
    rewrite Hfn in Hrun. injection Hrun as <- <-. destruct Hrows as (_&mf&_&_&Hmf&_). eauto. }
  destruct Hmf as [mf Hmf].
  destruct (cut s (y_world σ) base before Hold) as (mans&Hcut&Hrows).
  assert (Hig : ignores (s_recs s) e) by apply Hsafe.
  pose proof (ray_delete_remaining_at σ hid s E fo e st before h p m mf base mans H1 Hsn Hb Hig Hmf Hcut Hres) as Hrd.
  eexists. split; [exact Hrd|]. split.
  - intros Hperm. rewrite (layout_eq _ _ _ _ _ _ _ H1 Hsn).
    assert (Hwb : wf_snap s (w_fs (y_world σ)) base) by (eapply snap_of_wf; [apply (sn_meta _ _ _ _ _ _ H1)|exact Hsn]).
    exact (apart_only s e (y_world σ) mf base before (wi_schema _ _ Hi) Hwb Hold Hsafe Hmf Hnan Hdec mans Hcut Hrows Hnd Hperm).
  - intros Hsep. destruct (ray_delete_removes σ hid s E fo e st before) as (rows&Hrd'&Hp); try done.
    eassert (Heq : _ = rows); [|rewrite Heq; by rewrite Hp].
    pose proof (Hrd E None). pose proof (Hrd' E None). congruence.
Qed.
