(** Joins of reachable datasets. *)
From Verif.Model Require Import System RayOps Join.
From Verif.Spec Require Import Logical Api Layout Pruning Joins.
From Verif.Proofs Require Import Lib Order FalsifySound World Resolve AppendSpec SchemaFacts ReadSpec Stats Bounds Wf OpSpec Inv
  FileSet Ops Bodies Txn SysInv ReadRun Effects DeleteEffect Observe View Prune Calls Reads Total Diff Shards RayRead Joins.

(** * When the range of a key is found *)
Lemma fold_omin_pick l acc a : foldl omin acc l = Some a → a ∈ l ∨ acc = Some a.
Proof.
  revert acc. induction l as [|x l IH]; intros acc; cbn; [by right|]. intros [?|Ha]%IH; [left; by right|].
  destruct acc as [m|]; cbn in Ha; [|injection Ha as ->; left; by left].
  destruct (scalar_lt x m); injection Ha as ->; [left; by left|by right].
Qed.
Lemma fold_omax_pick l acc a : foldl omax acc l = Some a → a ∈ l ∨ acc = Some a.
Proof.
  revert acc. induction l as [|x l IH]; intros acc; cbn; [by right|]. intros [?|Ha]%IH; [left; by right|].
  destruct acc as [m|]; cbn in Ha; [|injection Ha as ->; left; by left].
  destruct (scalar_lt m x); injection Ha as ->; [left; by left|by right].
Qed.
Definition kinded (t : aty) (st : option scalar * option scalar) : Prop := okind_ok t st.1 = true ∧ okind_ok t st.2 = true.
Lemma table_stats_kind t i ms :
  (∀ m, m ∈ ms → kinded t (stat_look m (i, SMin), stat_look m (i, SMax))) → kinded t (table_stats i ms).
Proof.
  intros Hms. split; unfold okind_ok; cbn.
  - destruct (foldl omin _ _) as [a|] eqn:Ha; [|done]. apply fold_omin_pick in Ha as [(m&Hm&Hv)%elem_of_list_omap|?]; [|done].
    destruct (Hms m Hm) as [H _]. cbn in H. by rewrite Hv in H.
  - destruct (foldl omax _ _) as [a|] eqn:Ha; [|done]. apply fold_omax_pick in Ha as [(m&Hm&Hv)%elem_of_list_omap|?]; [|done].
    destruct (Hms m Hm) as [_ H]. cbn in H. by rewrite Hv in H.
Qed.
Lemma merge_kinded t a b a' b' :
  kinded t (Some a, Some b) → kinded t (Some a', Some b') → ∃ c d, merge_stats (Some a, Some b) (Some a', Some b') = Ok (Some c, Some d) ∧ kinded t (Some c, Some d).
Proof.
  intros [H1 H2] [H3 H4]. unfold merge_stats. cbn. do 2 eexists. split; [done|].
  split; cbn; [destruct (scalar_lt a' a)|destruct (scalar_lt b b')]; done.
Qed.
Lemma merge_all {A} t (f : A → option scalar * option scalar) l a b :
  (∀ x, x ∈ l → ∃ c d, f x = (Some c, Some d) ∧ kinded t (f x)) → kinded t (Some a, Some b) →
  ∃ c d, rfoldM (fun cur x => merge_stats cur (f x)) (Some a, Some b) l = Ok (Some c, Some d) ∧ kinded t (Some c, Some d).
Proof.
  revert a b. induction l as [|x l IH]; intros a b Hl Hab; simpl; [eauto|].
  destruct (Hl x) as (c&d&Hx&Hk); [by left|]. rewrite Hx in *.
  destruct (merge_kinded t a b c d Hab Hk) as (c'&d'&Hm&Hk'). unfold merge_stats in Hm |- *. cbn [rbind] in *. rewrite Hm. cbn [rbind].
  apply IH; [intros; apply Hl; by right|done].
Qed.
Lemma range_found s fs sn key f :
  wf_schema s → wf_snap s fs sn → key ∈ s_pks s → plain_before s key → f ∈ s_fields s → f_name f = key →
  all_keyed key (snap_layout fs sn) →
  ∃ o, range_of fs (field_id f) (sn_idx sn) = Ok o
    ∧ ∀ g, o = Some g → kind_ok (f_ty (phys_field s f)) (rg_min g) = true ∧ kind_ok (f_ty (phys_field s f)) (rg_max g) = true
                        ∧ is_nan (rg_min g) = false ∧ is_nan (rg_max g) = false.
Proof.
  intros Hs Hw Hk Hpl Hf Hn Hkey. set (t := f_ty (phys_field s f)).
  assert (Hmrow : ∀ q m, q ∈ sn_idx sn → m ∈ man_at fs q → wf_mrow s fs m).
  { intros q m Hq Hm. destruct Hw as (_&Hw&_). eapply Forall_forall in Hw; [|exact Hq]. apply wf_man_at in Hw as [_ Hw].
    by eapply Forall_forall in Hw. }
  assert (Hst : ∀ q m, q ∈ sn_idx sn → m ∈ man_at fs q →
    (bounds (stat_look m (field_id f, SMin)) (stat_look m (field_id f, SMax)) (key_values fs key m)
     ∧ no_nan (stat_look m (field_id f, SMin), stat_look m (field_id f, SMax)))
    ∧ kinded t (stat_look m (field_id f, SMin), stat_look m (field_id f, SMax))).
  { intros q m Hq Hm. pose proof (Hmrow q m Hq Hm) as Hwm. split; [by eapply mrow_key_stats|].
    destruct Hwm as (cols&gs&E&_&_&_&Hman&_). apply elem_of_list_lookup in Hf as [k Hki].
    destruct (manifest_row_stat E s _ gs m k f Hs Hman Hki) as (st&_&H1&H2&Ha&Hb); [by rewrite Hn|].
    rewrite Ha, Hb. by destruct st. }
  assert (Htab : ∀ ms, ms ∈ man_at fs <$> sn_idx sn → ∃ c d, table_stats (field_id f) ms = (Some c, Some d) ∧ kinded t (table_stats (field_id f) ms)).
  { intros ms (q&->&Hq)%elem_of_list_fmap.
    destruct (Hkey ((fun m => file_rows fs (mr_path m)) <$> man_at fs q)) as (tb&r&v&Htb&Hr&Hv&Hnan).
    { apply elem_of_list_fmap. eauto. }
    apply elem_of_list_fmap in Htb as (m&->&Hm).
    destruct (table_stats_bounds fs key (field_id f) (man_at fs q)) as [Hb _].
    { intros m' Hm'. by apply (Hst q). }
    destruct (Hb v) as (a&b&Ha&Hb'&_).
    { apply elem_of_list_bind. exists m. split; [|done]. apply elem_of_list_omap. eauto. }
    { by destruct v. }
    exists a, b. split; [by destruct (table_stats _ _); cbn in *; subst|].
    apply table_stats_kind. intros m' Hm'. by apply (Hst q). }
  unfold range_of. destruct (man_at fs <$> sn_idx sn) as [|ms l] eqn:Hl.
  { exists None. by split. }
  assert (Hno : ∀ r, rfoldM (fun cur ms => merge_stats cur (table_stats (field_id f) ms)) (None, None) (ms :: l) = Ok r → no_nan r).
  { intros r. apply rfold_no_nan; [|intros a [?|?]; done]. rewrite <-Hl. intros ms' (q&->&Hq)%elem_of_list_fmap.
    apply (table_stats_bounds fs key). intros m' Hm'. by apply (Hst q). }
  destruct (Htab ms) as (c&d&Hcd&Hkd); [by left|].
  destruct (merge_all t (table_stats (field_id f)) l c d) as (a&b&Hab&Hkab).
  { intros x Hx. apply Htab. by right. }
  { by rewrite <-Hcd. }
  assert (Hr : rfoldM (fun cur ms => merge_stats cur (table_stats (field_id f) ms)) (None, None) (ms :: l) = Ok (Some a, Some b)).
  { assert (merge_stats (None, None) (table_stats (field_id f) ms) = Ok (Some c, Some d)) as Hm1 by by rewrite Hcd.
    cbn [rfoldM]. rewrite Hm1. exact Hab. }
  rewrite Hr. cbn [rbind]. eexists. split; [done|]. intros g [= <-]. cbn [rg_min rg_max].
  destruct Hkab as [? ?]. specialize (Hno _ Hr). split_and!; [done..| |]; apply Hno; [by left|by right].
Qed.

(** * When the tables are joined *)
Lemma kinds_agree t t' a b :
  kind_ok t a = true → kind_ok t' b = true → type_name t = type_name t' → is_nan a = false → is_nan b = false → skind a = skind b.
Proof. by destruct t, t', a, b. Qed.
Lemma join_tables_total key sl sr l r L R :
  join_accepts key sl sr l r = Ok tt →
  (∀ x n, x ∈ L → n ∈ side_fields sl l → n ∈ x.*1) → (∀ x n, x ∈ R → n ∈ side_fields sr r → n ∈ x.*1) →
  key ∈ side_fields sl l →
  ∃ o, join_tables key sl sr l r L R = Ok o ∧ (L ≠ [] → R ≠ [] → is_Some o).
Proof.
  intros Hacc HL HR Hkey. unfold join_tables. destruct L as [|x0 L]; [by exists None|]. destruct R as [|y0 R]; [by exists None|].
  rewrite Hacc. cbn [rbind]. set (L' := x0 :: L) in *. set (R' := y0 :: R) in *.
  destruct (tsel_total (output_fields key sl sr l r)
     (L' ≫= fun x => (fun y => x ++ y) <$> filter (fun y => keys_match key x y = true) R')) as [t Ht].
  - intros z n (x&(y&->&[_ Hy]%elem_of_list_filter)%elem_of_list_fmap&Hx)%elem_of_list_bind Hn.
    rewrite fmap_app. apply elem_of_app. unfold output_fields in Hn.
    apply elem_of_cons in Hn as [->|[[_ Hn]%elem_of_list_filter|[_ Hn]%elem_of_list_filter]%elem_of_app]; [left|left|right]; eauto.
  - rewrite Ht. cbn [rmap]. eexists. split; [done|]. eauto.
Qed.

(** * Joins of reachable datasets *)
Lemma make_join_ok sl sr keys lf rf lref rref key l r :
  make_join sl sr keys lf rf lref rref = Ok (key, l, r) →
  key ∈ s_pks sl ∧ key ∈ s_pks sr ∧ (∀ ns, ji_fields l = Some ns → key ∈ ns) ∧ (∀ ns, ji_fields r = Some ns → key ∈ ns).
Proof.
  assert (Hsan : ∀ k f f', sanitize k f = Ok f' → ∀ ns, f' = Some ns → k ∈ ns).
  { intros k f f'. unfold sanitize. destruct f as [ns|]; [|intros [= <-]; done]. case_decide; [done|].
    intros [= <-] ns' [= <-]. case_decide; [done|]. apply elem_of_app. right. by left. }
  unfold make_join. destruct keys as [|k [|? ?]]; [done| |done]. case_decide as Hk; [|done].
  intros (lf'&Hl&(rf'&Hr&Hj)%rbind_ok)%rbind_ok. destruct (_ && _) eqn:Hb; [|done]. injection Hj as <- <- <-.
  split_and!; [apply Hk..|by eapply Hsan|by eapply Hsan].
Qed.
Lemma side_reached E E' blocks key i σ hid s b L :
  reachable σ → schema_at σ hid = Some s → key ∈ s_pks s → plain_before s key →
  (∀ n, n ∈ side_fields s i → n ∈ s_names s) → (∀ ns, ji_fields i = Some ns → key ∈ ns) →
  result σ hid (run_read_all E' None (ji_fields i) None (ji_ref i) b) = Some (Ok L) →
  (∀ r, r ∈ L → row_look r key ≠ Some SNaN) →
  ∃ h h' f o, y_handles σ !! hid = Some h ∧ f ∈ s_fields s ∧ f_name f = key
    ∧ side s E blocks key i h (y_world σ) h' o L
    ∧ (all_keyed key (layout σ hid) →
        ∃ q, o = Ok q
        ∧ ∀ g, q = Some g → kind_ok (f_ty (phys_field s f)) (rg_min g) = true ∧ kind_ok (f_ty (phys_field s f)) (rg_max g) = true
                        ∧ is_nan (rg_min g) = false ∧ is_nan (rg_max g) = false).
Proof.
  intros Hre Hsc Hk Hpl Hsel Hkf Hread Hnan.
  assert (Hf : ∀ ns n, ji_fields i = Some ns → n ∈ ns → n ∈ s_names s).
  { intros ns n Hns Hn. apply Hsel. unfold side_fields. by rewrite Hns. }
  pose proof (ray_read_local σ hid s E E' blocks None (ji_fields i) None (ji_ref i) None b Hre Hsc Hf) as Hray.
  rewrite Hread in Hray. destruct (result_handle _ _ _ _ Hread) as [h Hh].
  destruct (reachable_seen _ _ _ Hre Hh) as (s'&p&m&Hseen).
  assert (s' = s) as ->. { pose proof (sn_schema _ _ _ _ _ _ Hseen). congruence. }
  rewrite (result_eq _ _ _ _ Hh) in Hray. cbn in Hray. injection Hray as Hray.
  pose proof Hseen as [Hi _ Hwf Hst Hm _]. pose proof (si_world _ _ Hi) as Hwi.
  destruct (ray_read_run E blocks None (ji_fields i) None (ji_ref i) None s h (y_world σ) p m Hwi Hwf Hst Hm) as (r&Hr&_).
  rewrite Hr in Hray. cbn in Hray. destruct r as [ts|e]; [|done]. cbn in Hray. injection Hray as <-.
  destruct (side_of E blocks key i s h (y_world σ) p m ts) as (sn&f&Hsn&Hfi&Hn&Hside); try done.
  { unfold read_names. destruct (ji_fields i) as [ns|] eqn:Hns; cbn; [by apply Hkf|by apply (seen_schema _ _ _ _ _ _ Hseen)]. }
  exists h, (sync p m h), f. eexists. split_and!; try done.
  intros Hkey. rewrite (layout_eq _ _ _ _ _ _ _ Hseen Hsn) in Hkey.
  eapply range_found; try done; [by eapply seen_schema|by eapply snap_of_wf].
Qed.
Lemma join_exact σl hl sl σr hr sr keys lf rf lref rref key l r E E' blocks part none_ok b b' L R out :
  reachable σl → reachable σr → schema_at σl hl = Some sl → schema_at σr hr = Some sr →
  make_join sl sr keys lf rf lref rref = Ok (key, l, r) →
  own_columns sl l → own_columns sr r →
  plain_before sl key → plain_before sr key →
  result σl hl (run_read_all E' None (ji_fields l) None (ji_ref l) b) = Some (Ok L) →
  result σr hr (run_read_all E' None (ji_fields r) None (ji_ref r) b') = Some (Ok R) →
  (∀ x, x ∈ L ∨ x ∈ R → row_look x key ≠ Some SNaN) →
  separates part (common key L R) →
  result2 σl hl σr hr (run_join none_ok E blocks part key l r) = Some (Ok out) →
  out ≡ₚ inner_join key (output_fields key sl sr l r) L R.
Proof.
  intros Hrl Hrr Hsl Hsr (Hkl&Hkr&Hil&Hir)%make_join_ok Hfl Hfr Hpl Hpr HL HR Hnan Hsep Hout.
  destruct (side_reached E E' blocks key l σl hl sl b L) as (h1&h1'&f1&o1&Hh1&_&_&Hs1&_); try done; [by intros; apply Hnan; left|].
  destruct (side_reached E E' blocks key r σr hr sr b' R) as (h2&h2'&f2&o2&Hh2&_&_&Hs2&_); try done; [by intros; apply Hnan; right|].
  unfold result2 in Hout. rewrite Hh1, Hh2 in Hout. rewrite (join_run none_ok part key E blocks sl sr l r _ _ _ _ _ _ _ _ _ _ Hs1 Hs2) in Hout.
  cbn [snd] in Hout. injection Hout as Hout. eapply joined_ok; [exact (sd_at _ _ _ _ _ _ _ _ _ _ Hs1)|exact (sd_at _ _ _ _ _ _ _ _ _ _ Hs2)| |done|done]. intros; apply Hnan; by left.
Qed.
Lemma joined_total none_ok part key sl sr l r kl kr dl dr hwl hwr t1 t2 q1 q2 L R :
  side_at (side_fields sl l) kl dl key hwl (Ok q1) L → side_at (side_fields sr r) kr dr key hwr (Ok q2) R →
  (∀ x, x ∈ L ∨ x ∈ R → row_look x key ≠ Some SNaN) →
  (∀ g, q1 = Some g → kind_ok t1 (rg_min g) = true ∧ kind_ok t1 (rg_max g) = true ∧ is_nan (rg_min g) = false ∧ is_nan (rg_max g) = false) →
  (∀ g, q2 = Some g → kind_ok t2 (rg_min g) = true ∧ kind_ok t2 (rg_max g) = true ∧ is_nan (rg_min g) = false ∧ is_nan (rg_max g) = false) →
  type_name t1 = type_name t2 → join_accepts key sl sr l r = Ok tt → key ∈ side_fields sl l →
  none_ok = true ∨ meets part (common key L R) →
  ∃ out, joined none_ok part key sl sr l r (Ok q1) (Ok q2) L R = Ok out.
Proof.
  intros Hs1 Hs2 Hnan Hg1 Hg2 Htypes Hacc Hkf Hmeet.
  assert (∃ gs, join_ranges part q1 q2 = Ok gs
     ∧ ∀ g, g ∈ gs → none_ok = true ∨ ∃ v, v ∈ common key L R ∧ within v g) as (gs&Hgs&Hgm).
  { destruct q1 as [g1|]; [|exists []; split; [done|]; intros g Hg; by apply elem_of_nil in Hg].
    destruct q2 as [g2|]; [|exists []; split; [done|]; intros g Hg; by apply elem_of_nil in Hg].
    destruct (Hg1 _ eq_refl) as (Hk1&Hk1'&Hx1&Hx1'), (Hg2 _ eq_refl) as (Hk2&Hk2'&Hx2&Hx2').
    assert (Hall : ∀ mn mx, py_max (rg_min g1) (rg_min g2) = Ok mn → py_min (rg_max g1) (rg_max g2) = Ok mx →
       ∀ u, u ∈ common key L R → within u (Range mn mx true)).
    { intros mn mx Hmn Hmx u [Hur Hul]%elem_of_list_filter.
      apply elem_of_list_omap in Hur as (y&Hy&Hyu). apply elem_of_list_omap in Hul as (x&Hx&Hxu).
      assert (Hun : is_nan u = false) by (destruct u; try done; by destruct (Hnan x (or_introl Hx))).
      destruct (sd_bounds _ _ _ _ _ _ _ Hs1 _ x u eq_refl Hx Hxu) as (?&?&[= ->]&?&?&?&?).
      destruct (sd_bounds _ _ _ _ _ _ _ Hs2 _ y u eq_refl Hy Hyu) as (?&?&[= ->]&?&?&?&?).
      destruct (py_max_le _ _ _ u Hmn) as [? ?]; [done..|]. destruct (py_min_le _ _ _ u Hmx) as [? ?]; [done..|].
      apply within_incl; [done..|]. split; auto. }
    assert (∃ mn, py_max (rg_min g1) (rg_min g2) = Ok mn) as [mn Hmn].
    { unfold py_max. rewrite decide_True by by eapply kinds_agree. eauto. }
    assert (∃ mx, py_min (rg_max g1) (rg_max g2) = Ok mx) as [mx Hmx].
    { unfold py_min. rewrite decide_True by by eapply kinds_agree. eauto. }
    specialize (Hall mn mx Hmn Hmx). cbn [join_ranges]. rewrite Hmn, Hmx. cbn [rbind]. eexists. split; [done|].
    intros g Hg. destruct Hmeet as [->|Hmeet]; [by left|]. right. unfold meets in Hmeet. destruct part as [pf|]; cbn [default from_option id] in Hg.
    - by apply (Hmeet (Range mn mx true)).
    - apply elem_of_list_singleton in Hg as ->. destruct (common key L R) as [|v vs]; [done|]. exists v. split; [by left|]. apply Hall. by left. }
  unfold joined. cbn [rbind]. rewrite Hgs. cbn [rbind].
  assert (Hgo : ∀ g, g ∈ gs → ∃ o, join_tables key sl sr l r (filter (in_range key g) L) (filter (in_range key g) R) = Ok o ∧ (none_ok = true ∨ is_Some o)).
  { intros g Hg. destruct (join_tables_total key sl sr l r (filter (in_range key g) L) (filter (in_range key g) R)) as (o&Ho&Hne).
    - done.
    - intros x n [_ Hx]%elem_of_list_filter Hn. by apply (sd_names _ _ _ _ _ _ _ Hs1).
    - intros x n [_ Hx]%elem_of_list_filter Hn. by apply (sd_names _ _ _ _ _ _ _ Hs2).
    - done.
    - exists o. split; [done|]. destruct (Hgm g Hg) as [?|(v&Hv&Hwi)]; [by left|right].
      apply elem_of_list_filter in Hv as [Hvr Hvl]. apply elem_of_list_omap in Hvr as (y&Hy&Hyv). apply elem_of_list_omap in Hvl as (x&Hx&Hxv).
      apply Hne.
      + assert (Hin : x ∈ filter (in_range key g) L) by (apply elem_of_list_filter; split; [apply in_range_iff; eauto|done]).
        intros Hnil. rewrite Hnil in Hin. by apply elem_of_nil in Hin.
      + assert (Hin : y ∈ filter (in_range key g) R) by (apply elem_of_list_filter; split; [apply in_range_iff; eauto|done]).
        intros Hnil. rewrite Hnil in Hin. by apply elem_of_nil in Hin. }
  assert (∃ rs, rmapM (fun g => join_tables key sl sr l r (filter (in_range key g) L) (filter (in_range key g) R)) gs = Ok rs
      ∧ (none_ok = true ∨ Forall is_Some rs)) as (rs&Hrs&Hsome).
  { clear -Hgo. induction gs as [|g gs IH]; [exists []; split; [done|by right]|].
    destruct (Hgo g) as (o&Ho&Hos); [by left|]. destruct IH as (rs&Hrs&Hsome); [intros; apply Hgo; by right|].
    exists (o :: rs). simpl. rewrite Ho. cbn [rbind]. rewrite Hrs. cbn [rbind]. split; [done|].
    destruct Hos; [by left|]. destruct Hsome; [by left|]. right. by constructor. }
  rewrite Hrs. cbn [rbind].
  assert (Hif : none_ok || forallb (fun x => bool_decide (is_Some x)) rs = true); [|rewrite Hif; eauto].
  destruct Hsome as [->|Hsome]; [done|]. apply orb_true_intro. right. apply forallb_forall. intros x Hx%elem_of_list_In.
  apply bool_decide_eq_true. by eapply Forall_forall in Hsome.
Qed.
Lemma join_succeeds σl hl sl σr hr sr keys lf rf lref rref key l r E E' blocks part none_ok b b' L R :
  reachable σl → reachable σr → schema_at σl hl = Some sl → schema_at σr hr = Some sr →
  make_join sl sr keys lf rf lref rref = Ok (key, l, r) →
  own_columns sl l → own_columns sr r →
  plain_before sl key → plain_before sr key →
  result σl hl (run_read_all E' None (ji_fields l) None (ji_ref l) b) = Some (Ok L) →
  result σr hr (run_read_all E' None (ji_fields r) None (ji_ref r) b') = Some (Ok R) →
  (∀ x, x ∈ L ∨ x ∈ R → row_look x key ≠ Some SNaN) →
  join_accepts key sl sr l r = Ok tt →
  all_keyed key (layout σl hl) → all_keyed key (layout σr hr) →
  none_ok = true ∨ meets part (common key L R) →
  ∃ out, result2 σl hl σr hr (run_join none_ok E blocks part key l r) = Some (Ok out).
Proof.
  intros Hrl Hrr Hsl Hsr (Hkl&Hkr&Hil&Hir)%make_join_ok Hfl Hfr Hpl Hpr HL HR Hnan Hacc Hyl Hyr Hmeet.
  destruct (side_reached E E' blocks key l σl hl sl b L) as (h1&h1'&f1&o1&Hh1&Hf1&Hn1&Hs1&Hq1); try done; [by intros; apply Hnan; left|].
  destruct (side_reached E E' blocks key r σr hr sr b' R) as (h2&h2'&f2&o2&Hh2&Hf2&Hn2&Hs2&Hq2); try done; [by intros; apply Hnan; right|].
  unfold result2. rewrite Hh1, Hh2. rewrite (join_run none_ok part key E blocks sl sr l r _ _ _ _ _ _ _ _ _ _ Hs1 Hs2).
  cbn [snd]. destruct (Hq1 Hyl) as (q1&->&Hg1), (Hq2 Hyr) as (q2&->&Hg2).
  assert (Htypes : type_name (f_ty (phys_field sl f1)) = type_name (f_ty (phys_field sr f2))).
  { unfold join_accepts in Hacc. case_decide as Hkt; [|done]. 
    assert (Hkey : ∀ (s : schema) f, wf_schema s → f ∈ s_fields s → f_name f = key → key_type s key = Some (type_name (f_ty (phys_field s f)))).
    { clear. intros s f Hs Hf Hn. unfold key_type.
      assert (head (filter (fun g => f_name g = key) (phys_schema s)) = Some (phys_field s f)) as ->; [|done].
      assert (Hpf : phys_field s f ∈ phys_schema s) by (apply elem_of_list_fmap; eauto).
      assert (Hnd : NoDup (names_of (phys_schema s))) by (rewrite phys_names; apply Hs).
      assert (Hpn : f_name (phys_field s f) = key) by (by rewrite phys_field_name).
      revert Hpf Hnd Hpn. generalize (phys_field s f) as g, (phys_schema s) as fs. clear. intros g fs Hg Hnd Hn.
      induction fs as [|x fs IH]; [by apply elem_of_nil in Hg|]. rewrite filter_cons. unfold names_of in Hnd. cbn in Hnd.
      apply NoDup_cons in Hnd as [Hx Hnd]. apply elem_of_cons in Hg as [->|Hg].
      - by rewrite decide_True.
      - rewrite decide_False; [by apply IH|]. intros Hxk. apply Hx. rewrite Hxk, <-Hn. apply elem_of_list_fmap. eauto. }
    assert (Hw1 : wf_schema sl) by (destruct (reachable_seen _ _ _ Hrl Hh1) as (s'&?&?&Hse); pose proof (sn_schema _ _ _ _ _ _ Hse);
      assert (s' = sl) as <- by congruence; by eapply seen_schema).
    assert (Hw2 : wf_schema sr) by (destruct (reachable_seen _ _ _ Hrr Hh2) as (s'&?&?&Hse); pose proof (sn_schema _ _ _ _ _ _ Hse);
      assert (s' = sr) as <- by congruence; by eapply seen_schema).
    rewrite (Hkey sl f1), (Hkey sr f2) in Hkt by done. by injection Hkt. }
  destruct (joined_total none_ok part key sl sr l r _ _ _ _ _ _ _ _ q1 q2 L R
    (sd_at _ _ _ _ _ _ _ _ _ _ Hs1) (sd_at _ _ _ _ _ _ _ _ _ _ Hs2) Hnan Hg1 Hg2 Htypes Hacc) as [out ->]; [|done|eauto].
  unfold side_fields. destruct (ji_fields l) as [ns|] eqn:Hns; cbn; [by apply Hil|].
  apply elem_of_list_fmap. exists f1. by split.
Qed.
