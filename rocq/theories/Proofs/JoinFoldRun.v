(** Joins with flattened addresses, whole calls. *)
From Verif.Model Require Import System RayOps Join JoinFold.
From Verif.Spec Require Import Logical Api Layout Pruning Joins Joinable JoinFolds.
From Verif.Proofs Require Import Lib World Bounds Resolve AppendSpec SchemaFacts ReadSpec Wf OpSpec Inv FileSet Ops Bodies Txn SysInv ReadRun Effects
  Observe View Prune Calls Reads Total Diff Shards RayRead Joins JoinCalls JoinAccept JoinFold.

Lemma distinct_output key sl sr l r : distinct_columns key sl sr l r → NoDup (output_fields key sl sr l r).
Proof.
  intros (Hl&Hr&_&_&Hsh). unfold output_fields. apply NoDup_cons. split.
  - intros [[? _]%elem_of_list_filter|[? _]%elem_of_list_filter]%elem_of_app; done.
  - apply NoDup_app. split_and!; [by apply NoDup_filter| |by apply NoDup_filter].
    intros n [Hne Hn]%elem_of_list_filter [_ Hn']%elem_of_list_filter. by apply Hne, Hsh.
Qed.
Lemma join_flat_same key sl sr l r L R :
  side_recs key sl l → side_recs key sr r → distinct_columns key sl sr l r → parts_free sl sr l r →
  key ∈ side_fields sl l → (∀ x, x ∈ L → side_row key sl l x) → (∀ y, y ∈ R → side_row key sr r y) →
  join_flat key sl sr l r L R = join_tables key sl sr l r L R.
Proof.
  intros Hl Hr Hd Hfree Hk HL HR. pose proof (distinct_output _ _ _ _ _ Hd) as Hnd.
  assert (Hrow : ∀ x y, x ∈ L → y ∈ R → joined_row key sl sr l r x y = rsel (output_fields key sl sr l r) (x ++ y)).
  { intros x y Hx Hy. apply joined_row_ok; auto. }
  destruct L as [|x L]; [done|]. destruct R as [|y R]; [done|]. unfold join_flat, join_tables, join_accepts.
  case_decide; [|done]. destruct (_ && _); [|done]. rewrite decide_True by done. cbn [rbind].
  rewrite (Hrow x y) by by left. destruct (rsel_total (output_fields key sl sr l r) (x ++ y)) as [z ->].
  { intros n Hn. rewrite fmap_app, elem_of_app, (sw_names _ _ _ _ (HL x ltac:(by left))), (sw_names _ _ _ _ (HR y ltac:(by left))).
    unfold output_fields in Hn.
    apply elem_of_cons in Hn as [->|[[? ?]%elem_of_list_filter|[? ?]%elem_of_list_filter]%elem_of_app]; [by left|by left|by right]. }
  cbn [rbind]. f_equal. unfold tsel. revert Hrow. clear. generalize (x :: L) as L0, (y :: R) as R0. intros L0 R0 Hrow.
  assert (Hall : ∀ ps : list (row * row), (∀ p, p ∈ ps → p.1 ∈ L0 ∧ p.2 ∈ R0) →
    rmapM (fun xy => joined_row key sl sr l r xy.1 xy.2) ps = rmapM (rsel (output_fields key sl sr l r)) ((fun p => p.1 ++ p.2) <$> ps)).
  { induction ps as [|p ps IH]; intros Hps; [done|]. cbn. destruct (Hps p) as [? ?]; [by left|]. rewrite Hrow by done.
    by rewrite IH by (intros; apply Hps; by right). }
  rewrite Hall; cycle 1.
  { intros [a b] (x'&(b'&[= -> ->]&Hb)%elem_of_list_fmap&Hx)%elem_of_list_bind. apply elem_of_list_filter in Hb as [_ Hb]. by split. }
  f_equal. clear. induction L0 as [|x0 L0 IH]; [done|]. rewrite !bind_cons, fmap_app, IH. f_equal. by rewrite <-list_fmap_compose.
Qed.

(** * What sides read *)
Lemma folded_facts σ hid s key i : reachable σ → schema_at σ hid = Some s → key ∈ s_pks s → NoDup (s_recs s) → side_recs key s i.
Proof.
  intros Hre Hs Hk Hnd. pose proof (reached_schema _ _ _ Hre Hs) as Hw.
  assert (Hsel : ∀ f, f ∈ selected_recs s i → f ∈ s_recs s ∧ f ∈ side_fields s i).
  { intros f. unfold selected_recs, side_fields. destruct (ji_fields i); cbn.
    - by intros [? ?]%elem_of_remove_dups%elem_of_list_filter.
    - intros ?. split; [done|]. by apply (wsc_recs _ Hw). }
  split; unfold folded_recs.
  - destruct (ji_ref i); [|apply NoDup_nil_2]. unfold selected_recs. destruct (ji_fields i); [apply NoDup_remove_dups|done].
  - intros f. destruct (ji_ref i); [|by intros ?%elem_of_nil]. by intros [_ ?]%Hsel.
  - intros f. destruct (ji_ref i); [|by intros ?%elem_of_nil]. by intros [? _]%Hsel.
  - by destruct (ji_ref i).
  - destruct (ji_ref i); [|apply not_elem_of_nil]. intros [? _]%Hsel. by apply (wsc_disj _ Hw) in Hk.
Qed.
Lemma folded_in s i n : ji_ref i = true → n ∈ side_fields s i → n ∈ folded_recs s i ↔ n ∈ s_recs s.
Proof.
  intros Href Hn. unfold folded_recs, selected_recs. rewrite Href. unfold side_fields in Hn. destruct (ji_fields i); [|done].
  rewrite elem_of_remove_dups, elem_of_list_filter. cbn in Hn. tauto.
Qed.
Lemma conforms_address s x n c : row_conforms s x = true → n ∈ s_names s → rget n x = Some c → n ∈ s_recs s ↔ ∃ p i, c = CAddr p i.
Proof.
  intros Hc (f&Hf&<-)%name_field Hx. pose proof (conforms_cell _ _ _ Hc Hf) as Hok. rewrite Hx in Hok. cbn in Hok.
  unfold cell_ok in Hok. case_bool_decide.
  - split; [|done]. intros _. destruct c; try done. eauto.
  - split; [done|]. by intros (p&i&->).
Qed.
Lemma selected_cell A r x n c : rsel A r = Ok x → (n, c) ∈ x → n ∈ A ∧ rget n r = Some c.
Proof.
  intros H%rsel_ok Hin. apply elem_of_list_lookup in Hin as [k Hk]. destruct (Forall2_lookup_r _ _ _ _ _ H Hk) as (m&Hm&Hnm&Hg).
  cbn in Hnm, Hg. subst m. split; [by eapply elem_of_list_lookup_2|done].
Qed.
Lemma read_order_perm s A : read_order s A ≡ₚ A.
Proof.
  unfold read_order. induction A as [|n A IH]; [done|]. rewrite !filter_cons. destruct (decide (n ∈ s_recs s)).
  - rewrite decide_False by tauto. rewrite <-Permutation_middle. by rewrite IH.
  - rewrite decide_True by done. cbn. by rewrite IH.
Qed.
Lemma read_rows σ hid s key i E b L x :
  reachable σ → schema_at σ hid = Some s → own_columns s i →
  result σ hid (run_read_all E None (ji_fields i) None (ji_ref i) b) = Some (Ok L) → x ∈ L → side_row key s i x.
Proof.
  intros Hre Hsc Hsel Hread Hx.
  assert (Hf : ∀ ns n, ji_fields i = Some ns → n ∈ ns → n ∈ s_names s).
  { intros ns n Hns Hn. apply Hsel. unfold side_fields. by rewrite Hns. }
  pose proof (ray_read_local σ hid s E E false None (ji_fields i) None (ji_ref i) None b Hre Hsc Hf) as Hray.
  rewrite Hread in Hray. destruct (result_handle _ _ _ _ Hread) as [h Hh].
  destruct (reachable_seen _ _ _ Hre Hh) as (s'&p&m&Hseen).
  assert (s' = s) as ->. { pose proof (sn_schema _ _ _ _ _ _ Hseen). congruence. }
  rewrite (result_eq _ _ _ _ Hh) in Hray. cbn in Hray. injection Hray as Hray.
  pose proof Hseen as [Hi _ Hwf Hst Hm _]. pose proof (si_world _ _ Hi) as Hwi.
  destruct (ray_read_run E false None (ji_fields i) None (ji_ref i) None s h (y_world σ) p m Hwi Hwf Hst Hm) as (r&Hr&Hc).
  rewrite Hr in Hray. cbn in Hray. destruct r as [ts|e]; [|done]. cbn in Hray. injection Hray as <-.
  destruct (snap_of m (h_branch h) None) as [sn|] eqn:Hsn; [|done]. cbn [man_filter] in Hc.
  destruct (Hc Hsel) as (ts0&lrows&[= <-]&Hl&Ht&_). cbn [filter_rows] in Hl, Ht. rewrite picked_rows_none in Hl, Ht.
  assert (Hw : wf_snap s (w_fs (y_world σ)) sn) by by eapply snap_of_wf.
  assert (Hconf : ∀ y, y ∈ phys_rows (w_fs (y_world σ)) sn → row_conforms s y = true).
  { intros y Hy. pose proof (man_rows_conform _ _ _ (wf_snap_mrows _ _ _ Hw)) as Hall. by eapply Forall_forall in Hall. }
  apply elem_of_list_lookup in Hx as [k Hx].
  change (read_names s (ji_fields i)) with (side_fields s i) in Ht.
  destruct (ji_ref i) eqn:Href.
  - apply tsel_ok in Ht. destruct (Forall2_lookup_r _ _ _ _ _ Ht Hx) as (y&Hy&Hxy). apply elem_of_list_lookup_2 in Hy. split.
    + by rewrite (rsel_names _ _ _ Hxy).
    + intros n c Hnc. destruct (selected_cell _ _ _ _ _ Hxy Hnc) as [Hn Hg]. rewrite (folded_in s i n Href Hn).
      eapply conforms_address; [by apply Hconf|by apply Hsel|done].
  - apply tsel_ok in Ht. destruct (Forall2_lookup_r _ _ _ _ _ Ht Hx) as (z&Hz&Hzx).
    apply mapM_Some in Hl. destruct (Forall2_lookup_r _ _ _ _ _ Hl Hz) as (y&Hy&Hyz). apply elem_of_list_lookup_2 in Hy. split.
    + rewrite (rsel_names _ _ _ Hzx). apply read_order_perm.
    + intros n c Hnc. destruct (selected_cell _ _ _ _ _ Hzx Hnc) as [Hn Hg]. apply elem_of_read_order in Hn.
      unfold folded_recs. rewrite Href. split; [by intros ?%elem_of_nil|]. intros (q&j&->). exfalso.
      pose proof (rget_resolve _ _ _ _ n Hyz) as Hres. destruct (rget n y) as [c|] eqn:Hgy; [|congruence].
      destruct Hres as (d&Hd&Hgd). assert (d = CAddr q j) as -> by congruence. unfold resolve_field in Hd. cbn [fst snd] in Hd.
      case_decide as Hrec.
      * unfold resolve_cell in Hd. destruct c as [| |p0 i0|]; try done. case_decide; [|done].
        destruct (records_in (w_fs (y_world σ)) p0) as [rs|]; cbn in Hd; [|done]. by destruct (rs !! Z.to_nat i0).
      * injection Hd as ->. apply Hrec. eapply conforms_address; [by apply Hconf|by apply Hsel|done|eauto].
Qed.

(** * Whole calls *)
Lemma sides_flat_same none_ok part key sl sr l r nl nr kl kr dl dr hwl hwr a b L R :
  side_at nl kl dl key hwl a L → side_at nr kr dr key hwr b R →
  side_recs key sl l → side_recs key sr r → distinct_columns key sl sr l r → parts_free sl sr l r →
  key ∈ side_fields sl l → (∀ x, x ∈ L → side_row key sl l x) → (∀ y, y ∈ R → side_row key sr r y) →
  join_sides_flat none_ok part key sl sr l r kl kr dl dr (hwl, hwr) = join_sides none_ok part key sl sr l r kl kr dl dr (hwl, hwr).
Proof.
  intros Hl Hr Hrl Hrr Hd Hfree Hk HL HR. rewrite (join_sides_run _ _ _ _ _ _ _ _ _ _ _ _ _ _ _ _ _ _ _ Hl Hr).
  destruct Hl as [Hra Hda _ _], Hr as [Hrb Hdb _ _]. unfold join_sides_flat.
  rewrite (bind_run' _ _ _ _ _ (on_left_run _ _ _ _ _ Hra)). unfold joined. destruct a as [a|e]; [|done].
  rewrite (bind_run' _ _ _ _ _ (on_right_run _ _ _ _ _ Hrb)). destruct b as [c|e]; [|done].
  rewrite lift_bind. cbn [rbind]. destruct (join_ranges part a c) as [gs|e]; [|done]. cbn [rbind].
  erewrite bind_run'; [|apply mapM_st_still]; cycle 1.
  { intros g _. cbv beta zeta. destruct (Hda g) as (tl&Htl&Hcl), (Hdb g) as (tr&Htr&Hcr).
    rewrite (bind_run _ _ _ _ _ (on_left_run _ _ _ _ _ Htl)).
    rewrite (bind_run _ _ _ _ _ (on_right_run _ _ _ _ _ Htr)). rewrite Hcl, Hcr.
    rewrite join_flat_same; [unfold lift; reflexivity|done..| |].
    - intros x [_ Hx]%elem_of_list_filter. by apply HL.
    - intros x [_ Hx]%elem_of_list_filter. by apply HR. }
  destruct (rmapM _ gs) as [rs|e]; [|done]. cbn [rbind]. by destruct (none_ok || _).
Qed.
Lemma run_flat_same σl hl sl σr hr sr keys lf rf lref rref key l r E E' blocks part none_ok b b' L R :
  reachable σl → reachable σr → schema_at σl hl = Some sl → schema_at σr hr = Some sr →
  make_join sl sr keys lf rf lref rref = Ok (key, l, r) →
  own_columns sl l → own_columns sr r → distinct_columns key sl sr l r → parts_free sl sr l r →
  plain_before sl key → plain_before sr key →
  result σl hl (run_read_all E' None (ji_fields l) None (ji_ref l) b) = Some (Ok L) →
  result σr hr (run_read_all E' None (ji_fields r) None (ji_ref r) b') = Some (Ok R) →
  (∀ x, x ∈ L ∨ x ∈ R → row_look x key ≠ Some SNaN) →
  result2 σl hl σr hr (run_join_flat none_ok E blocks part key l r) = result2 σl hl σr hr (run_join none_ok E blocks part key l r).
Proof.
  intros Hrl Hrr Hsl Hsr (Hkl&Hkr&Hil&Hir)%make_join_ok Hfl Hfr Hd Hfree Hpl Hpr HL HR Hnan.
  destruct (side_reached E E' blocks key l σl hl sl b L) as (h1&h1'&f1&o1&Hh1&_&_&Hs1&_); try done; [by intros; apply Hnan; left|].
  destruct (side_reached E E' blocks key r σr hr sr b' R) as (h2&h2'&f2&o2&Hh2&_&_&Hs2&_); try done; [by intros; apply Hnan; right|].
  unfold result2. rewrite Hh1, Hh2. f_equal.
  destruct Hs1 as [[b1 Hl] Hml Ha], Hs2 as [[b2 Hr] Hmr Hb]. unfold run_join_flat, run_join.
  rewrite !(bind_run _ _ _ _ _ (on_left_run _ _ _ _ _ Hl)).
  rewrite !(bind_run _ _ _ _ _ (on_right_run _ _ _ _ _ Hr)).
  rewrite !(bind_run (on_left get_handle) _ (h1', y_world σl, (h2', y_world σr)) (h1', y_world σl, (h2', y_world σr)) h1') by done.
  rewrite !(bind_run (on_right get_handle) _ (h1', y_world σl, (h2', y_world σr)) (h1', y_world σl, (h2', y_world σr)) h2') by done.
  rewrite Hml, Hmr. f_equal. eapply sides_flat_same; [exact Ha|exact Hb|..]; try done.
  - eapply (folded_facts σl hl); try done. apply Hd.
  - eapply (folded_facts σr hr); try done. apply Hd.
  - unfold side_fields. destruct (ji_fields l) as [ns|] eqn:Hns; cbn; [by apply Hil|].
    by apply (wsc_pks _ (reached_schema _ _ _ Hrl Hsl)).
  - intros x Hx. by eapply (read_rows σl hl).
  - intros x Hx. by eapply (read_rows σr hr).
Qed.
Lemma flat_exact σl hl sl σr hr sr keys lf rf lref rref key l r E E' blocks part none_ok b b' L R out :
  reachable σl → reachable σr → schema_at σl hl = Some sl → schema_at σr hr = Some sr →
  make_join sl sr keys lf rf lref rref = Ok (key, l, r) →
  own_columns sl l → own_columns sr r → distinct_columns key sl sr l r → parts_free sl sr l r →
  plain_before sl key → plain_before sr key →
  result σl hl (run_read_all E' None (ji_fields l) None (ji_ref l) b) = Some (Ok L) →
  result σr hr (run_read_all E' None (ji_fields r) None (ji_ref r) b') = Some (Ok R) →
  (∀ x, x ∈ L ∨ x ∈ R → row_look x key ≠ Some SNaN) →
  separates part (common key L R) →
  result2 σl hl σr hr (run_join_flat none_ok E blocks part key l r) = Some (Ok out) →
  out ≡ₚ inner_join key (output_fields key sl sr l r) L R.
Proof.
  intros ? ? ? ? Hmk ? ? ? ? ? ? HL HR Hnan ? Hout.
  rewrite (run_flat_same σl hl sl σr hr sr keys lf rf lref rref key l r E E' blocks part none_ok b b' L R) in Hout by done.
  by eapply (join_exact σl hl sl σr hr sr).
Qed.
Lemma flat_returns σl hl sl σr hr sr keys lf rf lref rref key l r E E' blocks part none_ok b b' L R :
  reachable σl → reachable σr → schema_at σl hl = Some sl → schema_at σr hr = Some sr →
  make_join sl sr keys lf rf lref rref = Ok (key, l, r) →
  own_columns sl l → own_columns sr r → distinct_columns key sl sr l r → parts_free sl sr l r →
  plain_before sl key → plain_before sr key →
  result σl hl (run_read_all E' None (ji_fields l) None (ji_ref l) b) = Some (Ok L) →
  result σr hr (run_read_all E' None (ji_fields r) None (ji_ref r) b') = Some (Ok R) →
  (∀ x, x ∈ L ∨ x ∈ R → row_look x key ≠ Some SNaN) →
  joinable key sl sr l r →
  all_keyed key (layout σl hl) → all_keyed key (layout σr hr) →
  none_ok = true ∨ meets part (common key L R) →
  ∃ out, result2 σl hl σr hr (run_join_flat none_ok E blocks part key l r) = Some (Ok out).
Proof.
  intros ? ? ? ? Hmk ? ? ? ? ? ? HL HR Hnan ? ? ? ?.
  rewrite (run_flat_same σl hl sl σr hr sr keys lf rf lref rref key l r E E' blocks part none_ok b b' L R) by done.
  by eapply (join_returns σl hl sl σr hr sr keys lf rf lref rref key l r E E' blocks part none_ok b b' L R).
Qed.

Lemma parts_tested sl sr l r :
  forallb (fun f => forallb (fun n => bool_decide (n ≠ f +:+ "._FILE") && bool_decide (n ≠ f +:+ "._ROW_ID"))
    (side_fields sl l ++ side_fields sr r)) ((if ji_ref l then s_recs sl else []) ++ (if ji_ref r then s_recs sr else [])) = true →
  parts_free sl sr l r.
Proof.
  intros H f n Hf Hn. rewrite forallb_forall in H. specialize (H f). rewrite <-elem_of_list_In in H.
  rewrite forallb_forall in H. assert (Hb : bool_decide (n ≠ f +:+ "._FILE") && bool_decide (n ≠ f +:+ "._ROW_ID") = true).
  { apply H; [|by apply elem_of_list_In, elem_of_app]. apply elem_of_app. destruct Hf as [[-> ?]|[-> ?]]; [by left|by right]. }
  apply andb_true_iff in Hb as [?%bool_decide_eq_true ?%bool_decide_eq_true]. done.
Qed.
Lemma distinct_tested key sl sr l r :
  bool_decide (NoDup (side_fields sl l)) && bool_decide (NoDup (side_fields sr r)) && bool_decide (NoDup (s_recs sl))
    && bool_decide (NoDup (s_recs sr)) && forallb (fun n => bool_decide (n ∈ side_fields sr r → n = key)) (side_fields sl l) = true →
  distinct_columns key sl sr l r.
Proof.
  intros [[[[?%bool_decide_eq_true ?%bool_decide_eq_true]%andb_true_iff ?%bool_decide_eq_true]%andb_true_iff
    ?%bool_decide_eq_true]%andb_true_iff Hall]%andb_true_iff. rewrite forallb_forall in Hall.
  split_and!; [done..|]. intros n Hl%elem_of_list_In%Hall%bool_decide_eq_true. done.
Qed.
Lemma keyed_lists key lay :
  forallb (fun man => existsb (fun t => existsb (fun r => match row_look r key with Some v => negb (is_nan v) | None => false end) t) man) lay = true →
  all_keyed key lay.
Proof.
  intros H man Hman. rewrite forallb_forall in H. apply elem_of_list_In in Hman. apply H in Hman.
  apply existsb_exists in Hman as (t&Ht&(r&Hr&Hv)%existsb_exists). exists t, r. destruct (row_look r key) as [v|]; [|done]. exists v.
  split_and!; [by apply elem_of_list_In..|done|]. intros ->. done.
Qed.
