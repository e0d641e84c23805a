(** Joins of views with flattened addresses. *)
From Verif.Model Require Import System RayOps ViewJoin ViewJoinFold.
From Verif.Spec Require Import Logical Api Layout Pruning ViewJoins JoinFolds ViewJoinFolds.
From Verif.Proofs Require Import Lib World Bounds Resolve AppendSpec SchemaFacts ReadSpec Wf OpSpec Inv FileSet Ops Bodies Txn SysInv ReadRun Effects
  Observe View Prune Calls Reads Total Diff Shards RayRead Joins JoinCalls JoinAccept JoinFold JoinFoldRun RefreshSource ViewPlans ViewReads ViewJoins.

Section view.
Context {F : Type} (map_fn : F → row → list row) (keep_fn : F → row → bool).

Lemma view_recs (v : view F) i key rows :
  addressed v (ji_ref i) rows → key ∈ v_pks v → NoDup (v_recs v) → side_recs key (view_schema v) i.
Proof.
  intros [Hc _] Hk Hnd.
  assert (Hsel : ∀ f, f ∈ selected_recs (view_schema v) i → f ∈ v_recs v ∧ f ∈ side_fields (view_schema v) i).
  { intros f. unfold selected_recs, side_fields. destruct (ji_fields i); cbn.
    - by intros [? ?]%elem_of_remove_dups%elem_of_list_filter.
    - intros ?. split; [done|]. by apply Hc. }
  split; unfold folded_recs.
  - destruct (ji_ref i); [|apply NoDup_nil_2]. unfold selected_recs. destruct (ji_fields i); [apply NoDup_remove_dups|done].
  - intros f. destruct (ji_ref i); [|by intros ?%elem_of_nil]. by intros [_ ?]%Hsel.
  - intros f. destruct (ji_ref i); [|by intros ?%elem_of_nil]. by intros [? _]%Hsel.
  - by destruct (ji_ref i).
  - destruct (ji_ref i); [|apply not_elem_of_nil]. intros [[_ ?]%Hc _]%Hsel. done.
Qed.
Lemma view_row (v : view F) i key rows L x :
  addressed v (ji_ref i) rows → NoDup (side_fields (view_schema v) i) → Forall2 alike L rows →
  (∀ r, r ∈ L → r.*1 ≡ₚ side_fields (view_schema v) i) → x ∈ L → side_row key (view_schema v) i x.
Proof.
  intros [_ Ha] Hnd HL Hn Hx. pose proof (Hn x Hx) as Hp. split; [done|]. intros n c Hc.
  assert (Hg : rget n x = Some c). { apply in_rget; [by rewrite Hp|done]. }
  apply elem_of_list_lookup in Hx as [k Hk]. destruct (Forall2_lookup_l _ _ _ _ _ HL Hk) as (y&Hy&Hxy).
  rewrite (Hxy n) in Hg. rewrite (Ha y n c (elem_of_list_lookup_2 _ _ _ Hy) Hg).
  assert (Hin : n ∈ side_fields (view_schema v) i). { rewrite <-Hp. apply elem_of_list_fmap. by exists (n, c). }
  destruct (ji_ref i) eqn:Hr.
  - rewrite (folded_in (view_schema v) i n Hr Hin). cbn. tauto.
  - unfold folded_recs. rewrite Hr. split; [by intros ?%elem_of_nil|]. by intros [? _].
Qed.

Lemma view_join_same σl hl sl σr hr sr (vl vr : view F) keys lf rf lref rref key l r E E' blocks src part none_ok batch b b' rows_l rows_r :
  reachable σl → reachable σr → schema_at σl hl = Some sl → schema_at σr hr = Some sr →
  make_join (view_schema vl) (view_schema vr) keys lf rf lref rref = Ok (key, l, r) →
  own_columns (view_schema vl) l → own_columns (view_schema vr) r →
  distinct_columns key (view_schema vl) (view_schema vr) l r → parts_free (view_schema vl) (view_schema vr) l r →
  result σl hl (run_read_all E' None None None (ji_ref l) b) = Some (Ok rows_l) →
  result σr hr (run_read_all E' None None None (ji_ref r) b') = Some (Ok rows_r) →
  good_side map_fn keep_fn sl vl (ji_ref l) key rows_l → good_side map_fn keep_fn sr vr (ji_ref r) key rows_r →
  addressed vl (ji_ref l) (asked map_fn keep_fn sl vl l rows_l) → addressed vr (ji_ref r) (asked map_fn keep_fn sr vr r rows_r) →
  (src = Shared false → result σl hl reload = Some (Ok false)) →
  result2 σl hl σr hr (run_view_join_flat map_fn keep_fn E blocks src none_ok part key vl vr l r)
  = result2 σl hl σr hr (run_join_read map_fn keep_fn E blocks src none_ok part key vl vr l r None None None false batch).
Proof.
  intros Hrl Hrr Hsl Hsr (Hkl&Hkr&Hil&Hir)%make_join_ok Hfl Hfr Hd Hfree HL HR Hgl Hgr Hal Har Hsrc.
  destruct (view_side map_fn keep_fn σl hl sl E E' blocks key vl l b rows_l) as (h1&h1'&f1&o1&L&Hh1&[b1 Hre1]&Hf1&Hfn1&Hs1&Ha1&Hc1&_); try done.
  destruct (view_side map_fn keep_fn σr hr sr E E' blocks key vr r b' rows_r) as (h2&h2'&f2&o2&R&Hh2&[b2 Hre2]&_&_&Hs2&Ha2&Hc2&_); try done.
  unfold result2. rewrite Hh1, Hh2. f_equal.
  assert (Hold : src = Shared false → h1' = h1). { intros ->. by eapply not_reloaded; [..|apply Hsrc]. }
  rewrite (join_read_run map_fn keep_fn _ _ _ _ _ _ _ _ _ _ _ _ _ _ _ _ _ _ _ _ Hre1 Hre2 Hold).
  unfold run_view_join_flat, join_views. rewrite (bind_run _ _ _ _ _ (sources_run src _ _ _ _ _ _ _ _ Hre1 Hre2 Hold)).
  f_equal. pose proof Hd as (Hn1&Hn2&Hv1&Hv2&_). eapply sides_flat_same; [exact Hs1|exact Hs2|..]; try done.
  - by eapply view_recs.
  - by eapply view_recs.
  - unfold side_fields. destruct (ji_fields l) as [ns|] eqn:Hns; cbn; [by apply Hil|].
    assert (Hw1 : wf_schema sl) by exact (reached_schema _ _ _ Hrl Hsl).
    pose proof (gs_id _ _ _ _ _ _ _ Hgl) as Hi.
    rewrite (field_ids_lookup (s_fields sl) key) with (f := f1) in Hi; [|apply Hw1|done..].
    apply field_ids_in in Hi as (g&Hg&Hgn&_). apply elem_of_list_fmap. eauto.
  - intros x Hx. by eapply view_row.
  - intros x Hx. by eapply view_row.
Qed.
Lemma view_flat_exact σl hl sl σr hr sr (vl vr : view F) keys lf rf lref rref key l r E E' blocks src part none_ok b b' rows_l rows_r out :
  reachable σl → reachable σr → schema_at σl hl = Some sl → schema_at σr hr = Some sr →
  make_join (view_schema vl) (view_schema vr) keys lf rf lref rref = Ok (key, l, r) →
  own_columns (view_schema vl) l → own_columns (view_schema vr) r →
  distinct_columns key (view_schema vl) (view_schema vr) l r → parts_free (view_schema vl) (view_schema vr) l r →
  result σl hl (run_read_all E' None None None (ji_ref l) b) = Some (Ok rows_l) →
  result σr hr (run_read_all E' None None None (ji_ref r) b') = Some (Ok rows_r) →
  good_side map_fn keep_fn sl vl (ji_ref l) key rows_l → good_side map_fn keep_fn sr vr (ji_ref r) key rows_r →
  addressed vl (ji_ref l) (asked map_fn keep_fn sl vl l rows_l) → addressed vr (ji_ref r) (asked map_fn keep_fn sr vr r rows_r) →
  (src = Shared false → result σl hl reload = Some (Ok false)) →
  separates part (common key (asked map_fn keep_fn sl vl l rows_l) (asked map_fn keep_fn sr vr r rows_r)) →
  result2 σl hl σr hr (run_view_join_flat map_fn keep_fn E blocks src none_ok part key vl vr l r) = Some (Ok out) →
  out ≡ₚ inner_join key (output_fields key (view_schema vl) (view_schema vr) l r)
           (asked map_fn keep_fn sl vl l rows_l) (asked map_fn keep_fn sr vr r rows_r).
Proof.
  intros ? ? ? ? Hmk ? ? ? ? ? ? ? ? ? ? ? ? Hout.
  rewrite (view_join_same σl hl sl σr hr sr vl vr keys lf rf lref rref key l r E E' blocks src part none_ok None b b' rows_l rows_r) in Hout by done.
  by eapply (views_exact map_fn keep_fn σl hl sl σr hr sr vl vr).
Qed.
Lemma view_flat_returns σl hl sl σr hr sr (vl vr : view F) keys lf rf lref rref key l r E E' blocks src part none_ok b b' rows_l rows_r :
  reachable σl → reachable σr → schema_at σl hl = Some sl → schema_at σr hr = Some sr →
  make_join (view_schema vl) (view_schema vr) keys lf rf lref rref = Ok (key, l, r) →
  own_columns (view_schema vl) l → own_columns (view_schema vr) r →
  distinct_columns key (view_schema vl) (view_schema vr) l r → parts_free (view_schema vl) (view_schema vr) l r →
  result σl hl (run_read_all E' None None None (ji_ref l) b) = Some (Ok rows_l) →
  result σr hr (run_read_all E' None None None (ji_ref r) b') = Some (Ok rows_r) →
  good_side map_fn keep_fn sl vl (ji_ref l) key rows_l → good_side map_fn keep_fn sr vr (ji_ref r) key rows_r →
  addressed vl (ji_ref l) (asked map_fn keep_fn sl vl l rows_l) → addressed vr (ji_ref r) (asked map_fn keep_fn sr vr r rows_r) →
  (src = Shared false → result σl hl reload = Some (Ok false)) →
  join_accepts key (view_schema vl) (view_schema vr) l r = Ok tt → key_type sl key = key_type sr key →
  all_keyed key (layout σl hl) → all_keyed key (layout σr hr) →
  none_ok = true ∨ meets part (common key (asked map_fn keep_fn sl vl l rows_l) (asked map_fn keep_fn sr vr r rows_r)) →
  ∃ out, result2 σl hl σr hr (run_view_join_flat map_fn keep_fn E blocks src none_ok part key vl vr l r) = Some (Ok out).
Proof.
  intros ? ? ? ? Hmk ? ? ? ? ? ? ? ? ? ? ? ? ? ? ? ?.
  rewrite (view_join_same σl hl sl σr hr sr vl vr keys lf rf lref rref key l r E E' blocks src part none_ok None b b' rows_l rows_r) by done.
  by eapply (views_succeed map_fn keep_fn σl hl sl σr hr sr vl vr).
Qed.

Lemma addressed_tested (v : view F) ref rows :
  forallb (fun f => bool_decide (f ∈ names_of (v_schema v)) && bool_decide (f ∉ v_pks v)) (v_recs v)
    && forallb (fun x => forallb (fun nc => eqb (match nc.2 with CAddr _ _ => true | _ => false end) (ref && bool_decide (nc.1 ∈ v_recs v))) x) rows = true →
  addressed v ref rows.
Proof.
  intros [H1 H2]%andb_true_iff. rewrite forallb_forall in H1, H2. split.
  - intros f Hf%elem_of_list_In%H1. apply andb_true_iff in Hf as [?%bool_decide_eq_true ?%bool_decide_eq_true]. done.
  - intros x n c Hx%elem_of_list_In%H2 Hg. rewrite forallb_forall in Hx. apply rget_in, elem_of_list_In, Hx, eqb_prop in Hg. cbn in Hg.
    split.
    + intros (p&i&->). symmetry in Hg. apply andb_true_iff in Hg as [? ?%bool_decide_eq_true]. done.
    + intros [-> Hin]. rewrite bool_decide_eq_true_2 in Hg by done. destruct c; try done. eauto.
Qed.

(** * Filters *)
Lemma rget_named n (r : row) : n ∈ r.*1 → is_Some (rget n r).
Proof.
  intros Hn. destruct (rget n r) eqn:Hc; [by eexists|]. exfalso. unfold rget in Hc. induction r as [|[m c] r IH]; cbn in *.
  - by apply elem_of_nil in Hn.
  - case_decide; [done|]. apply elem_of_cons in Hn as [->|Hn]; [done|]. by apply IH.
Qed.
Lemma filters_schema s (v : view F) : over s v → only_filters v → v_recs v = s_recs s ∧ v_schema v = s_fields s.
Proof. induction v; cbn; [by intros ->|done|done]. Qed.
Lemma filters_rows s ref (v : view F) rows x :
  over s v → only_filters v → shaped map_fn s v → (∀ r n, r ∈ rows → n ∈ s_names s ↔ n ∈ r.*1) →
  x ∈ view_rows map_fn keep_fn (in_read_order s ref v) rows →
  ∃ r, r ∈ rows ∧ (∀ n, n ∈ s_names s → rget n x = rget n r) ∧ ∀ n, n ∈ x.*1 → n ∈ s_names s.
Proof.
  intros Hov Hof Hsh Hn. revert x Hov Hof Hsh. induction v as [loc br s'|u v IH l|u v IH l]; intros x Hov Hof Hsh Hx; [exists x; split_and!; [done|done|by intros n; apply Hn]|done|].
  cbn in Hov, Hof, Hsh. destruct Hsh as [Hsh Hl]. rewrite (proj2 (filters_schema s v Hov Hof)) in Hl.
  assert (Hrow : ∃ l' y, l' ≡ₚ l ∧ y ∈ view_rows map_fn keep_fn (in_read_order s ref v) rows ∧ x = columns l' y).
  { destruct v; cbn [in_read_order view_rows] in Hx; apply elem_of_list_filter in Hx as [_ (y&->&Hy)%elem_of_list_fmap]; try by eauto.
    exists (pushed_fields s ref l), y. split_and!; [|done..]. unfold pushed_fields. destruct ref; [done|]. unfold shown_order.
    clear. induction l as [|n ns IH]; [done|]. rewrite !filter_cons.
    destruct (decide (n ∈ s_recs s)) as [Hn|Hn]; repeat case_decide; try (exfalso; tauto); cbn; rewrite <-?Permutation_middle; by rewrite IH. }
  destruct Hrow as (l'&y&Hl'&Hy&->). destruct (IH y Hov Hof Hsh Hy) as (r&Hr&Hrn&_). exists r. split_and!; [done| |].
  - intros n Hin. rewrite rget_columns_all, (Hrn n Hin); [|by rewrite Hl', Hl]. apply (Hn r n Hr) in Hin.
    by apply rget_named in Hin as [c ->].
  - intros n. rewrite columns_names. by rewrite Hl', Hl.
Qed.
Lemma filters_addressed σ hid s (v : view F) i E b rows :
  reachable σ → schema_at σ hid = Some s → over s v → only_filters v → shaped map_fn s v → own_columns (view_schema v) i →
  result σ hid (run_read_all E None None None (ji_ref i) b) = Some (Ok rows) →
  addressed v (ji_ref i) (asked map_fn keep_fn s v i rows).
Proof.
  intros Hr Hs Hov Hof Hsh Hown Hrows. destruct (filters_schema s v Hov Hof) as [Hrc Hsc]. pose proof (reached_schema _ _ _ Hr Hs) as Hw.
  assert (Hside : ∀ r, r ∈ rows → side_row "" s (JoinInput None (ji_ref i)) r).
  { intros r Hin. apply (read_rows σ hid s "" (JoinInput None (ji_ref i)) E b rows r Hr Hs); [by intros n|exact Hrows|exact Hin]. }
  split.
  - intros f. rewrite Hrc, Hsc, (over_pks s v Hov). intros Hf. split; [by apply (wsc_recs _ Hw)|]. intros Hk. by apply (wsc_disj _ Hw) in Hk.
  - intros x n c Hx Hc. rewrite Hrc.
    assert (Hfrom : ∃ r, r ∈ rows ∧ n ∈ s_names s ∧ rget n r = Some c).
    { assert (Hall : ∀ y, y ∈ view_rows map_fn keep_fn (in_read_order s (ji_ref i) v) rows → ∃ r, r ∈ rows ∧ (∀ n, n ∈ s_names s → rget n y = rget n r) ∧ ∀ n, n ∈ y.*1 → n ∈ s_names s).
      { intros y Hy. apply (filters_rows s (ji_ref i) v rows y); try done. intros r m Hin.
        by rewrite (sw_names _ _ _ _ (Hside r Hin)). }
      unfold asked in Hx. destruct (ji_fields i) as [l|] eqn:Hji.
      - apply elem_of_list_fmap in Hx as (y&->&Hy). destruct (Hall y Hy) as (r&Hin&Hyr&_). exists r. split; [done|].
        rewrite rget_columns_if in Hc. case_decide as Hnl; [|done].
        assert (Hnn : n ∈ s_names s). { unfold s_names. rewrite <-Hsc. apply Hown. unfold side_fields. by rewrite Hji. }
        split; [done|]. rewrite (Hyr n Hnn) in Hc. assert (Hnr : n ∈ r.*1) by by rewrite (sw_names _ _ _ _ (Hside r Hin)).
        apply rget_named in Hnr as [d Hd]. by rewrite Hd in Hc |- *.
      - destruct (Hall x Hx) as (r&Hin&Hyr&Hxn). exists r. split; [done|].
        assert (Hnn : n ∈ s_names s); [|by rewrite <-(Hyr n Hnn)].
        apply Hxn, elem_of_list_fmap. exists (n, c). split; [done|]. by apply Resolve.rget_in. }
    destruct Hfrom as (r&Hin&Hnn&Hg). pose proof (sw_read _ _ _ _ (Hside r Hin) n c (rget_in _ _ _ Hg)) as Hiff.
    unfold folded_recs in Hiff. cbn in Hiff. destruct (ji_ref i).
    + rewrite <-Hiff. tauto.
    + rewrite <-Hiff. split; [by intros ?%elem_of_nil|]. by intros [? _].
Qed.
End view.
