(** What View.join accepts. *)
From Verif.Model Require Import System RayOps ViewJoin.
From Verif.Spec Require Import Logical Api Layout Pruning ViewJoins JoinRequests.
From Verif.Proofs Require Import Lib World Resolve AppendSpec SchemaFacts ReadSpec Stats Bounds Wf OpSpec Inv
  FileSet Ops Bodies Txn SysInv ReadRun Effects Observe Prune Calls Reads Joins JoinCalls JoinAccept ViewJoins ViewPlans.

Lemma sanitize_error key f e : sanitize key f = Err e → e = EUser UInput.
Proof. unfold sanitize. destruct f as [l|]; [|done]. case_decide; [|done]. by intros [= <-]. Qed.
Lemma make_join_error sl sr keys lf rf lref rref e : make_join sl sr keys lf rf lref rref = Err e → e = EUser UInput.
Proof.
  unfold make_join. destruct keys as [|key [|? ?]]; [by intros [= <-]| |by intros [= <-]].
  destruct (decide _); [|by intros [= <-]].
  destruct (sanitize key lf) as [lf'|e1] eqn:H1; cbn [rbind]; [|intros [= <-]; by eapply sanitize_error].
  destruct (sanitize key rf) as [rf'|e2] eqn:H2; cbn [rbind]; [|intros [= <-]; by eapply sanitize_error].
  cbv zeta. match goal with |- (if ?b then _ else _) = _ → _ => destruct b end; [done|]. by intros [= <-].
Qed.
Lemma sanitize_more key f : names_more key f →
  ∃ f', sanitize key f = Ok f' ∧ (is_Some f' ↔ is_Some f)
    ∧ ∀ l l', f = Some l → f' = Some l' → filter (fun n => n ≠ key) l' = filter (fun n => n ≠ key) l ∧ ∀ n, n ∈ l' → n = key ∨ n ∈ l.
Proof.
  unfold sanitize. destruct f as [l|]; [|intros _; exists None; done]. intros (n&Hn&Hne).
  rewrite decide_False.
  - eexists. split; [done|]. split; [split; eauto|]. intros ? ? [= <-] [= <-]. case_decide; [split; [done|by right]|]. split.
    + rewrite filter_app, filter_cons_False, filter_nil, app_nil_r by (intros Hk; by apply Hk). done.
    + intros x [?| ->%elem_of_list_singleton]%elem_of_app; [by right|by left].
  - intros [->| ->]; [by apply elem_of_nil in Hn|]. by apply elem_of_list_singleton in Hn as ->.
Qed.
Lemma columns_found_iff key recs s i :
  columns_found key recs s i = true ↔ ∀ n, n ∈ side_fields s i → n = key ∨ (ji_ref i = true ∧ n ∈ recs) ∨ n ∈ s_names s.
Proof.
  unfold columns_found. rewrite forallb_forall. split; intros H n Hn.
  - apply elem_of_list_In, H, bool_decide_eq_true in Hn. exact Hn.
  - apply bool_decide_eq_true. apply H. by apply elem_of_list_In.
Qed.
Lemma request_accepted sl sr keys lf rf lref rref :
  valid_request sl sr keys lf rf →
  ∃ key l r, keys = [key] ∧ make_join sl sr keys lf rf lref rref = Ok (key, l, r)
    ∧ ji_ref l = lref ∧ ji_ref r = rref
    ∧ output_fields key sl sr l r = key :: wanted key sl lf ++ wanted key sr rf
    ∧ (∀ n, n ∈ side_fields sl l → n = key ∨ n ∈ s_names sl) ∧ (∀ n, n ∈ side_fields sr r → n = key ∨ n ∈ s_names sr).
Proof.
  intros (key&->&Hl&Hr&Hn&_&Hml&Hmr&Hkl&Hkr).
  destruct (sanitize_more key lf Hml) as (lf'&Hsl&Hisl&Hfl), (sanitize_more key rf Hmr) as (rf'&Hsr&Hisr&Hfr).
  assert (Hside : ∀ s f f' ref, (is_Some f' ↔ is_Some f) → names_known s key f →
    (∀ l l', f = Some l → f' = Some l' → filter (fun n => n ≠ key) l' = filter (fun n => n ≠ key) l ∧ ∀ n, n ∈ l' → n = key ∨ n ∈ l) →
    filter (fun n => n ≠ key) (side_fields s (JoinInput f' ref)) = wanted key s f
    ∧ ∀ n, n ∈ side_fields s (JoinInput f' ref) → n = key ∨ n ∈ s_names s).
  { clear. intros s f f' ref Hi Hk Hf. unfold side_fields, wanted. cbn [ji_fields]. destruct f' as [l'|], f as [l|]; cbn.
    - destruct (Hf l l' eq_refl eq_refl) as [? Hin]. split; [done|]. intros n [->|Hn]%Hin; [by left|]. by apply Hk.
    - destruct (proj1 Hi); [eauto|done].
    - destruct (proj2 Hi); [eauto|done].
    - split; [done|]. by right. }
  destruct (Hside sl lf lf' lref Hisl Hkl Hfl) as [Hwl Hcl], (Hside sr rf rf' rref Hisr Hkr Hfr) as [Hwr Hcr].
  exists key, (JoinInput lf' lref), (JoinInput rf' rref). split; [done|]. split; [|split_and!; [done|done| |done|done]].
  - unfold make_join. rewrite decide_True by done. rewrite Hsl, Hsr. cbn [rbind]. cbv zeta.
    rewrite bool_decide_true by exact Hn. cbn [andb].
    rewrite (proj2 (columns_found_iff _ _ _ _)), (proj2 (columns_found_iff _ _ _ _)); [done| |].
    + intros n [?|?]%Hcr; auto.
    + intros n [?|?]%Hcl; auto.
  - unfold output_fields. by rewrite Hwl, Hwr.
Qed.
Lemma request_valid sl sr keys lf rf lref rref key l r :
  make_join sl sr keys lf rf lref rref = Ok (key, l, r) → lref = false → rref = false → key ∈ s_names sr →
  (∀ ns, lf = Some ns ∨ rf = Some ns → NoDup ns) →
  valid_request sl sr keys lf rf.
Proof.
  intros Hmk -> -> Hkn Hnd. unfold make_join in Hmk. destruct keys as [|k [|? ?]]; [done| |done].
  destruct (decide (k ∈ s_pks sl ∧ k ∈ s_pks sr)) as [[Hkl Hkr]|]; [|done].
  apply rbind_ok in Hmk as (lf'&Hl&(rf'&Hr&Hmk)%rbind_ok). cbv zeta in Hmk.
  match type of Hmk with (if ?b then _ else _) = _ => destruct b eqn:Hb; [|done] end.
  injection Hmk as -> <- <-. apply andb_true_iff in Hb as [[Hn%bool_decide_eq_true Hcl]%andb_true_iff Hcr]. rewrite columns_found_iff in Hcl, Hcr.
  assert (Hok : ∀ s f f', sanitize key f = Ok f' → (∀ ns, f = Some ns → NoDup ns) →
    (∀ n, n ∈ side_fields s (JoinInput f' false) → n = key ∨ (false = true ∧ n ∈ join_records sl sr (JoinInput lf' false) (JoinInput rf' false)) ∨ n ∈ s_names s) →
    names_more key f ∧ names_known s key f).
  { clear. intros s f f' Hs Hnd Hc. unfold sanitize in Hs. destruct f as [l|]; [|done]. cbn.
    destruct (decide (l = [] ∨ l = [key])) as [|Hno]; [done|]. injection Hs as <-. specialize (Hnd l eq_refl). split.
    - destruct l as [|x [|y l]]; [naive_solver| |].
      + exists x. split; [by left|]. intros ->. naive_solver.
      + destruct (decide (x = key)) as [->|]; [|exists x; split; [by left|done]]. exists y. split; [right; by left|].
        intros ->. apply NoDup_cons in Hnd as [Hnd _]. apply Hnd. by left.
    - intros n Hn. destruct (Hc n) as [?|[[? _]|?]]; [|by left|done|by right].
      unfold side_fields. cbn. destruct (decide (key ∈ l)); [done|]. apply elem_of_app. by left. }
  destruct (Hok sl lf lf' Hl (fun ns H => Hnd ns (or_introl H)) Hcl) as [? ?].
  destruct (Hok sr rf rf' Hr (fun ns H => Hnd ns (or_intror H)) Hcr) as [? ?].
  exists key. by split_and!.
Qed.
Lemma sanitize_iff key f f' : sanitize key f = Ok f' →
  f ≠ Some [] ∧ f ≠ Some [key] ∧ ∀ s ref n, n ≠ key → n ∈ side_fields s (JoinInput f' ref) ↔ n ∈ asked s f.
Proof.
  unfold sanitize. destruct f as [l|]; [|by intros [= <-]]. destruct (decide (l = [] ∨ l = [key])) as [|Hno]; [done|].
  intros [= <-]. split_and!; [naive_solver..|]. intros s ref n Hn. unfold side_fields, asked. cbn.
  destruct (decide (key ∈ l)); [done|]. rewrite elem_of_app, elem_of_list_singleton. tauto.
Qed.
Lemma sanitize_some key f : f ≠ Some [] → f ≠ Some [key] → ∃ f', sanitize key f = Ok f'.
Proof.
  intros H1 H2. unfold sanitize. destruct f as [l|]; [|eauto]. rewrite decide_False; [eauto|]. intros [-> | ->]; done.
Qed.
Lemma request_exact sl sr keys lf rf lref rref :
  (∃ x, make_join sl sr keys lf rf lref rref = Ok x) ↔ accepted_request sl sr keys lf rf lref rref.
Proof.
  assert (Hrec : ∀ key lf' rf', sanitize key lf = Ok lf' → sanitize key rf = Ok rf' → ∀ n, n ≠ key →
    n ∈ join_records sl sr (JoinInput lf' lref) (JoinInput rf' rref) ↔ record_asked sl sr lf rf n).
  { intros key lf' rf' (_&_&Hl)%sanitize_iff (_&_&Hr)%sanitize_iff n Hn. unfold join_records, record_asked.
    rewrite elem_of_app, !elem_of_list_filter, Hl, Hr by done. tauto. }
  unfold make_join. split.
  - intros [x Hmk]. destruct keys as [|key [|? ?]]; [done| |done].
    destruct (decide (key ∈ s_pks sl ∧ key ∈ s_pks sr)) as [[Hkl Hkr]|]; [|done].
    apply rbind_ok in Hmk as (lf'&Hl&(rf'&Hr&Hmk)%rbind_ok). cbv zeta in Hmk.
    match type of Hmk with (if ?b then _ else _) = _ => destruct b eqn:Hb; [|done] end. clear Hmk.
    apply andb_true_iff in Hb as [[Hn%bool_decide_eq_true Hcl]%andb_true_iff Hcr]. rewrite columns_found_iff in Hcl, Hcr.
    pose proof (Hrec _ _ _ Hl Hr) as Hj. destruct (sanitize_iff _ _ _ Hl) as (?&?&Hil), (sanitize_iff _ _ _ Hr) as (?&?&Hir).
    exists key. split_and!; [done..|]. intros n Hne. cbn [ji_ref] in *. rewrite <-(Hil sl lref), <-(Hir sr rref), <-Hj by done.
    split; [intros H'; destruct (Hcl n H')|intros H'; destruct (Hcr n H')]; tauto.
  - intros (key&->&Hkl&Hkr&Hn&?&?&?&?&Hcols). rewrite decide_True by done.
    destruct (sanitize_some key lf) as [lf' Hl]; [done..|]. destruct (sanitize_some key rf) as [rf' Hr]; [done..|].
    pose proof (Hrec _ _ _ Hl Hr) as Hj. destruct (sanitize_iff _ _ _ Hl) as (_&_&Hil), (sanitize_iff _ _ _ Hr) as (_&_&Hir).
    rewrite Hl, Hr. cbn [rbind]. cbv zeta. rewrite bool_decide_true by exact Hn. cbn [andb].
    rewrite (proj2 (columns_found_iff _ _ _ _)), (proj2 (columns_found_iff _ _ _ _)); [cbn; eauto| |];
      intros n Hin; (destruct (decide (n = key)) as [->|Hne]; [by left|right]); cbn [ji_ref].
    + rewrite Hj by done. apply Hir in Hin; [|done]. destruct (Hcols n Hne) as [_ Hc]. apply Hc in Hin. tauto.
    + rewrite Hj by done. apply Hil in Hin; [|done]. destruct (Hcols n Hne) as [Hc _]. apply Hc in Hin. tauto.
Qed.
Lemma own_tested s i : forallb (fun n => bool_decide (n ∈ s_names s)) (side_fields s i) = true → own_columns s i.
Proof. intros H n Hn. rewrite forallb_forall in H. apply elem_of_list_In, H, bool_decide_eq_true in Hn. exact Hn. Qed.

Lemma request_own σl hl sl σr hr sr keys lf rf lref rref key l r :
  reachable σl → reachable σr → schema_at σl hl = Some sl → schema_at σr hr = Some sr →
  make_join sl sr keys lf rf lref rref = Ok (key, l, r) →
  (lref = true → s_recs sr = []) → (rref = true → s_recs sl = []) →
  own_columns sl l ∧ own_columns sr r.
Proof.
  intros Hrl Hrr Hsl Hsr Hmk Hl Hr. pose proof (reached_schema _ _ _ Hrl Hsl) as Hwl. pose proof (reached_schema _ _ _ Hrr Hsr) as Hwr.
  unfold make_join in Hmk. destruct keys as [|k [|? ?]]; [done| |done].
  destruct (decide (k ∈ s_pks sl ∧ k ∈ s_pks sr)) as [[Hkl Hkr]|]; [|done].
  apply rbind_ok in Hmk as (lf'&_&(rf'&_&Hmk)%rbind_ok). cbv zeta in Hmk.
  match type of Hmk with (if ?b then _ else _) = _ => destruct b eqn:Hb; [|done] end. injection Hmk as -> <- <-.
  apply andb_true_iff in Hb as [[_ Hcl]%andb_true_iff Hcr]. rewrite columns_found_iff in Hcl, Hcr. cbn [ji_ref] in *.
  unfold join_records in *. split; intros n Hn.
  - destruct (Hcl n Hn) as [->|[[Href [[_ ?]%elem_of_list_filter|[_ Hx]%elem_of_list_filter]%elem_of_app]|?]]; [by apply (wsc_pks _ Hwl)|by apply (wsc_recs _ Hwl)| |done].
    rewrite (Hl Href) in Hx. by apply elem_of_nil in Hx.
  - destruct (Hcr n Hn) as [->|[[Href [[_ Hx]%elem_of_list_filter|[_ ?]%elem_of_list_filter]%elem_of_app]|?]]; [by apply (wsc_pks _ Hwr)| |by apply (wsc_recs _ Hwr)|done].
    rewrite (Hr Href) in Hx. by apply elem_of_nil in Hx.
Qed.

Section view.
Context {F : Type} (map_fn : F → row → list row) (keep_fn : F → row → bool).
Lemma no_key σl hl sl σr hr sr (vl vr : view F) keys lf rf lref rref key l r E E' blocks src part none_ok flt batch b rows_l :
  reachable σl → reachable σr → schema_at σl hl = Some sl → schema_at σr hr = Some sr →
  make_join (view_schema vl) (view_schema vr) keys lf rf lref rref = Ok (key, l, r) → own_columns (view_schema vl) l →
  result σl hl (run_read_all E' None None None (ji_ref l) b) = Some (Ok rows_l) →
  good_side map_fn keep_fn sl vl (ji_ref l) key rows_l → all_keyed key (layout σl hl) →
  (src = Shared false → result σl hl reload = Some (Ok false)) →
  key ∉ s_names (view_schema vr) →
  result2 σl hl σr hr (run_join_read map_fn keep_fn E blocks src none_ok part key vl vr l r flt None None false batch)
  = Some (Err (EUser UInput)).
Proof.
  intros Hr1 Hr2 Hs1 Hs2 (Hkl&Hkr&Hil&Hir)%make_join_ok Hfl HL Hgl Hall Hsrc Hno.
  destruct (view_side map_fn keep_fn σl hl sl E E' blocks key vl l b rows_l) as (h1&h1'&f1&o1&L&Hh1&[b1 Hre1]&_&_&Ha1&_&_&_&Hq1); try done.
  destruct (Hq1 Hall) as (q1&->&_). unfold schema_at in Hs2. destruct (y_handles σr !! hr) as [h2|] eqn:Hh2; [|done].
  destruct (reachable_seen _ _ _ Hr2 Hh2) as (s2&p2&m2&[_ _ _ Hst2 _ _]).
  unfold result2. rewrite Hh1, Hh2.
  erewrite join_read_run; [|exact Hre1|exact (reload_run p2 m2 h2 _ Hst2)|]; cycle 1.
  { intros ->. eapply not_reloaded; [exact Hr1|exact Hh1|exact Hre1|by apply Hsrc]. }
  unfold join_views, join_sides. rewrite (bind_run' _ _ _ _ _ (on_left_run _ _ _ _ _ (sd_range _ _ _ _ _ _ _ Ha1))).
  assert (Hk : key_range_in (v_schema vr) key (sync p2 m2 h2, y_world σr) = ((sync p2 m2 h2, y_world σr), Err (EUser UInput))).
  { unfold key_range_in. rewrite get_handle_bind. destruct (field_ids_of (v_schema vr) !! key) as [i|] eqn:Hi; [|done].
    apply field_ids_in in Hi as (g&Hg&Hgn&_). destruct Hno. apply elem_of_list_fmap. eauto. }
  rewrite (bind_run' _ _ _ _ _ (on_right_run _ _ _ _ _ Hk)). done.
Qed.
Lemma range_empty σ hid s h p m fields key i sn :
  seen s σ hid h p m → field_ids_of fields !! key = Some i → current σ hid = Some sn → sn_idx sn = [] →
  key_range_in fields key (sync p m h, y_world σ) = ((sync p m h, y_world σ), Ok None).
Proof.
  intros Hseen Hi Hcur Hidx. pose proof (current_eq _ _ _ _ _ _ Hseen) as Hc. rewrite Hcur in Hc.
  pose proof Hseen as [Hin _ Hwf Hst Hm _]. destruct (sync_spec s (y_world σ) p m h Hst Hm Hwf) as (Hh'&Hm'&_&Hb&_).
  assert (Hget : get_snapshot (sync p m h) None = Ok sn).
  { apply (get_snapshot_snap_of _ m); [done|]. by rewrite Hb. }
  unfold key_range_in. rewrite get_handle_bind, Hi.
  erewrite bind_run' with (s1 := (sync p m h, y_world σ)) (r := Ok []).
  - rewrite bool_decide_true by done. cbn [orb rfoldM]. rewrite lift_bind. done.
  - unfold index_manifests. rewrite get_handle_bind, lift_bind, Hget, Hidx. cbn [rbind]. done.
Qed.
Lemma empty_joined σl hl snl σr hr snr (vl vr : view F) key l r E blocks src part none_ok flt batch :
  reachable σl → reachable σr → current σl hl = Some snl → current σr hr = Some snr →
  layout σl hl = [] → layout σr hr = [] →
  is_Some (field_ids_of (v_schema vl) !! key) → is_Some (field_ids_of (v_schema vr) !! key) →
  (src = Shared false → result σl hl reload = Some (Ok false)) →
  result2 σl hl σr hr (run_join_read map_fn keep_fn E blocks src none_ok part key vl vr l r flt None None false batch)
  = Some (Ok []).
Proof.
  intros Hr1 Hr2 Hc1 Hc2 Hl1 Hl2 [i1 Hi1] [i2 Hi2] Hsrc.
  assert (Hidx : ∀ σ hid sn, current σ hid = Some sn → layout σ hid = [] → sn_idx sn = []).
  { clear. intros σ hid sn Hc Hl. unfold layout in Hl. rewrite Hc in Hl. by apply fmap_nil_inv in Hl. }
  pose proof (Hidx _ _ _ Hc1 Hl1) as Hx1. pose proof (Hidx _ _ _ Hc2 Hl2) as Hx2.
  destruct (y_handles σl !! hl) as [h1|] eqn:Hh1; [|unfold current in Hc1; by rewrite Hh1 in Hc1].
  destruct (y_handles σr !! hr) as [h2|] eqn:Hh2; [|unfold current in Hc2; by rewrite Hh2 in Hc2].
  destruct (reachable_seen _ _ _ Hr1 Hh1) as (s1&p1&m1&He1), (reachable_seen _ _ _ Hr2 Hh2) as (s2&p2&m2&He2).
  pose proof He1 as [_ _ _ Hst1 _ _]. pose proof He2 as [_ _ _ Hst2 _ _].
  unfold result2. rewrite Hh1, Hh2.
  erewrite join_read_run; [|exact (reload_run p1 m1 h1 _ Hst1)|exact (reload_run p2 m2 h2 _ Hst2)|]; cycle 1.
  { intros ->. eapply not_reloaded; [exact Hr1|exact Hh1|exact (reload_run p1 m1 h1 _ Hst1)|by apply Hsrc]. }
  unfold join_views, join_sides.
  rewrite (bind_run' _ _ _ _ _ (on_left_run _ _ _ _ _ (range_empty _ _ _ _ _ _ _ _ _ _ He1 Hi1 Hc1 Hx1))).
  rewrite (bind_run' _ _ _ _ _ (on_right_run _ _ _ _ _ (range_empty _ _ _ _ _ _ _ _ _ _ He2 Hi2 Hc2 Hx2))).
  rewrite lift_bind. cbn [join_ranges rbind].
  cbn. by rewrite orb_true_r.
Qed.
End view.
