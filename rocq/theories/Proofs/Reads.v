(** Reads through a handle. *)
From Verif.Model Require Import System.
From Verif.Spec Require Import Logical Api Pruning.
From Verif.Proofs Require Import Lib World Resolve AppendSpec SchemaFacts ReadSpec Wf OpSpec Inv FileSet Ops Bodies Txn
  SysInv ReadRun Observe View Prune Total.

Lemma rsel_columns ns r r' : rsel ns r = Ok r' → r' = columns ns r.
Proof.
  intros H%rsel_ok. unfold columns. induction H as [|n [m c] ns r' [Hm Hc] _ IH]; [done|]. cbn in *. subst m.
  by rewrite Hc, <-IH.
Qed.
Lemma tsel_columns ns t t' : tsel ns t = Ok t' → t' = columns ns <$> t.
Proof.
  intros H%tsel_ok. induction H as [|r r' t t' Hr _ IH]; [done|]. cbn. by rewrite <-IH, (rsel_columns _ _ _ Hr).
Qed.
Lemma rget_columns n ns r : n ∈ ns → is_Some (rget n r) → rget n (columns ns r) = rget n r.
Proof.
  intros Hn [c Hc]. unfold columns. induction ns as [|m ns IH]; [by apply elem_of_nil in Hn|]. cbn.
  case_decide as Hd; [subst; by rewrite Hc|]. apply IH. by apply elem_of_cons in Hn as [?|?].
Qed.
Lemma columns_columns ns ms r :
  (∀ n, n ∈ ns → n ∈ ms ∧ is_Some (rget n r)) → columns ns (columns ms r) = columns ns r.
Proof.
  intros H. unfold columns at 1 3. induction ns as [|n ns IH]; [done|]. cbn.
  destruct (H n) as [H1 H2]; [left|]. rewrite rget_columns by done. f_equal. apply IH. intros. apply H. by right.
Qed.
Lemma shown_order_in s ns n : n ∈ shown_order s ns ↔ n ∈ ns.
Proof. apply elem_of_read_order. Qed.

Lemma result_read_all {σ hid E flt fields v ref b} :
  result σ hid (run_read_all E flt fields v ref b)
  = (fun r => rmap (@concat row) r) <$> result σ hid (run_read E flt fields v ref b).
Proof.
  unfold result, with_handle, run_read_all. destruct (y_handles σ !! hid) as [h|]; [|done].
  unfold bind. destruct (run_read E flt fields v ref b (h, y_world σ)) as [[h' w'] [r|e]]; done.
Qed.

(** Every read of one version with one filter shows the same stored rows. *)
Lemma read_general σ hid s flt v :
  reachable σ → schema_at σ hid = Some s →
  (∃ e, ∀ E fields ref b, (∀ n, n ∈ read_names s fields → n ∈ s_names s) →
     result σ hid (run_read E flt fields v ref b) = Some (Err e))
  ∨ (∃ stored rows, mapM (resolve_row (records_in (w_fs (y_world σ))) (s_recs s)) stored = Some rows
     ∧ Forall (fun r => r.*1 = s_names s) stored
     ∧ ∀ E fields ref b, (∀ n, n ∈ read_names s fields → n ∈ s_names s) →
        ∃ ts, result σ hid (run_read E flt fields v ref b) = Some (Ok ts)
        ∧ concat ts = (if ref : bool then columns (read_names s fields) <$> stored
                       else columns (shown_order s (read_names s fields)) <$> rows)
        ∧ (ref = false → Forall (fun t => length t ≤ batch_size b) ts)).
Proof.
  intros Hr Hsch. unfold schema_at in Hsch. destruct (y_handles σ !! hid) as [h|] eqn:Hh; [|done].
  destruct (reachable_seen _ _ _ Hr Hh) as (s'&p&m&Hseen).
  assert (s' = s) as ->.
  { pose proof (sn_schema _ _ _ _ _ _ Hseen) as H. unfold schema_at in H. rewrite Hh in H. congruence. }
  pose proof Hseen as [Hs _ Hwf Hst Hm _]. pose proof (si_world _ _ Hs) as Hi.
  pose proof (fun E fields ref b => run_read_run E flt fields v ref b s h (y_world σ) p m Hi Hwf Hst Hm) as Hrun.
  destruct (snap_of m (h_branch h) v) as [sn|] eqn:Hsn.
  2:{ left. exists (EUser UVersionNotFound). intros E fields ref b _. destruct (Hrun E fields ref b) as (r&Hr'&->).
      by rewrite (result_eq _ _ _ _ Hh), Hr'. }
  destruct (man_filter s flt) as [mf|e] eqn:Hmf.
  2:{ left. exists e. intros E fields ref b _. destruct (Hrun E fields ref b) as (r&Hr'&->).
      by rewrite (result_eq _ _ _ _ Hh), Hr'. }
  right. set (stored := filter_rows flt (picked_rows (w_fs (y_world σ)) mf sn)) in *.
  destruct (Hrun (Env (fun _ => 0%Z) (fun _ => 0%Z) (fun _ _ => 0%Z) (fun _ _ => 0%Z) (fun _ => []) (fun _ => [])) None false None)
    as (rx&_&Hx). destruct (Hx (fun _ H => H)) as (_&rows&_&Hres&_). exists stored, rows. split; [exact Hres|].
  assert (Hnames : Forall (fun r => r.*1 = s_names s) stored).
  { apply Forall_forall. intros r Hin.
    assert (Hp : r ∈ picked_rows (w_fs (y_world σ)) mf sn).
    { unfold stored, filter_rows in Hin. destruct flt; [|done]. by apply elem_of_list_filter in Hin as [_ ?]. }
    unfold picked_rows in Hp. rewrite man_rows_bind in Hp. apply elem_of_list_bind in Hp as (m'&Hr1&[_ Hm']%elem_of_list_filter).
    pose proof (snap_of_wf _ _ _ _ _ _ Hm Hsn) as Hw. apply wf_snap_mrows in Hw.
    pose proof (man_rows_conform _ _ _ Hw) as Hc. eapply Forall_forall in Hc; [by apply conforms_names|].
    rewrite man_rows_bind. apply elem_of_list_bind. eauto. }
  split; [done|]. intros E fields ref b Hsel. destruct (Hrun E fields ref b) as (r&Hr'&Hout).
  destruct (Hout Hsel) as (ts&rows'&->&Hres'&Hts). rewrite Hres in Hres'. injection Hres' as <-.
  exists ts. rewrite (result_eq _ _ _ _ Hh), Hr'. split; [done|]. destruct ref.
  - split; [by apply tsel_columns|done].
  - destruct Hts as [Hts Hb]. split; [by apply tsel_columns|done].
Qed.

Lemma read_batches σ hid s E E' flt fields v ref b b' :
  reachable σ → schema_at σ hid = Some s → (∀ n, n ∈ read_names s fields → n ∈ s_names s) →
  result σ hid (run_read_all E flt fields v ref b) = result σ hid (run_read_all E' flt fields v ref b').
Proof.
  intros Hr Hsch Hf. rewrite !result_read_all.
  destruct (read_general σ hid s flt v Hr Hsch) as [[e He]|(st&rows&_&_&Hall)].
  - by rewrite !He.
  - destruct (Hall E fields ref b Hf) as (ts&->&Hts&_), (Hall E' fields ref b' Hf) as (ts'&->&Hts'&_). cbn.
    by rewrite Hts, Hts'.
Qed.
Lemma read_bound σ hid s E flt fields v n ts :
  reachable σ → schema_at σ hid = Some s → (∀ n, n ∈ read_names s fields → n ∈ s_names s) → 1 ≤ n →
  result σ hid (run_read E flt fields v false (Some n)) = Some (Ok ts) → Forall (fun t => length t ≤ n) ts.
Proof.
  intros Hr Hsch Hf Hn Hres. destruct (read_general σ hid s flt v Hr Hsch) as [[e He]|(st&rows&_&_&Hall)].
  - by rewrite He in Hres.
  - destruct (Hall E fields false (Some n) Hf) as (ts'&Hts'&_&Hb). rewrite Hres in Hts'. injection Hts' as <-.
    specialize (Hb eq_refl). by destruct n; [lia|].
Qed.
Lemma resolved_names rv recs stored rows ns :
  mapM (resolve_row rv recs) stored = Some rows → Forall (fun r => r.*1 = ns) stored → Forall (fun r => r.*1 = ns) rows.
Proof.
  intros H%mapM_Some. induction H as [|r x stored rows Hr _ IH]; intros Hn; [constructor|].
  apply Forall_cons in Hn as [Hn1 Hn]. constructor; [|by apply IH]. by rewrite (resolve_row_names _ _ _ _ Hr).
Qed.
Lemma read_projection σ hid s E E' flt v b b' ns rows :
  reachable σ → schema_at σ hid = Some s → (∀ n, n ∈ ns → n ∈ s_names s) →
  result σ hid (run_read_all E flt None v false b) = Some (Ok rows) →
  result σ hid (run_read_all E' flt (Some ns) v false b') = Some (Ok (columns (shown_order s ns) <$> rows)).
Proof.
  intros Hr Hsch Hf. rewrite !result_read_all.
  destruct (read_general σ hid s flt v Hr Hsch) as [[e He]|(st&rs&Hres&Hnames&Hall)].
  - rewrite He; [done|]. by intros.
  - destruct (Hall E None false b (fun _ H => H)) as (ts&->&Hts&_), (Hall E' (Some ns) false b' Hf) as (ts'&->&Hts'&_). cbn.
    intros [= <-]. rewrite Hts, Hts'. do 2 f_equal. rewrite <-list_fmap_compose.
    pose proof (resolved_names _ _ _ _ _ Hres Hnames) as Hn. clear -Hn Hf.
    induction Hn as [|r rs Hn1 _ IH]; [done|]. rewrite !fmap_cons, IH. f_equal. cbn. symmetry. apply columns_columns.
    intros n Hin%shown_order_in. split; [apply (shown_order_in s); by apply Hf|]. apply rget_some. rewrite Hn1. by apply Hf.
Qed.
Lemma resolve_columns rv recs r x ns :
  resolve_row rv recs r = Some x → (∀ n, n ∈ ns → n ∈ r.*1) →
  resolve_row rv recs (columns ns r) = Some (columns ns x).
Proof.
  intros Hx Hns. unfold resolve_row, columns. apply mapM_Some. induction ns as [|n ns IH]; [constructor|].
  cbn. constructor; [|apply IH; intros; apply Hns; by right].
  pose proof (rget_resolve _ _ _ _ n Hx) as Hg. destruct (rget_some n r) as [c Hc]; [apply Hns; left|].
  rewrite Hc in *. destruct Hg as (d&Hd&->). done.
Qed.
Lemma columns_names ns r : (columns ns r).*1 = ns.
Proof. unfold columns. rewrite <-list_fmap_compose. cbn. by induction ns; cbn; f_equal. Qed.
Lemma read_reference σ hid s E E' flt fields v b b' addrs :
  reachable σ → schema_at σ hid = Some s → (∀ n, n ∈ read_names s fields → n ∈ s_names s) →
  result σ hid (run_read_all E flt fields v true b) = Some (Ok addrs) →
  ∃ full, mapM (resolve_row (records_in (w_fs (y_world σ))) (s_recs s)) addrs = Some full
    ∧ result σ hid (run_read_all E' flt fields v false b')
      = Some (Ok (columns (shown_order s (read_names s fields)) <$> full)).
Proof.
  intros Hr Hsch Hf. rewrite !result_read_all.
  destruct (read_general σ hid s flt v Hr Hsch) as [[e He]|(st&rs&Hres&Hnames&Hall)].
  - by rewrite He.
  - destruct (Hall E fields true b Hf) as (ts&->&Hts&_), (Hall E' fields false b' Hf) as (ts'&->&Hts'&_). cbn.
    intros [= <-]. rewrite Hts, Hts'. exists (columns (read_names s fields) <$> rs). split.
    + apply mapM_Some. apply mapM_Some in Hres. clear -Hres Hnames Hf.
      induction Hres as [|r x st rs Hr _ IH]; [constructor|]. apply Forall_cons in Hnames as [Hn1 Hn].
      cbn. constructor; [|by apply IH]. apply resolve_columns; [done|]. rewrite Hn1. done.
    + do 2 f_equal. rewrite <-list_fmap_compose.
      pose proof (resolved_names _ _ _ _ _ Hres Hnames) as Hn. clear -Hn Hf.
      induction Hn as [|r rs Hn1 _ IH]; [done|]. rewrite !fmap_cons, IH. f_equal. cbn. symmetry. apply columns_columns.
      intros n Hin%shown_order_in. split; [done|]. apply rget_some. rewrite Hn1. by apply Hf.
Qed.

(** Filtered reads. *)
Lemma filtered_read σ hid s e v before :
  reachable σ → schema_at σ hid = Some s → reads σ hid v before →
  safe_filter s e → buildable s e → no_nan_keys (s_pks s) before →
  ∀ E b, result σ hid (run_read_all E (Some e) None v false b) = Some (Ok (filter (fun r => matches e r = true) before)).
Proof.
  intros Hr Hsch Hb Hsafe Hbuild Hnan E b. unfold schema_at in Hsch. destruct (y_handles σ !! hid) as [h|] eqn:Hh; [|done].
  destruct (reachable_seen _ _ _ Hr Hh) as (s'&p&m&Hseen).
  assert (s' = s) as ->.
  { pose proof (sn_schema _ _ _ _ _ _ Hseen) as H. unfold schema_at in H. rewrite Hh in H. congruence. }
  apply (reads_iff _ _ _ _ _ _ _ _ Hseen) in Hb as (sn&Hsn&Hrows). pose proof Hseen as [Hs _ Hwf Hst Hm _].
  pose proof (si_world _ _ Hs) as Hi.
  destruct (build_total s e (wi_schema _ _ Hi) Hbuild) as [mf Hmf].
  pose proof (filter_pruned s _ sn e mf before (wi_schema _ _ Hi) (snap_of_wf _ _ _ _ _ _ Hm Hsn) Hsafe Hmf Hrows Hnan) as Hsh.
  destruct (run_read_run E (Some e) None v false b s h (y_world σ) p m Hi Hwf Hst Hm) as (r&Hr'&Hout).
  rewrite Hsn in Hout. cbn [man_filter] in Hout. rewrite Hmf in Hout.
  destruct (Hout (fun _ H => H)) as (ts&rows&->&Hres&Hts&_).
  apply shows_iff in Hsh as (l&Hl&Hl'). rewrite Hres in Hl. injection Hl as <-.
  rewrite result_read_all, (result_eq _ _ _ _ Hh), Hr'. cbn. do 2 f_equal.
  assert (Ok (concat ts) = Ok (filter (fun y => matches e y = true) before)) as [= ->]; [|done].
  rewrite <-Hl', <-Hts. done.
Qed.
