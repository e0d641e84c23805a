(** The changes a refresh reads from the source, and the view over them. *)
From Verif.Model Require Import System Refresh.
From Verif.Spec Require Import Logical Pruning Keys Layout Changes Api.
From Verif.Proofs Require Import Lib World Resolve AppendSpec SchemaFacts ReadSpec Wf OpSpec
  Inv FileSet Ops Bodies Txn SysInv ReadRun Effects Observe View Prune Keys DeleteEffect Mutations Calls Diff Edge Replay RayDiff Reads
  RefreshStep RefreshLoop.

Lemma rget_columns_all n ns r : n ∈ ns → rget n (columns ns r) = Some (default CNull (rget n r)).
Proof.
  induction ns as [|x ns IH]; intros Hn; [by apply elem_of_nil in Hn|]. unfold rget in *. cbn. case_decide as H; [by subst|].
  apply IH. apply elem_of_cons in Hn as [->|?]; done.
Qed.
Lemma look_columns n ns r : n ∈ ns → row_look (columns ns r) n = row_look r n.
Proof. intros Hn. unfold row_look. rewrite rget_columns_all by done. by destruct (rget n r). Qed.
Lemma key_show s r : wf_schema s → key_of (s_pks s) (show s r) = key_of (s_pks s) r.
Proof.
  intros Hs. unfold key_of, show. apply list_fmap_ext. intros i n Hn. apply look_columns.
  apply elem_of_list_lookup_2 in Hn. change (n ∈ out_names s). apply out_names_in. by apply Hs.
Qed.

Lemma tagged_inj (i : Z) (X Y X' Y' : list row) :
  ((fun r => (i, ChDelete, r)) <$> X) ++ ((fun r => (i, ChAdd, r)) <$> Y)
  = ((fun r => (i, ChDelete, r)) <$> X') ++ ((fun r => (i, ChAdd, r)) <$> Y') → X = X' ∧ Y = Y'.
Proof.
  revert X'. induction X as [|x X IH]; intros [|x' X'] H; cbn in H.
  - split; [done|]. revert Y' H. induction Y as [|y Y IH]; intros [|y' Y'] H; cbn in H; try done. injection H as -> H. f_equal. auto.
  - destruct Y; cbn in H; [done|by injection H].
  - destruct Y'; cbn in H; [done|by injection H].
  - injection H as -> H. apply IH in H as [-> ->]. done.
Qed.
Lemma changed_app a b : changed_rows (a ++ b) = changed_rows a ++ changed_rows b.
Proof. unfold changed_rows. by rewrite bind_app. Qed.
Lemma changed_tables i t ts : changed_rows (Change i t <$> ts) = (fun r => (i, t, r)) <$> concat ts.
Proof. induction ts as [|x ts IH]; [done|]. cbn. rewrite fmap_app. f_equal. exact IH. Qed.
Lemma opened_dels i d : changed_rows (opened (dels_of i d)) = (fun r => (i, ChDelete, r)) <$> del_rows d.
Proof.
  destruct d as [ts|]; [|done]. unfold opened, dels_of, del_rows. cbn [mbind list_bind]. rewrite app_nil_r.
  cbn [rc_snap rc_type rc_data]. rewrite changed_tables. cbn. by rewrite app_nil_r.
Qed.
Lemma opened_adds i a : changed_rows (opened (adds_of i a)) = (fun r => (i, ChAdd, r)) <$> add_rows a.
Proof.
  destruct a as [ts|]; [|done]. unfold opened, adds_of, add_rows. cbn [mbind list_bind]. rewrite app_nil_r.
  cbn [rc_snap rc_type rc_data]. by rewrite changed_tables.
Qed.
Lemma changes_shape E n blocks h i batch w w' cs :
  ray_read_changes E n blocks h i batch w = (w', Ok cs) → ∃ d a, cs = dels_of i d ++ adds_of i a.
Proof.
  unfold ray_read_changes. destruct (md_snaps (h_meta h) !! i) as [sn|]; [|by intros [=]].
  destruct (sn_log sn) as [lp|]; [|by intros [=]]. intros H.
  apply bind_inv in H as (w1&c&_&H). apply bind_inv in H as (w2&ds&Hd&H). apply bind_inv in H as (w3&ads&Ha&H).
  injection H as <- <-.
  assert (∃ d, ds = dels_of i d) as [d ->].
  { destruct (cl_deleted c); [injection Hd as <- <-; by exists None|].
    apply bind_inv in Hd as (w4&t&_&Hd). injection Hd as <- <-. by exists (Some t). }
  assert (∃ a, ads = adds_of i a) as [a ->].
  { destruct (cl_added c); [injection Ha as <- <-; by exists None|].
    apply bind_inv in Ha as (w4&t&_&Ha). injection Ha as <- <-. by exists (Some t). }
  eauto.
Qed.
Lemma shape_snap i d a : Forall (fun c => rc_snap c = i) (dels_of i d ++ adds_of i a).
Proof. destruct d, a; repeat constructor. Qed.

Lemma source_step E s n blocks h w i sn batch base careful old new cs :
  1 ≤ n → winv s w → wf_meta s (w_fs w) (h_meta h) → md_snaps (h_meta h) !! i = Some sn →
  edge s (w_fs w) base sn careful → snap_rows s (w_fs w) base old → snap_rows s (w_fs w) sn new →
  st_rows (sn_stats base) = Z.of_nat (length old) → st_rows (sn_stats sn) = Z.of_nat (length new) →
  unique_keys (s_pks s) old →
  ray_read_changes E n blocks h i batch w = (w, Ok cs) →
  ∃ d a, cs = dels_of i d ++ adds_of i a
    ∧ filter (fun r => key_of (s_pks s) r ∉ key_of (s_pks s) <$> del_rows d) old ++ add_rows a ≡ₚ new
    ∧ ∀ k, k ∈ key_of (s_pks s) <$> del_rows d → k ∈ key_of (s_pks s) <$> old.
Proof.
  intros Hn Hi Hm Hsn He Hold Hnew Hbo Hbn Hu Hcs. pose proof (wi_schema _ _ Hi) as Hs.
  destruct (changes_shape _ _ _ _ _ _ _ _ _ Hcs) as (d&a&->). exists d, a. split; [done|].
  destruct (ray_changes_run E E s n blocks h w i batch batch Hn Hi Hm) as (r&r'&Hr&Hr'&Heq).
  rewrite Hcs in Hr'. injection Hr' as <-.
  destruct (edge_exact _ _ _ _ _ _ _ He Hold Hnew Hbo Hbn) as (kept&del&add&Hp&Hpn&Hlog).
  pose proof (read_changes_run E s h w i sn batch Hi Hm Hsn) as Hrun. destruct (sn_log sn) as [lp|].
  2:{ rewrite Hrun in Hr. injection Hr as <-. done. }
  destruct Hlog as (c&Hc&Hd&Ha). destruct Hrun as (c'&dels&adds&ldel&ladd&Hc'&Hrun&Hld&Hla&Hsd&Hsa).
  rewrite Hc in Hc'. injection Hc' as <-. rewrite Hrun in Hr. injection Hr as <-. cbn [rmap] in Heq. injection Heq as Heq.
  unfold opened in Heq. rewrite bind_app in Heq. fold (opened (dels_of i d)) (opened (adds_of i a)) in Heq.
  rewrite !changed_app, opened_dels, opened_adds, !changed_tables in Heq. apply tagged_inj in Heq as [Hdr Har].
  apply shows_iff in Hd as (l1&Hl1&Hd). rewrite Hld in Hl1. injection Hl1 as <-.
  apply shows_iff in Ha as (l2&Hl2&Ha). rewrite Hla in Hl2. injection Hl2 as <-.
  rewrite Hsa in Ha. injection Ha as <-. rewrite Hdr, Har.
  rewrite (sel_keys (s_pks s) _ _ _ _ _ ltac:(intros n' Hn'; by apply elem_of_read_order) ltac:(intros n' Hn'; apply out_names_in; by apply Hs) Hsd Hd).
  split.
  - rewrite Hpn. f_equiv. by apply unique_filter.
  - intros k Hk. rewrite Hp, fmap_app. apply elem_of_app. by right.
Qed.
