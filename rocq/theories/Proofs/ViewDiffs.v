(** Diffs of views. *)
From Verif.Model Require Import System RayOps ViewDiff.
From Verif.Spec Require Import Api Changes Orderly Uniqueness ViewDiffs.
From Verif.Spec Require Import Free.
From Verif.Proofs Require Import PatchEdges.
From Verif.Proofs Require Import Lib RayDiff ViewReads Replay SysInv Calls Inv Access DeleteEffect Observe Txn ReadRun Diff Reads Orderly.

Section view.
Context {F : Type} (map_fn : F → row → list row) (keep_fn : F → row → bool).
Notation rows_of := (view_rows map_fn keep_fn).

(** * Processing tables *)
Lemma rget_in (r : row) n : n ∈ r.*1 → is_Some (rget n r).
Proof.
  induction r as [|[m c] r IH]; cbn; intros H; [by apply elem_of_nil in H|].
  case_decide; [eauto|]. apply elem_of_cons in H as [->|H]; [done|eauto].
Qed.
Lemma rsel_served fields (r : row) : (∀ c, c ∈ fields → c ∈ r.*1) → rsel fields r = Ok (columns fields r).
Proof.
  intros H. unfold rsel, columns. induction fields as [|f fields IH]; [done|]. cbn [rmapM].
  destruct (rget_in r f) as [c Hc]; [apply H; left|]. rewrite Hc, fmap_cons, Hc. cbn.
  rewrite IH; [done|]. intros c' Hc'. apply H. by right.
Qed.
Lemma tsel_served fields (t : list row) : (∀ r c, r ∈ t → c ∈ fields → c ∈ r.*1) → tsel fields t = Ok (columns fields <$> t).
Proof.
  intros H. unfold tsel. induction t as [|r t IH]; [done|]. cbn [rmapM].
  rewrite rsel_served by (intros c; apply H; left). cbn.
  rewrite IH; [done|]. intros r' c Hr. apply H. by right.
Qed.
Lemma process_served (v : view F) t : served map_fn keep_fn v t → process map_fn keep_fn v t = Ok (rows_of v t).
Proof.
  induction v as [|u i IH fields|u i IH fields]; cbn [served process view_rows]; [done| |];
    intros [Hi H]; rewrite (IH Hi); cbn; rewrite tsel_served by done; done.
Qed.
Lemma served_sub (v : view F) t t' : (∀ r, r ∈ t' → r ∈ t) → served map_fn keep_fn v t → served map_fn keep_fn v t'.
Proof.
  intros Hsub. assert (Hr : ∀ (i : view F) r, r ∈ rows_of i t' → r ∈ rows_of i t).
  { intros i r. rewrite (rows_of_bind _ _ i t), (rows_of_bind _ _ i t'), !elem_of_list_bind. intros (x&?&?). eauto. }
  induction v as [|u i IH fields|u i IH fields]; cbn [served]; [done| |]; intros [Hi H]; (split; [by apply IH|]);
    intros r c ?; apply H; by apply Hr.
Qed.
Lemma concat_nonempty (ts : list (list row)) : concat (nonempty_tables ts) = concat ts.
Proof.
  unfold nonempty_tables. induction ts as [|t ts IH]; [done|]. rewrite filter_cons. case_decide as Ht; cbn; rewrite IH; [done|].
  destruct t; [done|discriminate].
Qed.
Lemma process_tables (v : view F) ts :
  (∀ t, t ∈ ts → served map_fn keep_fn v t) →
  ∃ ds, rmap nonempty_tables (rmapM (process map_fn keep_fn v) ts) = Ok ds ∧ concat ds = rows_of v (concat ts).
Proof.
  intros H. assert (Hm : rmapM (process map_fn keep_fn v) ts = Ok (rows_of v <$> ts)).
  { induction ts as [|t ts IH]; [done|]. cbn [rmapM]. rewrite process_served by (apply H; left). cbn.
    rewrite IH; [done|]. intros t' ?. apply H. by right. }
  rewrite Hm. eexists. split; [done|]. rewrite concat_nonempty. clear. induction ts as [|t ts IH]; [by rewrite rows_of_nil|].
  cbn [concat fmap list_fmap]. by rewrite IH, rows_of_app.
Qed.
Lemma process_streams (v : view F) dss :
  (∀ ts t, ts ∈ dss → t ∈ ts → served map_fn keep_fn v t) →
  ∃ ds, rmapM (fun ts => rmap nonempty_tables (rmapM (process map_fn keep_fn v) ts)) dss = Ok ds
    ∧ concat (concat ds) = rows_of v (concat (concat dss)).
Proof.
  induction dss as [|ts dss IH]; intros H; [eexists; split; [done|]; by rewrite rows_of_nil|]. cbn [rmapM].
  destruct (process_tables v ts) as (d&->&Hd); [intros t; apply H; left|].
  destruct IH as (ds&->&Hds); [intros ts' t ?; apply H; by right|]. eexists. split; [done|].
  cbn [concat]. by rewrite !concat_app, Hd, Hds, rows_of_app.
Qed.

(** * Changes *)
Lemma seen_adds (v : view F) i (rows : list row) :
  ((fun r => (i, ChAdd, r)) <$> rows) ≫= seen_change map_fn keep_fn v = (fun r => (i, ChAdd, r)) <$> rows_of v rows.
Proof.
  induction rows as [|r rows IH]; [by rewrite rows_of_nil|]. rewrite fmap_cons, bind_cons, IH.
  change (r :: rows) with ([r] ++ rows). by rewrite rows_of_app, fmap_app.
Qed.
Lemma seen_dels (v : view F) i (rows : list row) :
  ((fun r => (i, ChDelete, r)) <$> rows) ≫= seen_change map_fn keep_fn v = (fun r => (i, ChDelete, r)) <$> rows.
Proof. induction rows as [|r rows IH]; [done|]. by rewrite fmap_cons, bind_cons, IH. Qed.
Lemma added_app l k : added_rows (l ++ k) = added_rows l ++ added_rows k.
Proof. unfold added_rows. by rewrite bind_app. Qed.
Lemma view_changes (v : view F) cs :
  served map_fn keep_fn v (added_rows (changed_rows (opened cs))) →
  ∃ outs, rmapM (view_change map_fn keep_fn v) cs = Ok outs
    ∧ changed_rows (concat outs) = changed_rows (opened cs) ≫= seen_change map_fn keep_fn v.
Proof.
  induction cs as [|c cs IH]; intros Hs; [by eexists|]. cbn [rmapM].
  unfold opened in *. rewrite bind_cons, changed_app, added_app in Hs.
  destruct IH as (outs&->&Hout).
  { eapply served_sub, Hs. intros r ?. apply elem_of_app. by right. }
  assert (∃ o, view_change map_fn keep_fn v c = Ok o
    ∧ changed_rows o = changed_rows (Change (rc_snap c) (rc_type c) <$> concat (rc_data c)) ≫= seen_change map_fn keep_fn v) as (o&->&Ho).
  { unfold view_change. rewrite changed_tables in Hs |- *. destruct (rc_type c).
    2: { eexists. split; [done|]. rewrite changed_tables. by rewrite seen_dels. }
    destruct (process_streams v (rc_data c)) as (ds&->&Hds).
    - intros ts t Hts Ht. eapply served_sub, Hs. intros r Hr. apply elem_of_app. left.
      unfold added_rows. apply elem_of_list_bind. exists (rc_snap c, ChAdd, r). split; [left|].
      apply elem_of_list_fmap. exists r. split; [done|].
      apply elem_of_list_In, in_concat. exists t. split; [|by apply elem_of_list_In].
      apply in_concat. exists ts. split; by apply elem_of_list_In.
    - eexists. split; [done|]. rewrite changed_tables, seen_adds. by rewrite Hds. }
  eexists. split; [done|]. cbn [concat]. rewrite bind_cons, !changed_app, bind_app. by rewrite Ho, Hout.
Qed.
Lemma ray_diff_of E n blocks a b batch hw :
  run_ray_diff E n blocks a b batch hw
  = let (hw', r) := run_diff_ray E n blocks a b batch hw in (hw', rmap opened r).
Proof. unfold run_ray_diff, bind. destruct (run_diff_ray _ _ _ _ _ _ hw) as [hw' [x|e]]; done. Qed.

Lemma view_diff_rows σ hid E E' n blocks (v : view F) a b batch batch' cs :
  reachable σ → 1 ≤ n →
  result σ hid (run_diff E' a b batch') = Some (Ok cs) → served map_fn keep_fn v (added_rows (changed_rows cs)) →
  ∃ out, result σ hid (run_view_diff map_fn keep_fn E n blocks v a b batch) = Some (Ok out)
    ∧ changed_rows out = changed_rows cs ≫= seen_change map_fn keep_fn v.
Proof.
  intros Hr Hn Hd Hs. pose proof (ray_diff_same σ hid E E' n blocks a b batch batch' Hr Hn) as Hsame.
  rewrite Hd in Hsame. destruct (y_handles σ !! hid) as [h|] eqn:Hh.
  2:{ unfold result, with_handle in Hd. by rewrite Hh in Hd. }
  rewrite (result_eq _ _ _ _ Hh) in Hsame. rewrite (result_eq _ _ _ _ Hh). rewrite ray_diff_of in Hsame.
  unfold run_view_diff, bind at 1. destruct (run_diff_ray E n blocks a b batch (h, y_world σ)) as [hw [rcs|e]]; [|done].
  cbn in Hsame. injection Hsame as Hsame. rewrite <-Hsame in Hs |- *.
  destruct (view_changes v rcs Hs) as (outs&Ho&Hrows). rewrite lift_bind, Ho. eexists. split; [done|]. done.
Qed.
Lemma view_diff_error σ hid E E' n blocks (v : view F) a b batch batch' e :
  reachable σ → 1 ≤ n →
  result σ hid (run_diff E' a b batch') = Some (Err e) →
  result σ hid (run_view_diff map_fn keep_fn E n blocks v a b batch) = Some (Err e).
Proof.
  intros Hr Hn Hd. pose proof (ray_diff_same σ hid E E' n blocks a b batch batch' Hr Hn) as Hsame.
  rewrite Hd in Hsame. destruct (y_handles σ !! hid) as [h|] eqn:Hh.
  2:{ unfold result, with_handle in Hd. by rewrite Hh in Hd. }
  rewrite (result_eq _ _ _ _ Hh) in Hsame. rewrite (result_eq _ _ _ _ Hh). rewrite ray_diff_of in Hsame.
  unfold run_view_diff, bind at 1. destruct (run_diff_ray E n blocks a b batch (h, y_world σ)) as [hw [rcs|e']]; [done|].
  cbn in Hsame |- *. congruence.
Qed.

(** * Replaying *)
Definition apply_row (pks : list string) (rows : list row) (c : Z * change_type * row) : list row :=
  match c with
  | (_, ChDelete, r) => filter (fun x => key_of pks x ≠ key_of pks r) rows
  | (_, ChAdd, r) => rows ++ [r]
  end.
Lemma apply_by_rows pks cs rows : apply_changes pks rows cs = foldl (apply_row pks) rows (changed_rows cs).
Proof.
  unfold apply_changes. revert rows. induction cs as [|[i t d] cs IH]; intros rows; [done|].
  change (Change i t d :: cs) with ([Change i t d] ++ cs) at 2. rewrite changed_app, foldl_app. cbn [foldl].
  rewrite IH. f_equal. unfold changed_rows. rewrite bind_cons. cbn [mbind list_bind ch_snap ch_type ch_data]. rewrite app_nil_r.
  unfold apply_change. cbn [ch_type ch_data]. clear. destruct t.
  - revert rows. induction d as [|r d IH]; intros rows; [by rewrite app_nil_r|]. cbn. rewrite <-IH. by rewrite <-app_assoc.
  - revert rows. induction d as [|r d IH]; intros rows; cbn.
    + induction rows as [|x rows IH]; [done|]. rewrite filter_cons_True by (by intros ?%elem_of_nil). by f_equal.
    + rewrite <-IH, list_filter_filter. apply list_filter_iff. intros x. rewrite not_elem_of_cons. tauto.
Qed.
Lemma rows_of_kept_key (v : view F) pks k rows : keeps_keys map_fn keep_fn v pks →
  filter (fun x => key_of pks x ≠ k) (rows_of v rows) = rows_of v (filter (fun x => key_of pks x ≠ k) rows).
Proof.
  intros Hk. rewrite (rows_of_bind _ _ v rows), (rows_of_bind _ _ v (filter _ rows)).
  induction rows as [|r rows IH]; [done|]. rewrite bind_cons, filter_app, IH, filter_cons. case_decide as Hr.
  - rewrite bind_cons. f_equal. apply list_filter_all. intros x Hx. rewrite (Hk _ _ Hx). done.
  - rewrite <-(app_nil_l (filter _ rows ≫= _)) at 2. f_equal. apply filter_none. intros x Hx. rewrite (Hk _ _ Hx). tauto.
Qed.
Lemma apply_seen (v : view F) pks l rows : keeps_keys map_fn keep_fn v pks →
  foldl (apply_row pks) (rows_of v rows) (l ≫= seen_change map_fn keep_fn v) = rows_of v (foldl (apply_row pks) rows l).
Proof.
  intros Hk. revert rows. induction l as [|[[i t] r] l IH]; intros rows; [done|]. rewrite bind_cons, foldl_app. cbn [foldl].
  rewrite <-IH. f_equal. destruct t; cbn [seen_change apply_row].
  - rewrite rows_of_app. generalize (rows_of v rows), (rows_of v [r]). intros l1 l2. revert l1.
    induction l2 as [|x l2 IHl]; intros l1; cbn; [by rewrite app_nil_r|]. rewrite IHl. by rewrite <-app_assoc.
  - cbn. by apply rows_of_kept_key.
Qed.
Lemma rows_of_perm (v : view F) l k : l ≡ₚ k → rows_of v l ≡ₚ rows_of v k.
Proof. intros H. rewrite (rows_of_bind _ _ v l), (rows_of_bind _ _ v k). by rewrite H. Qed.
Lemma view_replay (v : view F) pks cs out rows_a rows_b :
  keeps_keys map_fn keep_fn v pks → changed_rows out = changed_rows cs ≫= seen_change map_fn keep_fn v →
  apply_changes pks rows_a cs ≡ₚ rows_b →
  apply_changes pks (rows_of v rows_a) out ≡ₚ rows_of v rows_b.
Proof.
  intros Hk Ho. rewrite !apply_by_rows, Ho, apply_seen by done. apply rows_of_perm.
Qed.
Lemma view_diff_replays σ hid h s m E E' n blocks (v : view F) a b batch batch' i j l cs out rows_a rows_b :
  keeping separate_op init σ → y_handles σ !! hid = Some h → schema_at σ hid = Some s → stored_meta (w_fs (y_world σ)) = Some m →
  1 ≤ n → keeps_keys map_fn keep_fn v (s_pks s) →
  named m a = Some i → named m b = Some j → path_to m i j l →
  (∀ k sn rows, k ∈ i :: l → md_snaps m !! k = Some sn → reads σ hid (Some (VId k)) rows →
     unique_keys (s_pks s) rows ∧ st_rows (sn_stats sn) = Z.of_nat (length rows)) →
  result σ hid (run_diff E' a b batch') = Some (Ok cs) → served map_fn keep_fn v (added_rows (changed_rows cs)) →
  result σ hid (run_view_diff map_fn keep_fn E n blocks v a b batch) = Some (Ok out) →
  reads σ hid (Some (VId i)) rows_a → reads σ hid (Some (VId j)) rows_b →
  apply_changes (s_pks s) (rows_of v rows_a) out ≡ₚ rows_of v rows_b.
Proof.
  intros Ho Hh Hs Hm Hn Hk Ha Hb Hp Hall Hd Hv Hout Hra Hrb.
  destruct (view_diff_rows σ hid E E' n blocks v a b batch batch' cs) as (out'&Hout'&Hrows); [by eapply keeping_reachable|done..|].
  assert (out' = out) as -> by congruence.
  eapply view_replay; [done..|]. exact (replay_diff _ _ _ _ _ _ _ _ _ _ _ _ _ _ _ Ho Hh Hs Hm Ha Hb Hp Hall Hd Hra Hrb).
Qed.
Lemma view_diff_keyed σ hid h s m E E' n blocks (v : view F) a b batch batch' i j l cs out rows_a rows_b :
  orderly (fun s fs sn o => keyed_op s fs sn o ∧ careful_op s fs sn o) init σ →
  y_handles σ !! hid = Some h → schema_at σ hid = Some s → plain_keys s → stored_meta (w_fs (y_world σ)) = Some m →
  1 ≤ n → keeps_keys map_fn keep_fn v (s_pks s) →
  named m a = Some i → named m b = Some j → path_to m i j l →
  result σ hid (run_diff E' a b batch') = Some (Ok cs) → served map_fn keep_fn v (added_rows (changed_rows cs)) →
  result σ hid (run_view_diff map_fn keep_fn E n blocks v a b batch) = Some (Ok out) →
  reads σ hid (Some (VId i)) rows_a → reads σ hid (Some (VId j)) rows_b →
  apply_changes (s_pks s) (rows_of v rows_a) out ≡ₚ rows_of v rows_b.
Proof.
  intros Ho Hh Hs Hpl Hm Hn Hk Ha Hb Hp Hd Hv Hout Hra Hrb.
  destruct (view_diff_rows σ hid E E' n blocks v a b batch batch' cs) as (out'&Hout'&Hrows); [by eapply orderly_reachable|done..|].
  assert (out' = out) as -> by congruence.
  eapply view_replay; [done..|]. exact (replay_keyed _ _ _ _ _ _ _ _ _ _ _ _ _ _ _ Ho Hh Hs Hpl Hm Ha Hb Hp Hd Hra Hrb).
Qed.
End view.
