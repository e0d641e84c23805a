(** Merging patches (core/ops/utils.py:94-118). *)
From Verif.Spec Require Import Merging.
From Verif.Proofs Require Import Lib Effects.

Lemma merge_stats a b :
  update_record_bytes (update_index_stats a b) b = stats_add a b.
Proof. by destruct a, b. Qed.
Lemma merge_foldl l a :
  pa_add_idx (foldl merge_two a l) = pa_add_idx a ++ l ≫= pa_add_idx
  ∧ pa_add_rec (foldl merge_two a l) = pa_add_rec a ++ l ≫= pa_add_rec
  ∧ pa_del_idx (foldl merge_two a l) = pa_del_idx a ++ l ≫= pa_del_idx
  ∧ deleted_rows (foldl merge_two a l) = deleted_rows a ++ l ≫= deleted_rows
  ∧ added_rows (foldl merge_two a l) = added_rows a ++ l ≫= added_rows
  ∧ (is_Some (pa_log (foldl merge_two a l)) ↔ is_Some (pa_log a) ∨ ∃ p, p ∈ l ∧ is_Some (pa_log p))
  ∧ pa_stats (foldl merge_two a l) = foldl stats_add (pa_stats a) (pa_stats <$> l).
Proof.
  revert a. induction l as [|p l IH]; intros a; cbn [foldl mbind list_bind fmap list_fmap].
  { rewrite !app_nil_r. split_and!; try done. split; [by left|]. intros [?|(?&?%elem_of_nil&_)]; done. }
  destruct (IH (merge_two a p)) as (->&->&->&->&->&Hlog&->). rewrite !app_assoc.
  assert (deleted_rows (merge_two a p) = deleted_rows a ++ deleted_rows p
    ∧ added_rows (merge_two a p) = added_rows a ++ added_rows p
    ∧ (is_Some (pa_log (merge_two a p)) ↔ is_Some (pa_log a) ∨ is_Some (pa_log p))) as (->&->&Hl).
  { unfold deleted_rows, added_rows, merge_two. cbn. destruct (pa_log a), (pa_log p); cbn; rewrite ?app_nil_r; split_and!; try done;
      split; try (by eauto); try (by intros [[]|[]]). }
  split_and!; try done; [].  
  rewrite Hlog, Hl. split.
  - intros [[?|?]|(q&?&?)]; [by left|right; exists p; split; [left|done]|right; exists q; split; [by right|done]].
  - intros [?|(q&[->|?]%elem_of_cons&?)]; [by left; left|by left; right|right; eauto].
Qed.
Lemma merged ps :
  match merge_patches ps with
  | None => ∀ p, p ∈ ps → p = None
  | Some q => (∃ p, Some p ∈ ps) ∧ concatenates (omap id ps) q
  end.
Proof.
  unfold merge_patches.
  destruct (omap id ps) as [|x l] eqn:Hps.
  - intros [p|] Hp; [|done]. exfalso. assert (p ∈ omap id ps) as H.
    { apply elem_of_list_omap. by exists (Some p). } rewrite Hps in H. by apply elem_of_nil in H.
  - split.
    + assert (x ∈ omap id ps) as H by (rewrite Hps; left). apply elem_of_list_omap in H as ([p|]&Hp&[= ->]). eauto.
    + destruct (merge_foldl (x :: l) patch0) as (H1&H2&H3&H4&H5&H6&H7). constructor; try done.
      rewrite H6. split; [intros [[]|?]; done|by right].
Qed.

(** Applying the merged patch equals applying the parts. *)
Lemma check_dup l : check_duplicated l = if decide (NoDup l) then Ok tt else Err (ERuntime "duplicated manifest files").
Proof. done. Qed.
Lemma patch_manifests_iff idx rec p idx' rec' :
  NoDup idx →
  patch_manifests idx rec p = Ok (idx', rec') ↔
    (∀ x, x ∈ pa_del_idx p → x ∈ idx)
    ∧ idx' = filter (fun x => x ∉ pa_del_idx p) idx ++ pa_add_idx p
    ∧ rec' = rec ++ pa_add_rec p ∧ NoDup idx' ∧ NoDup rec'.
Proof.
  intros Hnd. unfold patch_manifests, patch_index_manifests.
  rewrite (remove_rev_spec (rev idx)) by (rewrite rev_reverse, reverse_Permutation; done).
  rewrite filter_reverse, rev_involutive.
  assert (Hin : ∀ x, x ∈ rev idx ↔ x ∈ idx) by (intros x; by rewrite rev_reverse, elem_of_reverse).
  destruct (filter (fun x => x ∉ rev idx) (pa_del_idx p)) as [|y l] eqn:Hd.
  - assert (∀ x, x ∈ pa_del_idx p → x ∈ idx) as Hsub.
    { intros x Hx. destruct (decide (x ∈ rev idx)) as [?|Hn]; [by apply Hin|].
      assert (x ∈ filter (fun x => x ∉ rev idx) (pa_del_idx p)) as H by (by apply elem_of_list_filter).
      rewrite Hd in H. by apply elem_of_nil in H. }
    cbn. unfold check_duplicated. split.
    + repeat case_decide; cbn; try done. by intros [= <- <-].
    + intros (_&->&->&H1&H2). by rewrite !decide_True.
  - split; [done|]. intros (Hsub&_). exfalso.
    assert (y ∈ filter (fun x => x ∉ rev idx) (pa_del_idx p)) as [Hn Hy]%elem_of_list_filter by (rewrite Hd; left).
    apply Hn, Hin. auto.
Qed.
Lemma apply_merged l idx rec idx' rec' q :
  NoDup idx → concatenates l q → apply_all idx rec l = Ok (idx', rec') →
  (∀ x, x ∈ pa_del_idx q → x ∉ pa_add_idx q) →
  l ≠ [] → patch_manifests idx rec q = Ok (idx', rec').
Proof.
  intros Hnd Hq Happ Hdis Hne.
  assert (Hgen : (∀ x, x ∈ l ≫= pa_del_idx → x ∈ idx)
    ∧ idx' = filter (fun x => x ∉ l ≫= pa_del_idx) idx ++ l ≫= pa_add_idx
    ∧ rec' = rec ++ l ≫= pa_add_rec ∧ NoDup idx' ∧ NoDup rec').
  { rewrite (cc_del_idx _ _ Hq), (cc_add_idx _ _ Hq) in Hdis. clear Hq q.
    revert idx rec Hnd Happ Hdis. induction l as [|p l IH]; intros idx rec Hnd Happ Hdis; [done|].
    cbn in Happ. apply rbind_ok in Happ as ([i1 r1]&Hp&Happ). apply patch_manifests_iff in Hp as (Hsub&->&->&Hn1&Hn2); [|done].
    destruct (decide (l = [])) as [->|Hl].
    - cbn in Happ. injection Happ as <- <-. cbn. rewrite !app_nil_r. done.
    - destruct (IH Hl _ _ Hn1 Happ) as (H1&->&->&H4&H5).
      { intros x Hx Hx'. apply (Hdis x); rewrite bind_cons; apply elem_of_app; by right. }
      rewrite !bind_cons.
      assert (∀ x, x ∈ l ≫= pa_del_idx → x ∈ idx ∧ x ∉ pa_del_idx p) as Hx.
      { intros x Hx. pose proof (H1 x Hx) as [[??]%elem_of_list_filter|Ha]%elem_of_app; [done|].
        exfalso. apply (Hdis x); rewrite bind_cons; apply elem_of_app; [by right|by left]. }
      assert (filter (fun x => x ∉ l ≫= pa_del_idx) (filter (fun x => x ∉ pa_del_idx p) idx ++ pa_add_idx p) ++ l ≫= pa_add_idx
         = filter (fun x => x ∉ pa_del_idx p ++ l ≫= pa_del_idx) idx ++ pa_add_idx p ++ l ≫= pa_add_idx) as Heq.
      { rewrite filter_app, <-app_assoc. f_equal; [|f_equal].
        - rewrite list_filter_filter. apply filter_ext_in. intros x _. rewrite not_elem_of_app. tauto.
        - rewrite <-(filter_notin_nil (pa_add_idx p)) at 2. apply filter_ext_in. intros x Hxa. split; [by intros _ ?%elem_of_nil|].
          intros _ Hxd. apply (Hdis x); rewrite bind_cons; apply elem_of_app; [by right|by left]. }
      split_and!; try done.
      + intros x [?|?]%elem_of_app; [auto|by apply Hx].
      + by rewrite <-app_assoc. }
  apply patch_manifests_iff; [done|]. by rewrite (cc_del_idx _ _ Hq), (cc_add_idx _ _ Hq), (cc_add_rec _ _ Hq).
Qed.
