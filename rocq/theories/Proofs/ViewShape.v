(** Filters on views, and the columns of their rows. *)
From Verif.Model Require Import System RayOps ViewRead.
From Verif.Spec Require Import Logical Api Layout Pruning Keys ViewReads.
From Verif.Proofs Require Import Lib Order World Resolve SchemaFacts ReadSpec Wf Inv SysInv ReadRun Observe View Calls Reads Diff Shards RayRead Access ViewReads.

Section view.
Context {F : Type} (map_fn : F → row → list row) (keep_fn : F → row → bool).
Notation rows_of := (view_rows map_fn keep_fn).

Lemma rows_of_passed (v : view F) e rows : passes map_fn keep_fn v e →
  rows_of v (filter (fun r => matches e r = true) rows) = filter (fun r => matches e r = true) (rows_of v rows).
Proof.
  intros Hp. rewrite (rows_of_bind map_fn keep_fn v rows), (rows_of_bind map_fn keep_fn v (filter _ _)).
  induction rows as [|r rows IH]; [done|]. rewrite bind_cons, filter_app, filter_cons, <-IH. case_decide as Hr.
  - rewrite bind_cons. f_equal. symmetry. apply list_filter_all. intros x Hx. by rewrite (Hp r x Hx).
  - replace (filter _ (rows_of v [r])) with (@nil row); [done|]. symmetry.
    destruct (filter _ (rows_of v [r])) as [|x l] eqn:Hx; [done|]. assert (Hin : x ∈ x :: l) by left.
    rewrite <-Hx in Hin. apply elem_of_list_filter in Hin as [Hm Hin]. rewrite (Hp r x Hin) in Hm. done.
Qed.
Lemma well_fed_sub s ref (v : view F) rows rows' : (∀ r, r ∈ rows' → r ∈ rows) → well_fed map_fn keep_fn s ref v rows → well_fed map_fn keep_fn s ref v rows'.
Proof.
  intros Hsub.
  assert (Hin : ∀ (i : view F) r, r ∈ rows_of i rows' → r ∈ rows_of i rows).
  { intros i r. rewrite (rows_of_bind map_fn keep_fn i rows), (rows_of_bind map_fn keep_fn i rows'), !elem_of_list_bind. intros (y&?&?). eauto. }
  induction v as [loc br s'|u i IH l|u i IH l]; [done| |]; intros [Hw Hn]; (split; [by apply IH|]); intros n Hl; specialize (Hn n Hl);
    destruct i; auto.
Qed.
Lemma view_read_filtered σ hid s E blocks ver b (v : view F) e rows :
  reachable σ → schema_at σ hid = Some s → reads σ hid ver rows →
  safe_filter s e → buildable s e → no_nan_keys (s_pks s) rows →
  well_fed map_fn keep_fn s false v rows → passes map_fn keep_fn (in_read_order s false v) e →
  ∃ ts, result σ hid (run_view_read map_fn keep_fn E blocks v (Some e) None ver false b) = Some (Ok ts)
    ∧ concat ts = filter (fun r => matches e r = true) (rows_of (in_read_order s false v) rows).
Proof.
  intros Hr Hs Hrows Hsafe Hb Hnan Hw Hp.
  pose proof (filtered_read σ hid s e ver rows Hr Hs Hrows Hsafe Hb Hnan E None) as Hf.
  destruct (view_read_rows map_fn keep_fn σ hid s E E blocks (Some e) ver false b None v _ Hr Hs (well_fed_sub _ _ _ _ _ (fun r H => proj2 (proj1 (elem_of_list_filter _ _ _) H)) Hw) Hf)
    as (ts&Hts&Hc&_).
  exists ts. split; [done|]. by rewrite Hc, rows_of_passed.
Qed.

(** * Columns *)
Lemma dataset_columns σ hid s E blocks flt ver ref b h fields hw' ts :
  reachable σ → schema_at σ hid = Some s → y_handles σ !! hid = Some h → (∀ n, n ∈ read_names s fields → n ∈ s_names s) →
  dataset_read E blocks flt fields ver ref b (h, y_world σ) = (hw', Ok ts) →
  ∀ r, r ∈ concat ts → r.*1 ≡ₚ read_names s fields.
Proof.
  intros Hr Hs Hh Hf Hd r Hin.
  pose proof (ray_read_same σ hid s E E blocks flt fields ver ref b None Hr Hs Hf) as Hsame.
  rewrite (result_eq _ _ _ _ Hh), ray_read_dataset, Hd in Hsame. cbn in Hsame. rewrite nonempty_concat in Hsame.
  destruct (read_general σ hid s flt ver Hr Hs) as [[e He]|(stored&full&Hres&Hnames&Hgo)].
  - by rewrite result_read_all, He in Hsame.
  - destruct (Hgo E fields ref None Hf) as (ts'&Hts'&Hc'&_). rewrite result_read_all, Hts' in Hsame. cbn in Hsame. injection Hsame as Heq.
    rewrite Heq, Hc' in Hin. destruct ref.
    + apply elem_of_list_fmap in Hin as (x&->&_). by rewrite columns_names.
    + apply elem_of_list_fmap in Hin as (x&->&_). rewrite columns_names. unfold shown_order. clear.
      induction (read_names s fields) as [|n ns IH]; [done|]. rewrite !filter_cons.
      destruct (decide (n ∈ s_recs s)) as [Hn|Hn]; repeat case_decide; try (exfalso; tauto); cbn; rewrite <-?Permutation_middle; by rewrite IH.
Qed.
Lemma above_columns s (v : view F) ts ts' :
  shaped map_fn s v → (∀ r, r ∈ concat ts → r.*1 ≡ₚ read_names s (bottom_fields v)) → above map_fn keep_fn v ts = Ok ts' →
  ∀ r, r ∈ concat ts' → r.*1 ≡ₚ names_of (v_schema v).
Proof.
  revert ts'. induction v as [loc br s'|u i IH l|u i IH l]; intros ts' Hsh Hb Ha r Hin.
  - cbn in Ha. injection Ha as <-. cbn in Hsh. subst s'. by apply Hb.
  - cbn [above] in Ha. apply rbind_ok in Ha as (ts1&_&[= <-]). rewrite concat_map_bind in Hin.
    apply elem_of_list_bind in Hin as (y&Hy&_). by apply (Hsh y).
  - cbn [above] in Ha. apply rbind_ok in Ha as (ts1&Hi&[= <-]). rewrite concat_map_filter in Hin. apply elem_of_list_filter in Hin as [_ Hin].
    destruct Hsh as [Hsh Hl]. cbn [v_schema]. rewrite <-Hl. destruct i as [loc br s'|u' i l'|u' i l'].
    + injection Hi as <-. by apply Hb.
    + apply rbind_ok in Hi as (ts2&_&Hsel). apply rmapM_ok in Hsel. clear -Hsel Hin.
      induction Hsel as [|t t' ts ts' Ht _ IH]; [by apply elem_of_nil in Hin|]. apply elem_of_app in Hin as [Hin|Hin]; [|by apply IH].
      apply tsel_columns in Ht as ->. apply elem_of_list_fmap in Hin as (x&->&_). by rewrite columns_names.
    + apply rbind_ok in Hi as (ts2&_&Hsel). apply rmapM_ok in Hsel. clear -Hsel Hin.
      induction Hsel as [|t t' ts ts' Ht _ IH]; [by apply elem_of_nil in Hin|]. apply elem_of_app in Hin as [Hin|Hin]; [|by apply IH].
      apply tsel_columns in Ht as ->. apply elem_of_list_fmap in Hin as (x&->&_). by rewrite columns_names.
Qed.
(** Views whose bottom is a filter of the dataset read all its columns; others
    hide the columns of the dataset behind a map. *)
Lemma above_columns_map s (v : view F) ts ts' :
  shaped map_fn s v → (∃ n, n ∈ read_names s (bottom_fields v) ∧ n ∉ s_names s) → above map_fn keep_fn v ts = Ok ts' →
  ∀ r, r ∈ concat ts' → r.*1 ≡ₚ names_of (v_schema v).
Proof.
  revert ts'. induction v as [loc br s'|u i IH l|u i IH l]; intros ts' Hsh Hb Ha r Hin.
  - destruct Hb as (n&Hn&Hn'). by cbn in Hn.
  - cbn [above] in Ha. apply rbind_ok in Ha as (ts1&_&[= <-]). rewrite concat_map_bind in Hin.
    apply elem_of_list_bind in Hin as (y&Hy&_). by apply (Hsh y).
  - cbn [above] in Ha. apply rbind_ok in Ha as (ts1&Hi&[= <-]). rewrite concat_map_filter in Hin. apply elem_of_list_filter in Hin as [_ Hin].
    destruct Hsh as [Hsh Hl]. cbn [v_schema]. rewrite <-Hl. destruct i as [loc br s'|u' i l'|u' i l'].
    + destruct Hb as (n&Hn&Hn'). cbn in Hn, Hsh, Hl. subst s'. rewrite Hl in Hn. by destruct Hn'.
    + apply rbind_ok in Hi as (ts2&_&Hsel). apply rmapM_ok in Hsel. clear -Hsel Hin.
      induction Hsel as [|t t' ts ts' Ht _ IH]; [by apply elem_of_nil in Hin|]. apply elem_of_app in Hin as [Hin|Hin]; [|by apply IH].
      apply tsel_columns in Ht as ->. apply elem_of_list_fmap in Hin as (x&->&_). by rewrite columns_names.
    + apply rbind_ok in Hi as (ts2&_&Hsel). apply rmapM_ok in Hsel. clear -Hsel Hin.
      induction Hsel as [|t t' ts ts' Ht _ IH]; [by apply elem_of_nil in Hin|]. apply elem_of_app in Hin as [Hin|Hin]; [|by apply IH].
      apply tsel_columns in Ht as ->. apply elem_of_list_fmap in Hin as (x&->&_). by rewrite columns_names.
Qed.
Lemma view_read_columns σ hid s E blocks flt ver ref b (v : view F) ts r :
  reachable σ → schema_at σ hid = Some s → shaped map_fn s v →
  result σ hid (run_view_read map_fn keep_fn E blocks v flt None ver ref b) = Some (Ok ts) →
  r ∈ concat ts → r.*1 ≡ₚ names_of (v_schema v).
Proof.
  intros Hr Hs Hsh Hts Hin. pose proof Hs as Hs'. unfold schema_at in Hs. apply fmap_Some in Hs as (h&Hh&_). rewrite (result_eq _ _ _ _ Hh) in Hts.
  rewrite view_read_dataset in Hts. destruct (dataset_read _ _ _ _ _ _ _ _) as [hw' [ts0|]] eqn:Hd; [|done].
  cbn [rbind snd] in Hts. injection Hts as Hts. destruct (above map_fn keep_fn v ts0) as [ts1|] eqn:Ha; [|done]. cbn in Hts. injection Hts as <-.
  rewrite nonempty_concat in Hin.
  destruct (decide (Forall (fun n => n ∈ s_names s) (read_names s (bottom_fields v)))) as [Hall|Hnot].
  - rewrite Forall_forall in Hall. eapply above_columns; [done| |done|done]. by eapply (dataset_columns σ hid s E).
  - apply not_Forall_Exists in Hnot; [|apply _]. apply Exists_exists in Hnot as (n&Hn&Hn'). eapply above_columns_map; eauto.
Qed.
End view.
