(** Reading views. *)
From Verif.Model Require Import System RayOps ViewRead.
From Verif.Spec Require Import Logical Api Layout Pruning ViewReads.
From Verif.Proofs Require Import Lib Order World Resolve SchemaFacts ReadSpec Wf Inv SysInv ReadRun Observe View Calls Reads Diff Shards RayRead.

Section view.
Context {F : Type} (map_fn : F → row → list row) (keep_fn : F → row → bool).

(** * Rows of a view, table by table *)
Notation rows_of := (view_rows map_fn keep_fn).
Lemma rows_of_app (v : view F) l k : rows_of v (l ++ k) = rows_of v l ++ rows_of v k.
Proof.
  induction v as [|u i IH fields|u i IH fields]; cbn [view_rows]; [done| |]; rewrite IH, fmap_app.
  - by rewrite bind_app.
  - by rewrite filter_app.
Qed.
Lemma rows_of_nil (v : view F) : rows_of v [] = [].
Proof. induction v as [|u i IH fields|u i IH fields]; cbn [view_rows]; [done| |]; by rewrite IH. Qed.
Lemma rows_of_bind (v : view F) l : rows_of v l = l ≫= (fun r => rows_of v [r]).
Proof.
  induction l as [|r l IH]; [by rewrite rows_of_nil|]. change (r :: l) with ([r] ++ l) at 1.
  rewrite rows_of_app, IH. done.
Qed.

(** The transforms above the read of the dataset, on its tables. *)
Fixpoint above (v : view F) (ts : list (list row)) : res (list (list row)) :=
  match v with
  | VData _ _ _ => Ok ts
  | VMap u i l =>
      let? ts := match i with VData _ _ _ => Ok ts | _ => let? ts := above i ts in rmapM (tsel l) ts end in
      Ok ((fun t => t ≫= map_fn (u_fn u)) <$> ts)
  | VFilter u i l =>
      let? ts := match i with VData _ _ _ => Ok ts | _ => let? ts := above i ts in rmapM (tsel l) ts end in
      Ok ((fun t => filter (fun r => keep_fn (u_fn u) r = true) t) <$> ts)
  end.
Lemma view_dataset_run E blocks flt sid ref b (v : view F) hw :
  view_dataset map_fn keep_fn E blocks flt sid ref b v None hw
  = (let! ts := ray_dataset E blocks flt sid ref b (bottom_fields v) in lift (above v ts)) hw.
Proof.
  assert (Hret : ∀ A (m : H A) hw, (let! x := m in lift (Ok x)) hw = m hw).
  { intros A m0 hw0. unfold bind, lift. by destruct (m0 hw0) as [? []]. }
  assert (Hstep : ∀ (g : list row → list row) (i : view F) l,
     view_dataset map_fn keep_fn E blocks flt sid ref b i None hw
       = (let! ts := ray_dataset E blocks flt sid ref b (bottom_fields i) in lift (above i ts)) hw →
     (let! ts := match i with
                 | VData _ _ _ => view_dataset map_fn keep_fn E blocks flt sid ref b i (Some l)
                 | _ => let! ts := view_dataset map_fn keep_fn E blocks flt sid ref b i None in lift (rmapM (tsel l) ts)
                 end in ret (g <$> ts)) hw
     = (let! ts := ray_dataset E blocks flt sid ref b (match i with VData _ _ _ => Some l | _ => bottom_fields i end) in
        lift (let? ts := match i with VData _ _ _ => Ok ts | _ => let? ts := above i ts in rmapM (tsel l) ts end in
              Ok (g <$> ts))) hw).
  { intros g i l IH. destruct i as [loc br s|u i l'|u i l'].
    - cbn [view_dataset]. unfold bind, lift, ret. by destruct (ray_dataset _ _ _ _ _ _ _ hw) as [? []].
    - set (v1 := VMap u i l') in *. unfold bind, lift, ret in *. rewrite IH. destruct (ray_dataset _ _ _ _ _ _ _ hw) as [? [ts|]]; [|done].
      destruct (above v1 ts) as [ts'|]; cbn [rbind]; [|done]. by destruct (rmapM (tsel l) ts').
    - set (v1 := VFilter u i l') in *. unfold bind, lift, ret in *. rewrite IH. destruct (ray_dataset _ _ _ _ _ _ _ hw) as [? [ts|]]; [|done].
      destruct (above v1 ts) as [ts'|]; cbn [rbind]; [|done]. by destruct (rmapM (tsel l) ts'). }
  induction v as [loc br s|u i IH l|u i IH l].
  - cbn [view_dataset bottom_fields above]. by rewrite Hret.
  - specialize (Hstep (fun t => t ≫= map_fn (u_fn u)) i l IH). cbn [view_dataset]. rewrite Hstep.
    by destruct i.
  - specialize (Hstep (fun t => filter (fun r => keep_fn (u_fn u) r = true) t) i l IH). cbn [view_dataset]. rewrite Hstep.
    by destruct i.
Qed.
Lemma tables_selected l ts :
  (∀ r n, r ∈ concat ts → n ∈ l → n ∈ r.*1) → ∃ ts', rmapM (tsel l) ts = Ok ts' ∧ concat ts' = columns l <$> concat ts.
Proof.
  induction ts as [|t ts IH]; intros H; [by exists []|].
  destruct (tsel_total l t) as [t' Ht]; [intros r n Hr; apply H, elem_of_app; by left|].
  destruct IH as (ts'&Hts&Hc); [intros r n Hr; apply H, elem_of_app; by right|].
  exists (t' :: ts'). cbn. rewrite Ht, Hts. split; [done|]. cbn. by rewrite Hc, fmap_app, (tsel_columns _ _ _ Ht).
Qed.
Lemma concat_map_bind {A B} (f : A → list B) (ts : list (list A)) : concat ((fun t => t ≫= f) <$> ts) = concat ts ≫= f.
Proof. induction ts as [|t ts IH]; [done|]. rewrite fmap_cons. cbn [concat]. by rewrite IH, bind_app. Qed.
Lemma concat_map_filter (P : row → Prop) `{∀ r, Decision (P r)} (ts : list (list row)) :
  concat ((fun t => filter P t) <$> ts) = filter P (concat ts).
Proof. induction ts as [|t ts IH]; [done|]. rewrite fmap_cons. cbn [concat]. by rewrite IH, filter_app. Qed.
Lemma above_rows s ref (v : view F) ts rows :
  well_fed map_fn keep_fn s ref v rows →
  concat ts = match bottom_fields v with Some l => columns (pushed_fields s ref l) <$> rows | None => rows end →
  ∃ ts', above v ts = Ok ts' ∧ concat ts' = rows_of (in_read_order s ref v) rows.
Proof.
  assert (Hstep : ∀ (i : view F) l,
     (well_fed map_fn keep_fn s ref i rows →
      concat ts = match bottom_fields i with Some l => columns (pushed_fields s ref l) <$> rows | None => rows end →
      ∃ ts', above i ts = Ok ts' ∧ concat ts' = rows_of (in_read_order s ref i) rows) →
     well_fed map_fn keep_fn s ref i rows →
     (∀ n, n ∈ l → match i with VData _ _ _ => n ∈ names_of (s_fields s)
                   | _ => ∀ r, r ∈ view_rows map_fn keep_fn (in_read_order s ref i) rows → n ∈ r.*1 end) →
     concat ts = match (match i with VData _ _ _ => Some l | _ => bottom_fields i end) with
                 | Some l => columns (pushed_fields s ref l) <$> rows | None => rows end →
     ∃ ts', (match i with VData _ _ _ => Ok ts | _ => let? ts := above i ts in rmapM (tsel l) ts end) = Ok ts'
       ∧ concat ts' = match i with VData _ _ _ => columns (pushed_fields s ref l) <$> rows
                      | _ => columns l <$> rows_of (in_read_order s ref i) rows end).
  { intros i l IH Hw Hn Hc. destruct i as [loc br s'|u i l'|u i l']; [by exists ts| |].
    - destruct (IH Hw Hc) as (ts1&->&Hc1). cbn [rbind]. rewrite <-Hc1. apply tables_selected. rewrite Hc1. intros r n Hr Hl. by apply Hn.
    - destruct (IH Hw Hc) as (ts1&->&Hc1). cbn [rbind]. rewrite <-Hc1. apply tables_selected. rewrite Hc1. intros r n Hr Hl. by apply Hn. }
  induction v as [loc br s'|u i IH l|u i IH l].
  - intros _ Hc. exists ts. by split.
  - intros [Hw Hn] Hc. assert (Hc' := Hc). 
    destruct (Hstep i l IH Hw Hn) as (ts1&Hts1&Hc1); [by destruct i|]. cbn [above]. rewrite Hts1. cbn [rbind].
    eexists. split; [done|]. rewrite concat_map_bind, Hc1. by destruct i.
  - intros [Hw Hn] Hc.
    destruct (Hstep i l IH Hw Hn) as (ts1&Hts1&Hc1); [by destruct i|]. cbn [above]. rewrite Hts1. cbn [rbind].
    eexists. split; [done|]. rewrite concat_map_filter, Hc1. by destruct i.
Qed.

(** * The read *)
Definition dataset_read E blocks flt fields (ver : option version) ref b : H (list (list row)) :=
  let! _ := reload in
  let! h := get_handle in
  let! sid := lift (match ver with None => Ok None | Some x => rmap Some (version_to_snapshot_id h x) end) in
  ray_dataset E blocks flt sid ref b fields.
Lemma ray_read_dataset E blocks flt fields ver ref b hw :
  run_ray_read E blocks flt fields ver ref b hw
  = let '(hw', r) := dataset_read E blocks flt fields ver ref b hw in (hw', rmap nonempty_tables r).
Proof.
  unfold run_ray_read, dataset_read, ray_dataset, get_handle, bind, lift, ret, liftM.
  destruct (reload hw) as [[h1 w1] [b0|]]; [|done]. unfold gets. cbn [fst]. destruct (match ver with None => Ok None | Some x => rmap Some (version_to_snapshot_id h1 x) end) as [sid|]; [|done].
  destruct (data_files flt sid (h1, w1)) as [[h3 w3] [fset|]]; [|done].
  by destruct (read_files _ _ _ _ w3) as [? []].
Qed.
Lemma view_read_dataset E blocks (v : view F) flt ver ref b hw :
  run_view_read map_fn keep_fn E blocks v flt None ver ref b hw
  = let '(hw', r) := dataset_read E blocks flt (bottom_fields v) ver ref b hw in
    (hw', let? ts := r in rmap nonempty_tables (above v ts)).
Proof.
  unfold run_view_read, dataset_read, get_handle, bind, lift, ret.
  destruct (reload hw) as [[h1 w1] [b0|]]; [|done]. unfold gets. cbn [fst]. destruct (match ver with None => Ok None | Some x => rmap Some (version_to_snapshot_id h1 x) end) as [sid|]; [|done].
  rewrite view_dataset_run. unfold bind, lift.
  destruct (ray_dataset _ _ _ _ _ _ _ _) as [hw3 [ts|]]; [|done]. cbn [rbind]. by destruct (above v ts).
Qed.
Lemma bottom_known s ref (v : view F) rows :
  well_fed map_fn keep_fn s ref v rows → ∀ n, n ∈ read_names s (bottom_fields v) → n ∈ s_names s.
Proof.
  induction v as [loc br s'|u i IH l|u i IH l]; [done| |]; intros [Hw Hn]; destruct i; cbn [bottom_fields]; try (by apply IH); exact Hn.
Qed.
Lemma read_pushed σ hid s E E' flt ver ref b b' fields rows :
  reachable σ → schema_at σ hid = Some s → (∀ n, n ∈ read_names s fields → n ∈ s_names s) →
  result σ hid (run_read_all E flt None ver ref b) = Some (Ok rows) →
  result σ hid (run_read_all E' flt fields ver ref b')
  = Some (Ok (match fields with Some l => columns (pushed_fields s ref l) <$> rows | None => rows end)).
Proof.
  intros Hr Hs Hf Hrows. destruct fields as [l|]; [|erewrite read_batches; [exact Hrows|done..]].
  destruct ref; [|by eapply read_projection].
  destruct (read_general σ hid s flt ver Hr Hs) as [[e He]|(stored&full&Hres&Hnames&Hgo)].
  - rewrite result_read_all, He in Hrows by done. done.
  - destruct (Hgo E None true b) as (ts&Hts&Hc&_); [done|]. rewrite result_read_all, Hts in Hrows. cbn in Hrows. injection Hrows as <-.
    destruct (Hgo E' (Some l) true b') as (ts'&Hts'&Hc'&_); [done|]. rewrite result_read_all, Hts'. cbn. f_equal. f_equal.
    rewrite Hc', Hc. cbn [read_names default]. unfold pushed_fields. rewrite <-list_fmap_compose. apply list_fmap_ext.
    + intros i r Hir. cbn. symmetry. apply columns_columns. intros n Hn. split; [by apply Hf|].
      apply elem_of_list_lookup_2 in Hir. eapply Forall_forall in Hnames; [|exact Hir]. apply rget_some. rewrite Hnames. by apply Hf.
Qed.
Lemma view_read_rows σ hid s E E' blocks flt ver ref b b' (v : view F) rows :
  reachable σ → schema_at σ hid = Some s → well_fed map_fn keep_fn s ref v rows →
  result σ hid (run_read_all E' flt None ver ref b') = Some (Ok rows) →
  ∃ ts, result σ hid (run_view_read map_fn keep_fn E blocks v flt None ver ref b) = Some (Ok ts)
    ∧ concat ts = rows_of (in_read_order s ref v) rows ∧ Forall (fun t => t ≠ []) ts.
Proof.
  intros Hr Hs Hw Hrows. pose proof (bottom_known s ref v rows Hw) as Hf.
  pose proof (read_pushed σ hid s E' E' flt ver ref b' b' (bottom_fields v) rows Hr Hs Hf Hrows) as Hp.
  rewrite <-(ray_read_same σ hid s E E' blocks flt (bottom_fields v) ver ref b b' Hr Hs Hf) in Hp.
  unfold schema_at in Hs. apply fmap_Some in Hs as (h&Hh&_). rewrite !(result_eq _ _ _ _ Hh) in *.
  rewrite ray_read_dataset in Hp. rewrite view_read_dataset.
  destruct (dataset_read _ _ _ _ _ _ _ _) as [hw' r]. cbn [snd] in *. destruct r as [ts|]; [|done]. cbn in Hp. injection Hp as Hp.
  rewrite nonempty_concat in Hp. destruct (above_rows s ref v ts rows Hw Hp) as (ts'&Hts'&Hc).
  cbn [rbind]. rewrite Hts'. cbn [rmap]. eexists. split; [done|]. split; [by rewrite nonempty_concat|apply nonempty_all].
Qed.
Lemma view_read_error σ hid E E' blocks flt ver ref b b' (v : view F) s e :
  reachable σ → schema_at σ hid = Some s → (∀ n, n ∈ read_names s (bottom_fields v) → n ∈ s_names s) →
  result σ hid (run_read_all E' flt None ver ref b') = Some (Err e) →
  result σ hid (run_view_read map_fn keep_fn E blocks v flt None ver ref b) = Some (Err e).
Proof.
  intros Hr Hs Hf Hrows.
  assert (Hp : result σ hid (run_read_all E' flt (bottom_fields v) ver ref b') = Some (Err e)).
  { destruct (read_general σ hid s flt ver Hr Hs) as [[e' He]|(stored&full&Hres&Hnames&Hgo)].
    - rewrite result_read_all, He in Hrows by done. rewrite result_read_all, He by done. done.
    - destruct (Hgo E' None ref b') as (ts&Hts&_); [done|]. by rewrite result_read_all, Hts in Hrows. }
  rewrite <-(ray_read_same σ hid s E E' blocks flt (bottom_fields v) ver ref b b' Hr Hs Hf) in Hp.
  unfold schema_at in Hs. apply fmap_Some in Hs as (h&Hh&_). rewrite !(result_eq _ _ _ _ Hh) in *.
  rewrite ray_read_dataset in Hp. rewrite view_read_dataset.
  destruct (dataset_read _ _ _ _ _ _ _ _) as [hw' r]. cbn [snd] in *. destruct r as [ts|]; [done|]. cbn in Hp. by injection Hp as ->.
Qed.
Lemma view_read_fails σ hid E E' blocks flt ver ref b b' (v : view F) s e :
  reachable σ → schema_at σ hid = Some s → (∀ n l, bottom_fields v = Some l → n ∈ l → n ∈ names_of (s_fields s)) →
  result σ hid (run_read_all E' flt None ver ref b') = Some (Err e) →
  result σ hid (run_view_read map_fn keep_fn E blocks v flt None ver ref b) = Some (Err e).
Proof.
  intros Hr Hs Hf. apply (view_read_error σ hid E E' blocks flt ver ref b b' v s e Hr Hs).
  intros n Hn. unfold read_names in Hn. destruct (bottom_fields v) as [l|] eqn:Hl; [by apply (Hf n l)|done].
Qed.
End view.
