(** Joins of views. *)
From Verif.Model Require Import System RayOps ViewJoin.
From Verif.Spec Require Import Logical Api Layout Pruning Evolution ViewJoins.
From Verif.Proofs Require Import Lib Order FalsifySound World Resolve AppendSpec SchemaFacts ReadSpec Stats Bounds Wf OpSpec Inv
  FileSet Ops Bodies Txn SysInv ReadRun Effects DeleteEffect Observe View Prune Calls Reads Total Diff Shards RayRead Access Joins JoinCalls JoinAccept
  RefreshSource ViewPlans ViewReads ViewShape.

(** Rows with the same columns, in any order. *)
Definition alike (x y : row) : Prop := ∀ n, rget n x = rget n y.
Lemma alike_look x y n : alike x y → row_look x n = row_look y n.
Proof. intros H. unfold row_look. by rewrite (H n). Qed.
Lemma rget_columns_if ns r n : rget n (columns ns r) = if decide (n ∈ ns) then Some (default CNull (rget n r)) else None.
Proof.
  case_decide as Hn; [by apply rget_columns_all|]. destruct (rget n (columns ns r)) as [c|] eqn:Hc; [|done].
  destruct Hn. rewrite <-(columns_names ns r). apply rget_in in Hc. apply elem_of_list_fmap. by exists (n, c).
Qed.
Lemma alike_columns ns ns' r : ns ≡ₚ ns' → alike (columns ns r) (columns ns' r).
Proof. intros H n. rewrite !rget_columns_if. by rewrite (decide_ext (n ∈ ns) (n ∈ ns')) by by rewrite H. Qed.
Lemma alike_app x x' y y' : alike x x' → alike y y' → alike (x ++ y) (x' ++ y').
Proof. intros Hx Hy n. rewrite !rget_app, (Hx n). by destruct (rget n x'). Qed.
Section view.
Context {F : Type} (map_fn : F → row → list row) (keep_fn : F → row → bool).
Notation rows_of := (view_rows map_fn keep_fn).

Lemma rows_of_kept (v : view F) key g rows :
  (∀ r x, r ∈ rows → x ∈ rows_of v [r] → row_look x key = row_look r key) →
  rows_of v (filter (in_range key g) rows) = filter (in_range key g) (rows_of v rows).
Proof.
  intros Hp. rewrite (rows_of_bind map_fn keep_fn v rows), (rows_of_bind map_fn keep_fn v (filter _ _)).
  induction rows as [|r rows IH]; [done|]. rewrite bind_cons, filter_app, filter_cons, <-IH by (intros; eapply Hp; [by right|done]).
  assert (Hr : ∀ x, x ∈ rows_of v [r] → in_range key g x ↔ in_range key g r).
  { intros x Hx. unfold in_range. by rewrite (key_matches key _ x r (range_key_only key g) (Hp r x ltac:(by left) Hx)). }
  case_decide as Hd.
  - rewrite bind_cons. f_equal. symmetry. apply list_filter_all. intros x Hx. by apply Hr.
  - replace (filter _ (rows_of v [r])) with (@nil row); [done|]. symmetry.
    destruct (filter _ (rows_of v [r])) as [|x l] eqn:Hx; [done|]. assert (Hin : x ∈ x :: l) by left.
    rewrite <-Hx in Hin. apply elem_of_list_filter in Hin as [Hm Hin]. by apply (Hr x Hin) in Hm.
Qed.
Lemma over_pks s (v : view F) : over s v → v_pks v = s_pks s.
Proof. induction v; cbn; [by intros ->|done..]. Qed.
Lemma view_here E blocks flt ref (v : view F) h w h' b :
  reload (h, w) = ((h', w), Ok b) →
  run_view_read map_fn keep_fn E blocks v flt None None ref None (h, w)
  = (let! ts := view_dataset map_fn keep_fn E blocks flt None ref None v None in ret (nonempty_tables ts)) (h', w).
Proof.
  intros Hr. unfold run_view_read. rewrite (bind_run _ _ _ _ _ Hr). by rewrite get_handle_bind, lift_bind.
Qed.
Lemma dataset_here E blocks flt fields ref h w h' b :
  reload (h, w) = ((h', w), Ok b) →
  run_ray_read E blocks flt fields None ref None (h, w)
  = (let! ts := ray_dataset E blocks flt None ref None fields in ret (nonempty_tables ts)) (h', w).
Proof.
  intros Hr. unfold run_ray_read. rewrite (bind_run _ _ _ _ _ Hr). rewrite get_handle_bind, lift_bind.
  unfold ray_dataset, get_handle, gets, bind, ret, liftM. cbn [fst].
  destruct (data_files flt None (h', w)) as [[? ?] [?|]]; [|done]. by destruct (read_files _ _ _ _ _) as [? [?|]].
Qed.

Lemma matched_alike key x x' y y' : alike x x' → alike y y' → keys_match key x y = keys_match key x' y'.
Proof. intros Hx Hy. unfold keys_match. by rewrite (alike_look _ _ key Hx), (alike_look _ _ key Hy). Qed.
Lemma join_alike key out L L' R R' :
  Forall2 alike L L' → Forall2 alike R R' → inner_join key out L R = inner_join key out L' R'.
Proof.
  intros HL HR. unfold inner_join. induction HL as [|x x' L L' Hx _ IH]; [done|]. rewrite !bind_cons, IH. f_equal. clear IH.
  induction HR as [|y y' R R' Hy _ IHR]; [done|]. rewrite !filter_cons.
  assert (Hs : same_key key x y ↔ same_key key x' y').
  { unfold same_key. by rewrite (alike_look _ _ key Hx), (alike_look _ _ key Hy). }
  repeat case_decide; try tauto. rewrite !fmap_cons, IHR. f_equal. apply list_fmap_ext. intros _ n _. cbn.
  f_equal. by rewrite (alike_app _ _ _ _ Hx Hy n).
Qed.
Lemma values_alike key L L' : Forall2 alike L L' → column_values key L = column_values key L'.
Proof.
  intros H. unfold column_values. induction H as [|x x' L L' Hx _ IH]; [done|]. cbn in IH |- *. rewrite (alike_look _ _ key Hx), IH. done.
Qed.
Lemma common_alike key L L' R R' : Forall2 alike L L' → Forall2 alike R R' → common key L R = common key L' R'.
Proof. intros HL HR. unfold common. by rewrite (values_alike key L L' HL), (values_alike key R R' HR). Qed.

Lemma run_state σ hid s h h' b0 E blocks flt fields ref :
  reachable σ → schema_at σ hid = Some s → y_handles σ !! hid = Some h →
  reload (h, y_world σ) = ((h', y_world σ), Ok b0) →
  (ray_dataset E blocks flt None ref None fields (h', y_world σ)).1 = (h', y_world σ).
Proof.
  intros Hr Hs Hh Hrel. destruct (reachable_seen _ _ _ Hr Hh) as (s'&p&m&[Hi _ Hwf Hst Hm _]).
  destruct (ray_read_run E blocks flt fields None ref None s' h (y_world σ) p m (si_world _ _ Hi) Hwf Hst Hm) as (r&Hrun&_).
  rewrite (dataset_here _ _ _ _ _ _ _ _ _ Hrel) in Hrun. rewrite (reload_run p m h _ Hst) in Hrel. injection Hrel as <- _.
  unfold bind, ret in Hrun. destruct (ray_dataset _ _ _ _ _ _ _ _) as [hw [ts|e]]; by injection Hrun as -> _.
Qed.
Lemma dataset_at σ hid s h h' b0 E E' blocks flt fields ref b rows :
  reachable σ → schema_at σ hid = Some s → y_handles σ !! hid = Some h →
  reload (h, y_world σ) = ((h', y_world σ), Ok b0) →
  (∀ n, n ∈ read_names s fields → n ∈ s_names s) →
  result σ hid (run_read_all E' flt fields None ref b) = Some (Ok rows) →
  ∃ ts, ray_dataset E blocks flt None ref None fields (h', y_world σ) = ((h', y_world σ), Ok ts) ∧ concat ts = rows.
Proof.
  intros Hr Hs Hh Hrel Hf Hrows. pose proof (run_state σ hid s h h' b0 E blocks flt fields ref Hr Hs Hh Hrel) as Hst.
  rewrite <-(ray_read_same σ hid s E E' blocks flt fields None ref None b Hr Hs Hf) in Hrows.
  rewrite (result_eq _ _ _ _ Hh), (dataset_here _ _ _ _ _ _ _ _ _ Hrel) in Hrows. unfold bind, ret in Hrows.
  destruct (ray_dataset _ _ _ _ _ _ _ _) as [hw [ts|e]]; [|done]. cbn in Hst, Hrows. subst hw. exists ts. split; [done|].
  injection Hrows as <-. by rewrite nonempty_concat.
Qed.
Lemma view_at σ hid s h h' b0 E blocks flt ref (v : view F) ts :
  reachable σ → schema_at σ hid = Some s → y_handles σ !! hid = Some h →
  reload (h, y_world σ) = ((h', y_world σ), Ok b0) →
  result σ hid (run_view_read map_fn keep_fn E blocks v flt None None ref None) = Some (Ok ts) →
  ∃ ts', view_dataset map_fn keep_fn E blocks flt None ref None v None (h', y_world σ) = ((h', y_world σ), Ok ts') ∧ concat ts' = concat ts.
Proof.
  intros Hr Hs Hh Hrel Hts. pose proof (run_state σ hid s h h' b0 E blocks flt (bottom_fields v) ref Hr Hs Hh Hrel) as Hst.
  rewrite (result_eq _ _ _ _ Hh), (view_here _ _ _ _ _ _ _ _ _ Hrel) in Hts.
  rewrite view_dataset_run. unfold bind, ret in Hts. rewrite view_dataset_run in Hts. unfold bind, lift in *.
  destruct (ray_dataset _ _ _ _ _ _ _ _) as [hw [ts0|e]]; [|done]. cbn in Hst, Hts. subst hw.
  destruct (above map_fn keep_fn v ts0) as [ts1|]; [|done]. cbn in Hts. injection Hts as <-. exists ts1.
  split; [done|]. by rewrite nonempty_concat.
Qed.
Lemma view_side σ hid s E E' blocks key (v : view F) i b rows :
  reachable σ → schema_at σ hid = Some s → good_side map_fn keep_fn s v (ji_ref i) key rows → key ∈ v_pks v →
  (∀ n, n ∈ side_fields (view_schema v) i → n ∈ names_of (v_schema v)) → (∀ ns, ji_fields i = Some ns → key ∈ ns) →
  result σ hid (run_read_all E' None None None (ji_ref i) b) = Some (Ok rows) →
  ∃ h h' f o L, y_handles σ !! hid = Some h ∧ (∃ b, reload (h, y_world σ) = ((h', y_world σ), Ok b))
    ∧ f ∈ s_fields s ∧ f_name f = key
    ∧ side_at (side_fields (view_schema v) i) (key_range_in (v_schema v) key) (side_dataset map_fn keep_fn E blocks v i) key
        (h', y_world σ) o L
    ∧ Forall2 alike L (asked map_fn keep_fn s v i rows)
    ∧ (∀ r, r ∈ L → r.*1 ≡ₚ side_fields (view_schema v) i)
    ∧ (∀ r, r ∈ L → row_look r key ≠ Some SNaN)
    ∧ (all_keyed key (layout σ hid) →
        ∃ q, o = Ok q
        ∧ ∀ g, q = Some g → kind_ok (f_ty (phys_field s f)) (rg_min g) = true ∧ kind_ok (f_ty (phys_field s f)) (rg_max g) = true
                        ∧ is_nan (rg_min g) = false ∧ is_nan (rg_max g) = false).
Proof.
  intros Hr Hs [Hover Hfed Hshape Hkey Hid Hpl Hnan] Hk Hsel Hkf Hrows. rewrite (over_pks s v Hover) in Hk.
  destruct (side_reached E E' blocks key (JoinInput None (ji_ref i)) σ hid s b rows) as (h&h'&f&o&Hh&Hf&Hn&Hside&Hq); try done.
  pose proof Hside as [[b0 Hrel] Hsch [Hrg Hrd Hbd Hnm]]. cbn [ji_fields ji_ref] in *.
  assert (Hws : wf_schema s).
  { destruct (reachable_seen _ _ _ Hr Hh) as (s'&p&m&Hseen).
    assert (s' = s) as <-. { pose proof (sn_schema _ _ _ _ _ _ Hseen). congruence. }
    by eapply seen_schema. }
  (* the restricted rows of the dataset *)
  assert (Hfilt : ∀ g, result σ hid (run_read_all E' (Some (range_filter key g)) None None (ji_ref i) b) = Some (Ok (filter (in_range key g) rows))).
  { intros g. destruct (Hrd g) as (ts&Hts&Hc). rewrite <-(ray_read_same σ hid s E E' blocks _ None None (ji_ref i) None b Hr Hs); [|done].
    rewrite (result_eq _ _ _ _ Hh). unfold run_ray_read. rewrite (bind_run _ _ _ _ _ Hrel), get_handle_bind, lift_bind.
    unfold ray_read_here in Hts. rewrite get_handle_bind in Hts. cbv beta iota. rewrite Hts. cbn. by rewrite Hc. }
  (* the rows of the view *)
  set (all := rows_of (in_read_order s (ji_ref i) v) rows) in *.
  assert (Hall : ∀ x, x ∈ all → ∃ r, r ∈ rows ∧ row_look x key = row_look r key).
  { intros x Hx. unfold all in Hx. rewrite rows_of_bind in Hx. apply elem_of_list_bind in Hx as (r&Hx&Hin). exists r. split; [done|]. by apply (Hkey r). }
  destruct (view_read_rows map_fn keep_fn σ hid s E E' blocks None None (ji_ref i) None b v rows Hr Hs Hfed Hrows) as (ts0&Hts0&Hc0&_).
  assert (Hcols : ∀ x, x ∈ all → x.*1 ≡ₚ names_of (v_schema v)).
  { intros x Hx. apply (view_read_columns map_fn keep_fn σ hid s E blocks None None (ji_ref i) None v ts0 x Hr Hs Hshape Hts0). by rewrite Hc0. }
  assert (Hview : ∀ g, ∃ ts, view_dataset map_fn keep_fn E blocks (Some (range_filter key g)) None (ji_ref i) None v None (h', y_world σ)
       = ((h', y_world σ), Ok ts) ∧ concat ts = filter (in_range key g) all).
  { intros g. destruct (view_read_rows map_fn keep_fn σ hid s E E' blocks (Some (range_filter key g)) None (ji_ref i) None b v
        (filter (in_range key g) rows) Hr Hs) as (ts&Hts&Hc&_); [|done|].
    - eapply well_fed_sub; [|exact Hfed]. intros r Hin. by apply elem_of_list_filter in Hin as [_ ?].
    - destruct (view_at σ hid s h h' b0 E blocks _ _ v ts Hr Hs Hh Hrel Hts) as (ts'&Hts'&Hc'). exists ts'. split; [done|].
      rewrite Hc', Hc. by apply rows_of_kept. }
  assert (Hrange : key_range_in (v_schema v) key (h', y_world σ) = ((h', y_world σ), o)).
  { destruct (reachable_seen _ _ _ Hr Hh) as (s'&p&m&[Hi _ Hwf Hst Hm Hsc]).
    assert (s' = s) as -> by congruence. rewrite (reload_run p m h _ Hst) in Hrel. injection Hrel as <- _.
    destruct (sync_spec s (y_world σ) p m h Hst Hm Hwf) as (_&Hm'&_).
    assert (Hids : field_ids_of (s_fields s) !! key = Some (field_id f)) by (apply (field_ids_lookup (s_fields s) key); [apply Hws|done..]).
    rewrite (key_range_in_run s _ _ (v_schema v) key (field_id f) f); [|done|by rewrite Hm'|done|done|done|by rewrite Hid|done].
    rewrite (key_range_run s _ _ key f) in Hrg; [|done|by rewrite Hm'|done..]. congruence. }
  assert (Hbounds : ∀ L : list row, (∀ x, x ∈ L → ∃ r, r ∈ rows ∧ row_look x key = row_look r key) →
     (∀ q r v, o = Ok q → r ∈ L → row_look r key = Some v →
        ∃ a b, q = Some (Range a b true) ∧ is_nan a = false ∧ is_nan b = false ∧ sle a v ∧ sle v b)
     ∧ ∀ r, r ∈ L → row_look r key ≠ Some SNaN).
  { intros L HL. split.
    - intros q r u Ho Hin Hu. destruct (HL r Hin) as (r'&Hr'&Hl). eapply Hbd; [done|exact Hr'|congruence].
    - intros r Hin. destruct (HL r Hin) as (r'&Hr'&->). by apply Hnan. }
  assert (Hmatch : ∀ (l : list string) g (xs : list row), key ∈ l → filter (in_range key g) (columns l <$> xs) = columns l <$> filter (in_range key g) xs).
  { intros l g xs Hl. clear -Hl. induction xs as [|x xs IH]; [done|]. rewrite fmap_cons, !filter_cons, IH.
    rewrite (decide_ext (in_range key g (columns l x)) (in_range key g x)).
    - by case_decide.
    - unfold in_range. rewrite (key_matches key _ (columns l x) x); [done|apply range_key_only|]. by apply look_columns. }
  assert (Hperm : ∀ l, pushed_fields s (ji_ref i) l ≡ₚ l).
  { intros l. unfold pushed_fields. destruct (ji_ref i); [done|]. unfold shown_order. clear.
    induction l as [|n ns IH]; [done|]. rewrite !filter_cons.
    destruct (decide (n ∈ s_recs s)) as [Hn|Hn]; repeat case_decide; try (exfalso; tauto); cbn; rewrite <-?Permutation_middle; by rewrite IH. }
  exists h, h', f, o.
  assert (Hkn : key ∈ side_fields (view_schema v) i → key ∈ names_of (v_schema v)) by apply Hsel.
  assert (Hother : (∀ e, side_dataset map_fn keep_fn E blocks v i e
        = let! ts := view_dataset map_fn keep_fn E blocks (Some e) None (ji_ref i) None v None in
          match ji_fields i with None => ret ts | Some l => lift (rmapM (tsel l) ts) end) →
     ∃ L, y_handles σ !! hid = Some h ∧ (∃ b, reload (h, y_world σ) = ((h', y_world σ), Ok b))
    ∧ f ∈ s_fields s ∧ f_name f = key
    ∧ side_at (side_fields (view_schema v) i) (key_range_in (v_schema v) key) (side_dataset map_fn keep_fn E blocks v i) key
        (h', y_world σ) o L
    ∧ Forall2 alike L (asked map_fn keep_fn s v i rows)
    ∧ (∀ r, r ∈ L → r.*1 ≡ₚ side_fields (view_schema v) i)
    ∧ (∀ r, r ∈ L → row_look r key ≠ Some SNaN)
    ∧ (all_keyed key (layout σ hid) →
        ∃ q, o = Ok q
        ∧ ∀ g, q = Some g → kind_ok (f_ty (phys_field s f)) (rg_min g) = true ∧ kind_ok (f_ty (phys_field s f)) (rg_max g) = true
                        ∧ is_nan (rg_min g) = false ∧ is_nan (rg_max g) = false)).
  { intros Hds. unfold asked. fold all. unfold side_fields in Hsel. cbn [view_schema s_fields] in Hsel.
    destruct (ji_fields i) as [l|] eqn:Hji; cbn [default from_option id] in *.
    - specialize (Hkf l eq_refl).
      assert (HL : ∀ x, x ∈ columns l <$> all → ∃ r, r ∈ rows ∧ row_look x key = row_look r key).
      { intros x (y&->&(r&Hin&Hy)%Hall)%elem_of_list_fmap. exists r. split; [done|]. rewrite <-Hy. by apply look_columns. }
      destruct (Hbounds _ HL) as [Hb1 Hb2].
      exists (columns l <$> all). split_and!; [done|eauto|done|done| | |intros r (x&->&_)%elem_of_list_fmap; rewrite columns_names; unfold side_fields; by rewrite Hji|done|done].
      + constructor; [done| |done|].
        * intros g. destruct (Hview g) as (ts&Hts&Hc). destruct (tables_selected l ts) as (ts'&Hts'&Hc').
          { rewrite Hc. intros r n [_ Hin]%elem_of_list_filter Hnl. rewrite (Hcols r Hin). by apply Hsel. }
          exists ts'. split; [|by rewrite Hc', Hc, Hmatch]. rewrite Hds, (bind_run _ _ _ _ _ Hts). unfold lift. by rewrite Hts'.
        * intros r n (x&->&_)%elem_of_list_fmap Hnl. rewrite columns_names. unfold side_fields in Hnl. by rewrite Hji in Hnl.
      + apply Forall_Forall2_diag, Forall_true. by intros x n.
    - destruct (Hbounds all Hall) as [Hb1 Hb2].
      exists all. split_and!; [done|eauto|done|done| | |intros r Hin; rewrite (Hcols r Hin); unfold side_fields; by rewrite Hji|done|done].
      + constructor; [done| |done|].
        * intros g. destruct (Hview g) as (ts&Hts&Hc). exists ts. split; [|done]. by rewrite Hds, (bind_run _ _ _ _ _ Hts).
        * intros r n Hin Hnl. rewrite (Hcols r Hin). unfold side_fields in Hnl. by rewrite Hji in Hnl.
      + apply Forall_Forall2_diag, Forall_true. by intros x n. }
  destruct v as [loc br s'|u v l'|u v l'].
  { cbn in Hover. subst s'. unfold asked, side_fields in *. cbn [in_read_order view_rows view_schema v_schema s_fields] in *.
    destruct (ji_fields i) as [l|] eqn:Hji; cbn [default from_option id] in *.
    - assert (Hl : ∀ n, n ∈ read_names s (Some l) → n ∈ s_names s) by done.
      assert (Hkp : key ∈ pushed_fields s (ji_ref i) l) by (rewrite Hperm; by apply Hkf).
      assert (HL : ∀ x, x ∈ columns (pushed_fields s (ji_ref i) l) <$> rows → ∃ r, r ∈ rows ∧ row_look x key = row_look r key).
      { intros x (r&->&Hin)%elem_of_list_fmap. exists r. split; [done|]. by apply look_columns. }
      destruct (Hbounds _ HL) as [Hb1 Hb2].
      exists (columns (pushed_fields s (ji_ref i) l) <$> rows). split_and!; [done|eauto|done|done| | |intros r (x&->&_)%elem_of_list_fmap; by rewrite columns_names, Hperm|done|done].
      + constructor; [done| |done|].
        * intros g. destruct (dataset_at σ hid s h h' b0 E E' blocks (Some (range_filter key g)) (Some l) (ji_ref i) b
             (columns (pushed_fields s (ji_ref i) l) <$> filter (in_range key g) rows)) as (ts&Hts&Hc); try done.
          { exact (read_pushed σ hid s E' E' _ None (ji_ref i) b b (Some l) _ Hr Hs Hl (Hfilt g)). }
          exists ts. split; [unfold side_dataset; by rewrite Hji|]. by rewrite Hc, Hmatch.
        * intros r n (x&->&_)%elem_of_list_fmap Hnl. rewrite columns_names, Hperm. exact Hnl.
      + apply Forall2_fmap, Forall_Forall2_diag, Forall_true. intros x. by apply alike_columns.
    - destruct (Hbounds rows) as [Hb1 Hb2]; [eauto|].
      exists rows. split_and!; [done|eauto|done|done| | |intros r Hin; by rewrite (Hcols r Hin)|done|done].
      + constructor; [done| |done|].
        * intros g. destruct (Hview g) as (ts&Hts&Hc). exists ts. split; [|exact Hc]. unfold side_dataset. by rewrite Hji.
        * intros r n Hin Hnl. by rewrite (Hcols r Hin).
      + apply Forall_Forall2_diag, Forall_true. by intros x n. }
  1, 2: apply Hother; done.
Qed.

Lemma not_reloaded σ hid h h' b :
  reachable σ → y_handles σ !! hid = Some h → reload (h, y_world σ) = ((h', y_world σ), Ok b) →
  result σ hid reload = Some (Ok false) → h' = h.
Proof.
  intros Hr Hh Hre Hf. rewrite (result_eq _ _ _ _ Hh) in Hf. destruct (reachable_seen _ _ _ Hr Hh) as (s&p&m&[_ _ _ Hst _ _]).
  rewrite (reload_run p m h _ Hst) in *. cbn in Hf. injection Hf as Hf. apply bool_decide_eq_false in Hf.
  injection Hre as <- _. unfold sync. case_decide; [done|]. tauto.
Qed.
Lemma sources_run src hl wl hr wr hl' hr' bl br :
  reload (hl, wl) = ((hl', wl), Ok bl) → reload (hr, wr) = ((hr', wr), Ok br) →
  (src = Shared false → hl' = hl) →
  reload_sources src ((hl, wl), (hr, wr)) = (((hl', wl), (hr', wr)), Ok tt).
Proof.
  intros Hl Hr Hb. unfold reload_sources. destruct src as [|[|]].
  1,2: rewrite (bind_run _ _ _ _ _ (on_left_run _ _ _ _ _ Hl)); by rewrite (bind_run _ _ _ _ _ (on_right_run _ _ _ _ _ Hr)).
  rewrite (Hb eq_refl).
  rewrite (bind_run (ret true) _ _ _ _ eq_refl). by rewrite (bind_run _ _ _ _ _ (on_right_run _ _ _ _ _ Hr)).
Qed.
Lemma join_read_run E blocks src none_ok part key (vl vr : view F) l r flt batch hl wl hr wr hl' hr' bl br :
  reload (hl, wl) = ((hl', wl), Ok bl) → reload (hr, wr) = ((hr', wr), Ok br) →
  (src = Shared false → hl' = hl) →
  run_join_read map_fn keep_fn E blocks src none_ok part key vl vr l r flt None None false batch ((hl, wl), (hr, wr))
  = join_views map_fn keep_fn E blocks none_ok part key vl vr l r ((hl', wl), (hr', wr)).
Proof.
  intros Hl Hr Hb. unfold run_join_read. rewrite (bind_run _ _ _ _ _ (sources_run src _ _ _ _ _ _ _ _ Hl Hr Hb)).
  unfold join_version. by rewrite (bind_run (ret tt) _ _ _ _ eq_refl).
Qed.

Lemma views_exact σl hl sl σr hr sr (vl vr : view F) keys lf rf lref rref key l r E E' blocks src part none_ok batch b b' rows_l rows_r out :
  reachable σl → reachable σr → schema_at σl hl = Some sl → schema_at σr hr = Some sr →
  make_join (view_schema vl) (view_schema vr) keys lf rf lref rref = Ok (key, l, r) →
  own_columns (view_schema vl) l → own_columns (view_schema vr) r →
  result σl hl (run_read_all E' None None None (ji_ref l) b) = Some (Ok rows_l) →
  result σr hr (run_read_all E' None None None (ji_ref r) b') = Some (Ok rows_r) →
  good_side map_fn keep_fn sl vl (ji_ref l) key rows_l → good_side map_fn keep_fn sr vr (ji_ref r) key rows_r →
  (src = Shared false → result σl hl reload = Some (Ok false)) →
  separates part (common key (asked map_fn keep_fn sl vl l rows_l) (asked map_fn keep_fn sr vr r rows_r)) →
  result2 σl hl σr hr (run_join_read map_fn keep_fn E blocks src none_ok part key vl vr l r None None None false batch) = Some (Ok out) →
  out ≡ₚ inner_join key (output_fields key (view_schema vl) (view_schema vr) l r)
           (asked map_fn keep_fn sl vl l rows_l) (asked map_fn keep_fn sr vr r rows_r).
Proof.
  intros Hrl Hrr Hsl Hsr (Hkl&Hkr&Hil&Hir)%make_join_ok Hfl Hfr HL HR Hgl Hgr Hsrc Hsep Hout.
  destruct (view_side σl hl sl E E' blocks key vl l b rows_l) as (h1&h1'&f1&o1&L&Hh1&[b1 Hre1]&_&_&Hs1&Ha1&_&Hn1&_); try done.
  destruct (view_side σr hr sr E E' blocks key vr r b' rows_r) as (h2&h2'&f2&o2&R&Hh2&[b2 Hre2]&_&_&Hs2&Ha2&_&Hn2&_); try done.
  unfold result2 in Hout. rewrite Hh1, Hh2 in Hout.
  erewrite join_read_run in Hout; [|exact Hre1|exact Hre2|]; cycle 1.
  { intros ->. by eapply not_reloaded; [..|apply Hsrc]. }
  unfold join_views in Hout. rewrite (join_sides_run _ _ _ _ _ _ _ _ _ _ _ _ _ _ _ _ _ _ _ Hs1 Hs2) in Hout. cbn [snd] in Hout. injection Hout as Hout.
  rewrite <-(join_alike _ _ _ _ _ _ Ha1 Ha2). rewrite <-(common_alike _ _ _ _ _ Ha1 Ha2) in Hsep.
  exact (joined_ok _ _ _ _ _ _ _ _ _ _ _ _ _ _ _ _ _ _ _ _ Hs1 Hs2 Hn1 Hsep Hout).
Qed.
Lemma views_succeed σl hl sl σr hr sr (vl vr : view F) keys lf rf lref rref key l r E E' blocks src part none_ok batch b b' rows_l rows_r :
  reachable σl → reachable σr → schema_at σl hl = Some sl → schema_at σr hr = Some sr →
  make_join (view_schema vl) (view_schema vr) keys lf rf lref rref = Ok (key, l, r) →
  own_columns (view_schema vl) l → own_columns (view_schema vr) r →
  result σl hl (run_read_all E' None None None (ji_ref l) b) = Some (Ok rows_l) →
  result σr hr (run_read_all E' None None None (ji_ref r) b') = Some (Ok rows_r) →
  good_side map_fn keep_fn sl vl (ji_ref l) key rows_l → good_side map_fn keep_fn sr vr (ji_ref r) key rows_r →
  (src = Shared false → result σl hl reload = Some (Ok false)) →
  join_accepts key (view_schema vl) (view_schema vr) l r = Ok tt → key_type sl key = key_type sr key →
  all_keyed key (layout σl hl) → all_keyed key (layout σr hr) →
  none_ok = true ∨ meets part (common key (asked map_fn keep_fn sl vl l rows_l) (asked map_fn keep_fn sr vr r rows_r)) →
  ∃ out, result2 σl hl σr hr (run_join_read map_fn keep_fn E blocks src none_ok part key vl vr l r None None None false batch) = Some (Ok out).
Proof.
  intros Hrl Hrr Hsl Hsr (Hkl&Hkr&Hil&Hir)%make_join_ok Hfl Hfr HL HR Hgl Hgr Hsrc Hacc Hty Hyl Hyr Hmeet.
  destruct (view_side σl hl sl E E' blocks key vl l b rows_l) as (h1&h1'&f1&o1&L&Hh1&[b1 Hre1]&Hf1&Hfn1&Hs1&Ha1&_&Hn1&Hq1); try done.
  destruct (view_side σr hr sr E E' blocks key vr r b' rows_r) as (h2&h2'&f2&o2&R&Hh2&[b2 Hre2]&Hf2&Hfn2&Hs2&Ha2&_&Hn2&Hq2); try done.
  unfold result2. rewrite Hh1, Hh2.
  erewrite join_read_run; [|exact Hre1|exact Hre2|]; cycle 1.
  { intros ->. by eapply not_reloaded; [..|apply Hsrc]. }
  unfold join_views. rewrite (join_sides_run _ _ _ _ _ _ _ _ _ _ _ _ _ _ _ _ _ _ _ Hs1 Hs2). cbn [snd].
  destruct (Hq1 Hyl) as (q1&->&Hg1), (Hq2 Hyr) as (q2&->&Hg2).
  rewrite <-(common_alike _ _ _ _ _ Ha1 Ha2) in Hmeet.
  assert (Hw1 : wf_schema sl) by (destruct (reachable_seen _ _ _ Hrl Hh1) as (s'&?&?&Hse); pose proof (sn_schema _ _ _ _ _ _ Hse);
    assert (s' = sl) as <- by congruence; by eapply seen_schema).
  assert (Hw2 : wf_schema sr) by (destruct (reachable_seen _ _ _ Hrr Hh2) as (s'&?&?&Hse); pose proof (sn_schema _ _ _ _ _ _ Hse);
    assert (s' = sr) as <- by congruence; by eapply seen_schema).
  rewrite (key_type_of sl key f1), (key_type_of sr key f2) in Hty by done. injection Hty as Hty.
  destruct (joined_total none_ok part key (view_schema vl) (view_schema vr) l r _ _ _ _ _ _
    (f_ty (phys_field sl f1)) (f_ty (phys_field sr f2)) q1 q2 L R Hs1 Hs2) as [out ->]; try done; [..|eauto].
  - intros x [Hx|Hx]; [by apply Hn1|by apply Hn2].
  - unfold side_fields. destruct (ji_fields l) as [ns|] eqn:Hns; cbn; [by apply Hil|].
    pose proof (gs_over _ _ _ _ _ _ _ Hgl) as Ho. pose proof (gs_id _ _ _ _ _ _ _ Hgl) as Hi.
    rewrite (field_ids_lookup (s_fields sl) key) with (f := f1) in Hi; [|apply Hw1|done..].
    apply field_ids_in in Hi as (g&Hg&Hgn&_). apply elem_of_list_fmap. eauto.
Qed.
Lemma sources_reload σl hl σr hr h1 h2 src :
  reachable σl → reachable σr → y_handles σl !! hl = Some h1 → y_handles σr !! hr = Some h2 →
  ∃ h1' h2', reload_sources src ((h1, y_world σl), (h2, y_world σr)) = (((h1', y_world σl), (h2', y_world σr)), Ok tt).
Proof.
  intros Hr1 Hr2 Hh1 Hh2. destruct (reachable_seen _ _ _ Hr1 Hh1) as (?&p1&m1&[_ _ _ Hst1 _ _]).
  destruct (reachable_seen _ _ _ Hr2 Hh2) as (?&p2&m2&[_ _ _ Hst2 _ _]).
  pose proof (reload_run p1 m1 h1 _ Hst1) as Hl. pose proof (reload_run p2 m2 h2 _ Hst2) as Hr.
  unfold reload_sources. destruct src as [|[|]].
  1,2: rewrite (bind_run _ _ _ _ _ (on_left_run _ _ _ _ _ Hl)); rewrite (bind_run _ _ _ _ _ (on_right_run _ _ _ _ _ Hr)); by eauto.
  rewrite (bind_run (ret true) _ _ _ _ eq_refl). rewrite (bind_run _ _ _ _ _ (on_right_run _ _ _ _ _ Hr)). by eauto.
Qed.
Lemma options_rejected σl hl sl σr hr sr (vl vr : view F) key l r E blocks src part none_ok flt fields ver ref batch :
  reachable σl → reachable σr → schema_at σl hl = Some sl → schema_at σr hr = Some sr →
  is_Some fields ∨ ref = true ∨ is_Some ver ∧ src = Apart → (ver = None ∨ src = Apart) →
  result2 σl hl σr hr (run_join_read map_fn keep_fn E blocks src none_ok part key vl vr l r flt fields ver ref batch)
  = Some (Err (EUser UInput)).
Proof.
  intros Hr1 Hr2 Hs1 Hs2 Ho Hv. unfold schema_at in Hs1, Hs2.
  destruct (y_handles σl !! hl) as [h1|] eqn:Hh1; [|done]. destruct (y_handles σr !! hr) as [h2|] eqn:Hh2; [|done].
  destruct (sources_reload σl hl σr hr h1 h2 src Hr1 Hr2 Hh1 Hh2) as (h1'&h2'&Hre).
  unfold result2. rewrite Hh1, Hh2. unfold run_join_read. rewrite (bind_run _ _ _ _ _ Hre).
  destruct ver as [x|].
  - destruct Hv as [?| ->]; [done|]. done.
  - unfold join_version. rewrite (bind_run (ret tt) _ _ _ _ eq_refl).
    destruct Ho as [[f ->]|[->|[[? ?] _]]]; [done| |done]. by rewrite orb_true_r.
Qed.
Lemma options_raise σl hl sl σr hr sr (vl vr : view F) key l r E blocks src part none_ok flt fields ver ref batch :
  reachable σl → reachable σr → schema_at σl hl = Some sl → schema_at σr hr = Some sr →
  is_Some fields ∨ ref = true ∨ is_Some ver ∧ src = Apart →
  ∃ e, result2 σl hl σr hr (run_join_read map_fn keep_fn E blocks src none_ok part key vl vr l r flt fields ver ref batch)
  = Some (Err e).
Proof.
  intros Hr1 Hr2 Hs1 Hs2 Ho.
  assert (Hv : (ver = None ∨ src = Apart) ∨ ∃ x b, ver = Some x ∧ src = Shared b) by (destruct ver, src; eauto).
  destruct Hv as [Hv|(x&b&->&->)]; [eexists; by eapply options_rejected|].
  unfold schema_at in Hs1, Hs2.
  destruct (y_handles σl !! hl) as [h1|] eqn:Hh1; [|done]. destruct (y_handles σr !! hr) as [h2|] eqn:Hh2; [|done].
  destruct (sources_reload σl hl σr hr h1 h2 (Shared b) Hr1 Hr2 Hh1 Hh2) as (h1'&h2'&Hre).
  unfold result2. rewrite Hh1, Hh2. unfold run_join_read. rewrite (bind_run _ _ _ _ _ Hre). cbn [join_version].
  assert (Hb : bool_decide (is_Some fields) || ref = true).
  { destruct Ho as [[f ->]|[->|[_ ?]]]; [done|by rewrite orb_true_r|done]. }
  rewrite Hb. unfold bind, lift, raise, on_right, ret, get_handle, gets. cbn.
  destruct (version_to_snapshot_id h2' x); cbn; eauto.
Qed.
Lemma options_ignored σl hl σr hr (vl vr : view F) key l r E blocks src part none_ok flt flt' batch batch' :
  result2 σl hl σr hr (run_join_read map_fn keep_fn E blocks src none_ok part key vl vr l r flt None None false batch)
  = result2 σl hl σr hr (run_join_read map_fn keep_fn E blocks src none_ok part key vl vr l r flt' None None false batch').
Proof. done. Qed.
End view.
