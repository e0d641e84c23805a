(** Joins of two datasets. *)
From Verif.Model Require Import System RayOps Join.
From Verif.Spec Require Import Logical Api Layout Pruning Joins.
From Verif.Proofs Require Import Lib Order FalsifySound World Resolve AppendSpec SchemaFacts ReadSpec Stats Bounds Wf OpSpec Inv
  FileSet Ops Bodies Txn SysInv ReadRun Effects Observe View Prune Calls Reads Total Diff Shards RayRead.

(** * Joining tables *)
Lemma matched key x y : keys_match key x y = true ↔ same_key key x y.
Proof.
  unfold keys_match, same_key. destruct (row_look x key) as [a|], (row_look y key) as [b|].
  - rewrite bool_decide_eq_true. split; [intros ->; eauto|]. intros (v&[= ->]&[= ->]). done.
  - split; [done|]. by intros (v&_&?).
  - split; [done|]. by intros (v&?&_).
  - split; [done|]. by intros (v&?&_).
Qed.
Lemma join_tables_ok key sl sr l r L R o :
  join_tables key sl sr l r L R = Ok o → default [] o = inner_join key (output_fields key sl sr l r) L R.
Proof.
  unfold join_tables, inner_join. destruct L as [|x L]; [by intros [= <-]|]. destruct R as [|y R].
  { intros [= <-]. cbn [default from_option id]. generalize (x :: L). intros l0. induction l0 as [|z l0 IH]; [done|]. exact IH. }
  generalize (x :: L) as L0, (y :: R) as R0. intros L0 R0.
  destruct (join_accepts _ _ _ _ _) as [[]|]; [|done]. cbn [rbind].
  intros (t&Ht&->)%rmap_ok. cbn [default from_option id]. apply tsel_columns in Ht as ->.
  induction L0 as [|z L0 IH]; [done|]. rewrite !bind_cons, fmap_app, IH. f_equal. rewrite <-list_fmap_compose.
  replace (filter (fun y0 => keys_match key z y0 = true) R0) with (filter (same_key key z) R0); [done|].
  apply filter_ext_in. intros y0 _. by rewrite matched.
Qed.
(** One range of the join. *)
Definition in_range (key : string) (g : range) (r : row) : Prop := matches (range_filter key g) r = true.
Global Instance in_range_dec key g r : Decision (in_range key g r).
Proof. unfold in_range. apply _. Defined.
Lemma in_range_iff key g r : in_range key g r ↔ ∃ v, row_look r key = Some v ∧ within v g.
Proof.
  unfold in_range, matches, range_filter, within. cbn [eval]. unfold is_true.
  destruct (row_look r key) as [v|]; cbn [eval_cmp].
  - cbn [as_bool]. destruct (cmp_holds OpGe v (rg_min g)) eqn:H1, (cmp_holds (if rg_incl g then OpLe else OpLt) v (rg_max g)) eqn:H2; cbn;
      (split; [intros; try done; eauto|intros (v'&[= <-]&?&?); try done; congruence]).
  - cbn. split; [done|]. by intros (v&?&_).
Qed.

(** Pairs of rows with the same key. *)
Definition pairs (key : string) (L R : list row) : list (row * row) :=
  L ≫= fun x => pair x <$> filter (same_key key x) R.
Lemma inner_join_pairs key out L R : inner_join key out L R = (fun p => columns out (p.1 ++ p.2)) <$> pairs key L R.
Proof.
  unfold inner_join, pairs. induction L as [|x L IH]; [done|]. rewrite !bind_cons, fmap_app, IH. f_equal.
  by rewrite <-list_fmap_compose.
Qed.
Lemma pairs_in key L R x y : (x, y) ∈ pairs key L R ↔ x ∈ L ∧ y ∈ R ∧ same_key key x y.
Proof.
  unfold pairs. rewrite elem_of_list_bind. split.
  - intros (x'&(y'&[= -> ->]&[??]%elem_of_list_filter)%elem_of_list_fmap&?). done.
  - intros (?&?&?). exists x. split; [|done]. apply elem_of_list_fmap. exists y. split; [done|]. by apply elem_of_list_filter.
Qed.
Lemma same_key_range key g x y : same_key key x y → in_range key g x ↔ in_range key g y.
Proof. intros (v&Hx&Hy). rewrite !in_range_iff, Hx, Hy. done. Qed.
Lemma filter_filter_and {A} (P Q : A → Prop) `{∀ x, Decision (P x), ∀ x, Decision (Q x)} (l : list A) :
  filter P (filter Q l) = filter (fun x => P x ∧ Q x) l.
Proof.
  induction l as [|x l IH]; [done|]. rewrite (filter_cons (fun x => P x ∧ Q x)), (filter_cons Q).
  case_decide as HQ; [|rewrite decide_False by tauto; exact IH].
  rewrite filter_cons, IH. case_decide; [rewrite decide_True by done|rewrite decide_False by tauto]; done.
Qed.
Lemma pairs_range key g L R :
  pairs key (filter (in_range key g) L) (filter (in_range key g) R) = filter (fun p => in_range key g p.1) (pairs key L R).
Proof.
  induction L as [|x L IH]; [done|]. unfold pairs in *. rewrite bind_cons, filter_app, filter_cons.
  assert (Hf : filter (fun p => in_range key g p.1) (pair x <$> filter (same_key key x) R)
    = if decide (in_range key g x) then pair x <$> filter (same_key key x) R else []).
  { generalize (filter (same_key key x) R). intros l. induction l as [|y l IHl]; [by case_decide|].
    cbn [fmap list_fmap]. rewrite filter_cons. cbn [fst]. rewrite IHl. by case_decide. }
  rewrite Hf. case_decide as Hx; [|exact IH]. rewrite bind_cons, IH. f_equal. f_equal.
  rewrite filter_filter_and. apply filter_ext_in. intros y _. split; [tauto|]. intros Hk. split; [done|].
  by apply (same_key_range key g x y Hk).
Qed.
Lemma bind_filter_once {A B} (Q : B → A → Prop) `{∀ g x, Decision (Q g x)} (gs : list B) (l : list A) :
  (∀ x, x ∈ l → length (filter (fun g => Q g x) gs) = 1) → gs ≫= (fun g => filter (Q g) l) ≡ₚ l.
Proof.
  induction l as [|x l IH]; intros Hone.
  { clear. induction gs as [|g gs IH]; [done|]. exact IH. }
  transitivity (((fun _ => x) <$> filter (fun g => Q g x) gs) ++ (gs ≫= (fun g => filter (Q g) l))).
  - clear. induction gs as [|g gs IH]; [done|]. rewrite !bind_cons, (filter_cons (Q g)), (filter_cons (fun g => Q g x)).
    case_decide as HQ.
    + cbn [fmap list_fmap app]. constructor. etransitivity; [apply Permutation_app_head, IH|]. solve_Permutation.
    + etransitivity; [apply Permutation_app_head, IH|]. solve_Permutation.
  - rewrite IH by (intros; apply Hone; by right). specialize (Hone x ltac:(left)).
    destruct (filter (fun g => Q g x) gs) as [|g [|g' gs']]; try done.
Qed.
Lemma join_split key out gs L R :
  (∀ v, v ∈ common key L R → length (filter (within v) gs) = 1) →
  gs ≫= (fun g => inner_join key out (filter (in_range key g) L) (filter (in_range key g) R)) ≡ₚ inner_join key out L R.
Proof.
  intros Hone. rewrite inner_join_pairs.
  transitivity ((fun p => columns out (p.1 ++ p.2)) <$> (gs ≫= (fun g => filter (fun p => in_range key g p.1) (pairs key L R)))).
  - clear Hone. induction gs as [|g gs IH]; [done|]. rewrite !bind_cons, fmap_app, IH. by rewrite inner_join_pairs, pairs_range.
  - apply fmap_Permutation. apply (bind_filter_once (fun g p => in_range key g p.1)). intros [x y] (Hx&Hy&v&Hkx&Hky)%pairs_in.
    cbn [fst]. rewrite <-(Hone v).
    + f_equal. apply filter_ext_in. intros g _. rewrite in_range_iff, Hkx. split; [by intros (?&[= <-]&?)|eauto].
    + apply elem_of_list_filter. split; apply elem_of_list_omap; eauto.
Qed.

(** * Reading by a condition on one key *)
Definition key_only (key : string) (e : filter_expr) : Prop :=
  filter_fields e ⊆ [key] ∧ ∀ look look' : string → option scalar, look key = look' key → eval look e = eval look' e.
Lemma range_key_only key g : key_only key (range_filter key g).
Proof.
  split; [intros n Hn; cbn in Hn; set_solver|]. intros look look' Heq. cbn [range_filter eval]. by rewrite Heq.
Qed.
Lemma range_buildable s key g : wf_schema s → key ∈ s_pks s → plain_before s key → buildable s (range_filter key g).
Proof.
  intros Hs Hk Hp. split_and!; [|cbn; set_solver|done]. intros n Hn.
  assert (n = key) as -> by (apply (proj1 (range_key_only key g)) in Hn; set_solver). split; [by apply Hs|done].
Qed.
Lemma key_matches key e r r' : key_only key e → row_look r key = row_look r' key → matches e r = matches e r'.
Proof. intros [_ He] Hl. unfold matches. by rewrite (He _ _ Hl). Qed.

Lemma key_prune s fs m key e mf r :
  wf_schema s → wf_mrow s fs m → key ∈ s_pks s → plain_before s key → key_only key e → prunable (s_pks s) e = true →
  build_manifest_filter (fenv_of s) e = Ok mf →
  r ∈ file_rows fs (mr_path m) → row_look r key ≠ Some SNaN → matches e r = true → mrow_matches mf m = true.
Proof.
  intros Hs (cols&gs&E&Hf&_&Hc&Hm&_) Hk Hpl [Hff Hko] Hpr Hmf Hr Hnan He.
  unfold file_rows in Hr. rewrite Hf in Hr.
  set (look := fun n => if decide (n = key) then row_look r key else None).
  eapply (manifest_filter_keeps (fenv_of s) m look e mf); try done.
  - intros n i v Hn Hi Hv. unfold look in Hv. case_decide as Hnk; [subst n|done]. simpl in *.
    destruct (name_field s key) as (f&Hfi&Hname); [by apply Hs|].
    assert (i = field_id f) as ->.
    { assert (Hpf : phys_field s f ∈ phys_schema s) by (apply elem_of_list_fmap; eauto).
      rewrite (field_ids_lookup (phys_schema s) key) with (f := phys_field s f) in Hi.
      - rewrite phys_field_id in Hi. congruence.
      - rewrite phys_names. apply Hs.
      - done.
      - by rewrite phys_field_name. }
    apply elem_of_list_lookup in Hfi as [k Hki].
    pose proof (manifest_row_bounds E s _ gs m key f k Hs Hm Hc Hpl Hk Hki Hname) as Hb.
    assert (Hvn : is_nan v = false) by (destruct v; try done; congruence).
    destruct (Hb v) as (a&b&?&?&?&?&?&?); [apply elem_of_list_omap; eauto|done|]. by exists a, b.
  - apply aligned_plain; [done|]. intros n Hn. apply Hff in Hn. by apply elem_of_list_singleton in Hn as ->.
  - unfold matches in He. rewrite <-He. f_equal. apply Hko. unfold look. by rewrite decide_True.
Qed.
Lemma key_filter_rows s fs sn key e mf :
  wf_schema s → wf_snap s fs sn → key ∈ s_pks s → plain_before s key → key_only key e → prunable (s_pks s) e = true →
  build_manifest_filter (fenv_of s) e = Ok mf →
  (∀ r, r ∈ phys_rows fs sn → row_look r key ≠ Some SNaN) →
  filter_rows (Some e) (picked_rows fs mf sn) = filter (fun r => matches e r = true) (phys_rows fs sn).
Proof.
  intros Hs Hw Hk Hpl Hko Hpr Hmf Hnan. cbn. unfold picked_rows, phys_rows in *.
  pose proof (wf_snap_mrows _ _ _ Hw) as Hwm.
  assert (Hall : ∀ m r, m ∈ snap_mrows fs sn → r ∈ file_rows fs (mr_path m) → matches e r = true → mrow_matches mf m = true).
  { intros m r Hm Hr. eapply Forall_forall in Hwm; [|exact Hm]. eapply key_prune; try done.
    apply Hnan. rewrite man_rows_bind. apply elem_of_list_bind. eauto. }
  clear -Hall. induction (snap_mrows fs sn) as [|m l IH]; [done|].
  rewrite filter_cons, man_rows_cons. rewrite filter_app, <-IH by (intros; eapply Hall; [by right|done..]).
  case_decide as Hmt.
  - by rewrite man_rows_cons, filter_app.
  - replace (filter (fun r => matches e r = true) (file_rows fs (mr_path m))) with (@nil row); [done|].
    symmetry. assert (Hn : ∀ r, r ∈ file_rows fs (mr_path m) → matches e r ≠ true).
    { intros r Hr He. apply Hmt. eapply Hall; [by left|done..]. }
    clear -Hn. induction (file_rows fs (mr_path m)) as [|r rs IH]; [done|].
    rewrite filter_cons, decide_False by (apply Hn; by left). apply IH. intros. apply Hn. by right.
Qed.
Lemma phys_names_of s fs sn r : wf_snap s fs sn → r ∈ phys_rows fs sn → r.*1 = s_names s.
Proof.
  intros Hw Hr. unfold phys_rows in Hr. rewrite man_rows_bind in Hr. apply elem_of_list_bind in Hr as (m&Hr&Hm).
  pose proof (wf_snap_mrows _ _ _ Hw) as Hwm. eapply Forall_forall in Hwm; [|exact Hm]. by eapply file_rows_conform.
Qed.
Lemma rsel_row_look A r r1 n : rsel A r = Ok r1 → n ∈ A → row_look r1 n = row_look r n.
Proof. intros H Hn. unfold row_look. by rewrite (rsel_look _ _ _ _ H Hn). Qed.

Lemma filter_image (R : row → row → Prop) e l k k' :
  (∀ x y, R x y → matches e x = matches e y) → (∀ x y z, R x y → R x z → y = z) →
  Forall2 R l k → Forall2 R (filter (fun r => matches e r = true) l) k' → k' = filter (fun r => matches e r = true) k.
Proof.
  intros Hm Hf Hl. revert k'. induction Hl as [|x y l k Hxy Hl IH]; intros k' Hk'; [by inversion Hk'|].
  rewrite filter_cons in Hk' |- *. pose proof (Hm x y Hxy) as Hxm.
  destruct (decide (matches e x = true)) as [Hx|Hx].
  - rewrite decide_True by congruence. inversion Hk'; subst. f_equal; [by eapply Hf|by apply IH].
  - rewrite decide_False by congruence. by apply IH.
Qed.
(** The rows one side reads, with and without the condition. *)
Lemma key_read E blocks key e s h w p m fields ref ts :
  winv s w → wf_handle s w h → stored (w_fs w) p m → wf_meta s (w_fs w) m →
  (∀ n, n ∈ read_names s fields → n ∈ s_names s) → key ∈ read_names s fields →
  key ∈ s_pks s → plain_before s key → key_only key e → prunable (s_pks s) e = true → buildable s e →
  run_ray_read E blocks None fields None ref None (h, w) = ((sync p m h, w), Ok ts) →
  (∀ r, r ∈ concat ts → row_look r key ≠ Some SNaN) →
  ∃ ts', run_ray_read E blocks (Some e) fields None ref None (h, w) = ((sync p m h, w), Ok ts')
    ∧ concat ts' = filter (fun r => matches e r = true) (concat ts).
Proof.
  intros Hi Hh Hst Hm Hsel Hkf Hk Hpl Hko Hpr Hbu Hrun Hnan.
  pose proof (wi_schema _ _ Hi) as Hs. assert (Hkr : key ∉ s_recs s) by by apply Hs.
  destruct (ray_read_run E blocks None fields None ref None s h w p m Hi Hh Hst Hm) as (r&Hr&Hc).
  destruct (ray_read_run E blocks (Some e) fields None ref None s h w p m Hi Hh Hst Hm) as (r'&Hr'&Hc').
  rewrite Hrun in Hr. injection Hr as <-. rewrite Hr'.
  destruct (snap_of m (h_branch h) None) as [sn|] eqn:Hsn; [|done].
  assert (Hw : wf_snap s (w_fs w) sn) by by eapply snap_of_wf.
  destruct (build_total s e Hs Hbu) as [mf Hmf]. cbn [man_filter] in Hc, Hc'. rewrite Hmf in Hc'.
  destruct (Hc Hsel) as (ts0&lrows&[= <-]&Hl&Ht&_). cbn [filter_rows] in Hl, Ht. rewrite picked_rows_none in Hl, Ht.
  assert (Hphys : ∀ x, x ∈ phys_rows (w_fs w) sn → ∃ y, y ∈ concat ts ∧ row_look y key = row_look x key).
  { intros x Hx. apply elem_of_list_lookup in Hx as [i Hx]. destruct ref.
    - apply tsel_ok in Ht. destruct (Forall2_lookup_l _ _ _ _ _ Ht Hx) as (y&Hy&Hxy). exists y.
      split; [by eapply elem_of_list_lookup_2|]. by eapply rsel_row_look.
    - apply mapM_Some in Hl. destruct (Forall2_lookup_l _ _ _ _ _ Hl Hx) as (z&Hz&Hxz).
      apply tsel_ok in Ht. destruct (Forall2_lookup_l _ _ _ _ _ Ht Hz) as (y&Hy&Hzy). exists y.
      split; [by eapply elem_of_list_lookup_2|]. rewrite (rsel_row_look _ _ _ _ Hzy); [|by apply elem_of_read_order].
      by eapply row_look_resolve. }
  assert (Hrows : filter_rows (Some e) (picked_rows (w_fs w) mf sn) = filter (fun r => matches e r = true) (phys_rows (w_fs w) sn)).
  { eapply key_filter_rows; try done. intros x Hx. destruct (Hphys x Hx) as (y&Hy&<-). by apply Hnan. }
  destruct (Hc' Hsel) as (ts'&lrows'&->&Hl'&Ht'&_). exists ts'. split; [done|]. rewrite Hrows in Hl', Ht'. destruct ref.
  - apply tsel_ok in Ht, Ht'. eapply filter_image; [..|exact Ht|exact Ht'].
    + intros x y Hxy. apply (key_matches key); [done|]. symmetry. by apply (rsel_row_look _ _ _ _ Hxy).
    + intros. congruence.
  - apply mapM_Some in Hl, Hl'. apply tsel_ok in Ht, Ht'.
    assert (lrows' = filter (fun r => matches e r = true) lrows) as ->.
    { eapply filter_image; [..|exact Hl|exact Hl'].
      + intros x y Hxy. apply (key_matches key); [done|]. symmetry. exact (row_look_resolve _ _ _ _ _ Hxy Hkr).
      + intros. congruence. }
    eapply filter_image; [..|exact Ht|exact Ht'].
    + intros x y Hxy. apply (key_matches key); [done|]. symmetry. apply (rsel_row_look _ _ _ _ Hxy). by apply elem_of_read_order.
    + intros. congruence.
Qed.

(** * The range of a key *)
Definition no_nan (st : option scalar * option scalar) : Prop := ∀ a, st.1 = Some a ∨ st.2 = Some a → is_nan a = false.
Lemma rfold_no_nan {A} (f : A → option scalar * option scalar) l cur r :
  (∀ x, x ∈ l → no_nan (f x)) → no_nan cur → rfoldM (fun c x => merge_stats c (f x)) cur l = Ok r → no_nan r.
Proof.
  revert cur. induction l as [|x l IH]; intros cur Hf Hc; simpl; [by intros [= <-]|].
  intros (c&Hm&Hr)%rbind_ok. apply (IH c); [intros; apply Hf; by right| |done].
  apply (merge_stats_bounds cur (f x) c [] []) in Hm as [_ ?]; [done|done|apply Hf; by left|intros v Hv; set_solver..].
Qed.
Lemma column_stats_no_nan fs gs k st : column_stats fs gs k = Ok st → no_nan st.
Proof.
  unfold column_stats. case_decide; [|done]. apply rfold_no_nan.
  - intros g _ a Ha. by eapply chunk_no_nan.
  - intros a [?|?]; done.
Qed.
Definition key_values (fs : fsys) (key : string) (m : mrow) : list scalar := column_values key (file_rows fs (mr_path m)).
Lemma mrow_key_stats s fs m key f :
  wf_schema s → wf_mrow s fs m → key ∈ s_pks s → plain_before s key → f ∈ s_fields s → f_name f = key →
  bounds (stat_look m (field_id f, SMin)) (stat_look m (field_id f, SMax)) (key_values fs key m)
  ∧ no_nan (stat_look m (field_id f, SMin), stat_look m (field_id f, SMax)).
Proof.
  intros Hs (cols&gs&E&Hf&_&Hc&Hm&_) Hk Hpl Hfi Hn. apply elem_of_list_lookup in Hfi as [k Hki].
  unfold key_values, file_rows. rewrite Hf. split; [by eapply manifest_row_bounds|].
  destruct (manifest_row_stat E s _ gs m k f Hs Hm Hki) as (st&Hst&_&_&Ha&Hb); [by rewrite Hn|].
  rewrite Ha, Hb. pose proof (column_stats_no_nan _ _ _ _ Hst) as H. by destruct st.
Qed.
Lemma table_stats_bounds fs key i ms :
  (∀ m, m ∈ ms → bounds (stat_look m (i, SMin)) (stat_look m (i, SMax)) (key_values fs key m)
                 ∧ no_nan (stat_look m (i, SMin), stat_look m (i, SMax))) →
  pair_bounds (table_stats i ms) (ms ≫= key_values fs key) ∧ no_nan (table_stats i ms).
Proof.
  intros Hms.
  assert (Hmin : ∀ v, v ∈ omap (fun m => stat_look m (i, SMin)) ms → is_nan v = false).
  { intros v (m&Hm&Hv)%elem_of_list_omap. apply (proj2 (Hms m Hm) v). by left. }
  assert (Hmax : ∀ v, v ∈ omap (fun m => stat_look m (i, SMax)) ms → is_nan v = false).
  { intros v (m&Hm&Hv)%elem_of_list_omap. apply (proj2 (Hms m Hm) v). by right. }
  split.
  - intros v (m&Hv&Hm)%elem_of_list_bind Hnan. destruct (proj1 (Hms m Hm) v Hv Hnan) as (a&b&Ha&Hb&_&_&Hav&Hvb).
    destruct (omin_fold _ None Hmin ltac:(done) a) as (a'&Ha'&Hna'&Haa').
    { left. apply elem_of_list_omap. eauto. }
    destruct (omax_fold _ None Hmax ltac:(done) b) as (b'&Hb'&Hnb'&Hbb').
    { left. apply elem_of_list_omap. eauto. }
    exists a', b'. split_and!; try done; apply at_most_sle; [apply at_most_sle in Hav|apply at_most_sle in Hvb]; by eapply sle_trans.
  - intros a [Ha|Ha]; [by eapply fold_omin_nan in Ha|by eapply fold_omax_nan in Ha].
Qed.
Definition range_of (fs : fsys) (i : Z) (mans : list path) : res (option range) :=
  let? st := rfoldM (fun cur ms => merge_stats cur (table_stats i ms)) (None, None) (man_at fs <$> mans) in
  match st with
  | (None, None) => Ok None
  | (Some a, Some b) => Ok (Some (Range a b true))
  | _ => Err (EOther "AssertionError")
  end.
Lemma rfold_bounds {A} (f : A → option scalar * option scalar) (g : A → list scalar) l cur r vs :
  (∀ x, x ∈ l → pair_bounds (f x) (g x) ∧ no_nan (f x)) → no_nan cur → pair_bounds cur vs →
  rfoldM (fun c x => merge_stats c (f x)) cur l = Ok r → pair_bounds r (vs ++ (l ≫= g)).
Proof.
  revert cur vs. induction l as [|x l IH]; intros cur vs Hf Hc Hb; simpl.
  - intros [= <-]. by rewrite app_nil_r.
  - intros (c&Hm&Hr)%rbind_ok. destruct (Hf x) as [Hbx Hnx]; [by left|].
    apply (merge_stats_bounds cur (f x) c vs (g x)) in Hm as [Hb' Hn']; [|done..].
    apply (IH c (vs ++ g x)) in Hr; [|intros; apply Hf; by right|done..]. by rewrite <-app_assoc in Hr.
Qed.
Lemma range_of_bounds s fs mans key f o :
  wf_schema s → Forall (wf_man s fs) mans → key ∈ s_pks s → plain_before s key → f ∈ s_fields s → f_name f = key →
  range_of fs (field_id f) mans = Ok o →
  ∀ r v, r ∈ man_rows fs (mans ≫= man_at fs) → row_look r key = Some v → is_nan v = false →
    ∃ a b, o = Some (Range a b true) ∧ is_nan a = false ∧ is_nan b = false ∧ sle a v ∧ sle v b.
Proof.
  intros Hs Hw Hk Hpl Hf Hn (st&Hst&Ho)%rbind_ok r v Hr Hv Hnan.
  apply (rfold_bounds (table_stats (field_id f)) (fun ms => ms ≫= key_values fs key) _ _ _ []) in Hst.
  - destruct (Hst v) as (a&b&Ha&Hb&Hna&Hnb&Hav&Hvb); [|done|].
    + cbn [app]. rewrite man_rows_bind in Hr. apply elem_of_list_bind in Hr as (m&Hr&Hm).
      apply elem_of_list_bind in Hm as (q&Hm&Hq). apply elem_of_list_bind. exists (man_at fs q).
      split; [|by apply elem_of_list_fmap_1]. apply elem_of_list_bind. exists m. split; [|done].
      apply elem_of_list_omap. eauto.
    + destruct st as [? ?]. cbn in Ha, Hb. subst. exists a, b. injection Ho as <-. split_and!; try done; by apply at_most_sle.
  - intros ms (q&->&Hq)%elem_of_list_fmap. apply table_stats_bounds. intros m Hm.
    eapply Forall_forall in Hw; [|exact Hq]. apply wf_man_at in Hw as [_ Hw]. eapply Forall_forall in Hw; [|exact Hm].
    by eapply mrow_key_stats.
  - intros a [?|?]; done.
  - intros x Hx. set_solver.
Qed.
Lemma key_range_in_run s w h fields key i f :
  wf_schema s → wf_meta s (w_fs w) (h_meta h) → f ∈ s_fields s → f_name f = key → key ∈ s_pks s →
  field_ids_of fields !! key = Some i → i = field_id f →
  key_range_in fields key (h, w) = ((h, w), let? sn := get_snapshot h None in range_of (w_fs w) (field_id f) (sn_idx sn)).
Proof.
  intros Hs Hm Hf Hn Hk Hi ->. unfold key_range_in. rewrite get_handle_bind, Hi.
  erewrite bind_run' with (s1 := (h, w)) (r := let? sn := get_snapshot h None in Ok (man_at (w_fs w) <$> sn_idx sn)).
  - destruct (get_snapshot h None) as [sn|e]; [|done]. cbn [rbind].
    assert (has_stats (md_schema (h_meta h)) (field_id f) = true) as ->.
    { rewrite (wm_schema _ _ _ Hm). apply existsb_exists. exists f. split; [by apply elem_of_list_In|].
      apply bool_decide_eq_true. by rewrite Hn. }
    rewrite orb_true_r, lift_bind. unfold range_of. destruct (rfoldM _ _ _) as [[[a|] [b|]]|e]; done.
  - unfold index_manifests. rewrite get_handle_bind, lift_bind. destruct (get_snapshot h None) as [sn|e] eqn:Hsn; [|done].
    cbn [rbind]. apply liftM_run. apply mapM_st_pure. intros q Hq. apply (read_idx_man_run (w_fs w)); [done|].
    assert (Hw : wf_snap s (w_fs w) sn).
    { eapply snap_of_wf; [exact Hm|]. by apply get_snapshot_snap_of. }
    destruct Hw as (_&Hw&_). eapply Forall_forall in Hw; [|exact Hq]. by apply wf_man_at in Hw as [? _].
Qed.
Lemma key_range_run s w h key f :
  wf_schema s → wf_meta s (w_fs w) (h_meta h) → f ∈ s_fields s → f_name f = key → key ∈ s_pks s →
  key_range key (h, w) = ((h, w), let? sn := get_snapshot h None in range_of (w_fs w) (field_id f) (sn_idx sn)).
Proof.
  intros Hs Hm Hf Hn Hk. unfold key_range. rewrite get_handle_bind, (wm_schema _ _ _ Hm).
  eapply key_range_in_run; [done..|apply (field_ids_lookup (s_fields s) key); [apply Hs|done..]|done].
Qed.
Lemma read_here_run E blocks flt fields ref h w p m :
  stored (w_fs w) p m →
  run_ray_read E blocks flt fields None ref None (h, w) = ray_read_here E blocks flt fields ref (sync p m h, w).
Proof.
  intros Hst. unfold run_ray_read. rewrite (bind_run _ _ _ _ _ (reload_run p m h w Hst)).
  rewrite get_handle_bind, lift_bind. unfold ray_read_here. rewrite get_handle_bind. done.
Qed.

(** * The whole join *)
Lemma mapM_st_still {S A B} (f : A → ST S B) (g : A → res B) l s :
  (∀ x, x ∈ l → f x s = (s, g x)) → mapM_st f l s = (s, rmapM g l).
Proof.
  induction l as [|x l IH]; simpl; intros Hf; [done|].
  rewrite (bind_run' _ _ s s (g x)) by (apply Hf; by left). destruct (g x) as [y|e]; [|done]. cbn [rbind].
  rewrite (bind_run' _ _ s s (rmapM g l)) by (apply IH; intros; apply Hf; by right). by destruct (rmapM g l).
Qed.
Lemma on_left_run {A} (m : H A) a b a' x : m a = (a', x) → on_left m (a, b) = ((a', b), x).
Proof. unfold on_left. by intros ->. Qed.
Lemma on_right_run {A} (m : H A) a b b' x : m b = (b', x) → on_right m (a, b) = ((a, b'), x).
Proof. unfold on_right. by intros ->. Qed.

(** One side: what it reads without a restriction, its range, and what it reads in a range. *)
(** One side of a join after reloading: its range, its restricted reads, and its rows [L]. *)
Record side_at (names : list string) (kr : H (option range)) (rd : filter_expr → H (list (list row))) (key : string)
    (hw : handle * world) (o : res (option range)) (L : list row) : Prop := {
  sd_range : kr hw = (hw, o);
  sd_read : ∀ g, ∃ ts, rd (range_filter key g) hw = (hw, Ok ts) ∧ concat ts = filter (in_range key g) L;
  sd_bounds : ∀ q r v, o = Ok q → r ∈ L → row_look r key = Some v →
                ∃ a b, q = Some (Range a b true) ∧ is_nan a = false ∧ is_nan b = false ∧ sle a v ∧ sle v b;
  sd_names : ∀ r n, r ∈ L → n ∈ names → n ∈ r.*1 }.
Record side (s : schema) (E : env) (blocks : bool) (key : string) (i : join_input) (h : handle) (w : world)
    (h' : handle) (o : res (option range)) (L : list row) : Prop := {
  sd_reload : ∃ b, reload (h, w) = ((h', w), Ok b);
  sd_schema : md_schema (h_meta h') = s;
  sd_at : side_at (read_names s (ji_fields i)) (key_range key)
            (fun e => ray_read_here E blocks (Some e) (ji_fields i) (ji_ref i)) key (h', w) o L }.
Lemma side_of E blocks key i s h w p m ts :
  winv s w → wf_handle s w h → stored (w_fs w) p m → wf_meta s (w_fs w) m →
  (∀ n, n ∈ read_names s (ji_fields i) → n ∈ s_names s) → key ∈ read_names s (ji_fields i) →
  key ∈ s_pks s → plain_before s key →
  run_ray_read E blocks None (ji_fields i) None (ji_ref i) None (h, w) = ((sync p m h, w), Ok ts) →
  (∀ r, r ∈ concat ts → row_look r key ≠ Some SNaN) →
  ∃ sn f, snap_of m (h_branch h) None = Some sn ∧ f ∈ s_fields s ∧ f_name f = key
    ∧ side s E blocks key i h w (sync p m h) (range_of (w_fs w) (field_id f) (sn_idx sn)) (concat ts).
Proof.
  intros Hi Hh Hst Hm Hsel Hkf Hk Hpl Hrun Hnan. pose proof (wi_schema _ _ Hi) as Hs.
  assert (Hkr : key ∉ s_recs s) by by apply Hs.
  destruct (sync_spec s w p m h Hst Hm Hh) as (Hh'&Hm'&_&Hb&_).
  destruct (name_field s key) as (f&Hf&Hn); [by apply Hs|].
  destruct (ray_read_run E blocks None (ji_fields i) None (ji_ref i) None s h w p m Hi Hh Hst Hm) as (r&Hr&Hc).
  rewrite Hrun in Hr. injection Hr as <-.
  destruct (snap_of m (h_branch h) None) as [sn|] eqn:Hsn; [|done]. exists sn, f. split_and!; [done..|].
  assert (Hget : get_snapshot (sync p m h) None = Ok sn).
  { apply (get_snapshot_snap_of _ m); [done|]. by rewrite Hb. }
  cbn [man_filter] in Hc. destruct (Hc Hsel) as (ts0&lrows&[= <-]&Hl&Ht&_). cbn [filter_rows] in Hl, Ht.
  rewrite picked_rows_none in Hl, Ht.
  constructor; [eexists; by apply reload_run|rewrite Hm'; apply (wm_schema _ _ _ Hm)|constructor].
  - rewrite (key_range_run s w (sync p m h) key f); [|done|by rewrite Hm'|done..]. by rewrite Hget.
  - intros g. destruct (key_read E blocks key (range_filter key g) s h w p m (ji_fields i) (ji_ref i) ts) as (ts'&Hts'&Hc'); try done.
    + apply range_key_only.
    + by destruct g as [? ? []].
    + by apply range_buildable.
    + exists ts'. split; [|exact Hc']. by rewrite <-(read_here_run E blocks _ _ _ h w p m Hst).
  - intros q x v Ho Hx Hv. assert (Hw : wf_snap s (w_fs w) sn) by by eapply snap_of_wf.
    assert (∃ y, y ∈ phys_rows (w_fs w) sn ∧ row_look y key = row_look x key) as (y&Hy&Hyx).
    { apply elem_of_list_lookup in Hx as [j Hx]. destruct (ji_ref i).
      - apply tsel_ok in Ht. destruct (Forall2_lookup_r _ _ _ _ _ Ht Hx) as (y&Hy&Hxy). exists y.
        split; [by eapply elem_of_list_lookup_2|]. symmetry. by apply (rsel_row_look _ _ _ _ Hxy).
      - apply mapM_Some in Hl. apply tsel_ok in Ht. destruct (Forall2_lookup_r _ _ _ _ _ Ht Hx) as (z&Hz&Hzx).
        destruct (Forall2_lookup_r _ _ _ _ _ Hl Hz) as (y&Hy&Hyz). exists y.
        split; [by eapply elem_of_list_lookup_2|]. rewrite (rsel_row_look _ _ _ _ Hzx) by by apply elem_of_read_order.
        symmetry. exact (row_look_resolve _ _ _ _ _ Hyz Hkr). }
    destruct Hw as (_&Hw&_). eapply (range_of_bounds s (w_fs w) (sn_idx sn) key f q Hs Hw Hk Hpl Hf Hn Ho y); [exact Hy|congruence|].
    destruct v; try done. by destruct (Hnan x Hx).
  - intros x n Hx Hn'. apply elem_of_list_lookup in Hx as [j Hx]. destruct (ji_ref i).
    + apply tsel_ok in Ht. destruct (Forall2_lookup_r _ _ _ _ _ Ht Hx) as (y&_&Hxy).
      by rewrite (rsel_names _ _ _ Hxy).
    + apply tsel_ok in Ht. destruct (Forall2_lookup_r _ _ _ _ _ Ht Hx) as (y&_&Hxy).
      rewrite (rsel_names _ _ _ Hxy). by apply elem_of_read_order.
Qed.
Definition joined (none_ok : bool) (part : option (range → list range)) (key : string) (sl sr : schema) (l r : join_input)
    (a b : res (option range)) (L R : list row) : res (list row) :=
  let? a := a in let? b := b in let? gs := join_ranges part a b in
  let? rs := rmapM (fun g => join_tables key sl sr l r (filter (in_range key g) L) (filter (in_range key g) R)) gs in
  if none_ok || forallb (fun x => bool_decide (is_Some x)) rs then Ok (concat (omap id rs))
  else Err (EOther "TypeError: not a block type: None").
Lemma join_sides_run none_ok part key sl sr l r nl nr kl kr dl dr hwl hwr a b L R :
  side_at nl kl dl key hwl a L → side_at nr kr dr key hwr b R →
  join_sides none_ok part key sl sr l r kl kr dl dr (hwl, hwr) = ((hwl, hwr), joined none_ok part key sl sr l r a b L R).
Proof.
  intros [Hrl Hdl _ _] [Hrr Hdr _ _]. unfold join_sides.
  rewrite (bind_run' _ _ _ _ _ (on_left_run _ _ _ _ _ Hrl)). unfold joined. destruct a as [a|e]; [|done].
  rewrite (bind_run' _ _ _ _ _ (on_right_run _ _ _ _ _ Hrr)). destruct b as [b|e]; [|done].
  rewrite lift_bind. cbn [rbind]. destruct (join_ranges part a b) as [gs|e]; [|done]. cbn [rbind].
  erewrite bind_run'; [|apply mapM_st_still]; cycle 1.
  { intros g _. cbv beta zeta. destruct (Hdl g) as (tl&Htl&Hcl), (Hdr g) as (tr&Htr&Hcr).
    rewrite (bind_run _ _ _ _ _ (on_left_run _ _ _ _ _ Htl)).
    rewrite (bind_run _ _ _ _ _ (on_right_run _ _ _ _ _ Htr)). rewrite Hcl, Hcr.
    unfold lift. reflexivity. }
  destruct (rmapM _ gs) as [rs|e]; [|done]. cbn [rbind]. by destruct (none_ok || _).
Qed.
Lemma join_run none_ok part key E blocks sl sr l r hl hr wl wr hl' hr' a b L R :
  side sl E blocks key l hl wl hl' a L → side sr E blocks key r hr wr hr' b R →
  run_join none_ok E blocks part key l r ((hl, wl), (hr, wr))
  = (((hl', wl), (hr', wr)), joined none_ok part key sl sr l r a b L R).
Proof.
  intros [[b1 Hl] Hsl Hal] [[b2 Hr] Hsr Har]. unfold run_join.
  rewrite (bind_run _ _ _ _ _ (on_left_run _ _ _ _ _ Hl)).
  rewrite (bind_run _ _ _ _ _ (on_right_run _ _ _ _ _ Hr)).
  rewrite (bind_run (on_left get_handle) _ (hl', wl, (hr', wr)) (hl', wl, (hr', wr)) hl') by done.
  rewrite (bind_run (on_right get_handle) _ (hl', wl, (hr', wr)) (hl', wl, (hr', wr)) hr') by done.
  rewrite Hsl, Hsr. by eapply join_sides_run.
Qed.
Lemma within_incl v a b : is_nan v = false → is_nan a = false → is_nan b = false →
  within v (Range a b true) ↔ sle a v ∧ sle v b.
Proof.
  intros Hv Ha Hb. unfold within, cmp_holds, sle. cbn. rewrite Hv, Ha, Hb. cbn. rewrite (scmp_antisym a v).
  destruct (scmp a v), (scmp v b); cbn; naive_solver.
Qed.
Lemma py_max_le x y mx v : py_max x y = Ok mx → is_nan x = false → is_nan y = false →
  is_nan mx = false ∧ (sle x v → sle y v → sle mx v).
Proof. unfold py_max. case_decide; [|done]. destruct (scalar_lt x y); intros [= <-]; done. Qed.
Lemma py_min_le x y mn v : py_min x y = Ok mn → is_nan x = false → is_nan y = false →
  is_nan mn = false ∧ (sle v x → sle v y → sle v mn).
Proof. unfold py_min. case_decide; [|done]. destruct (scalar_lt y x); intros [= <-]; done. Qed.
Lemma joined_ok none_ok part key sl sr l r nl nr kl kr dl dr hwl hwr a b L R out :
  side_at nl kl dl key hwl a L → side_at nr kr dr key hwr b R →
  (∀ x, x ∈ L → row_look x key ≠ Some SNaN) →
  separates part (common key L R) →
  joined none_ok part key sl sr l r a b L R = Ok out →
  out ≡ₚ inner_join key (output_fields key sl sr l r) L R.
Proof.
  intros [_ _ Hbl _] [_ _ Hbr _] Hnan Hsep.
  unfold joined. intros (qa&->&(qb&->&(gs&Hgs&(rs&Hrs&Hout)%rbind_ok)%rbind_ok)%rbind_ok)%rbind_ok.
  assert (out = concat (omap id rs)) as ->.
  { destruct (none_ok || forallb _ rs); [by injection Hout|done]. }
  assert (concat (omap id rs) = gs ≫= (fun g => inner_join key (output_fields key sl sr l r) (filter (in_range key g) L) (filter (in_range key g) R))) as ->.
  { apply rmapM_ok in Hrs. clear -Hrs. induction Hrs as [|g o gs rs Ho _ IH]; [done|].
    rewrite bind_cons, <-IH. apply join_tables_ok in Ho as <-. by destruct o. }
  apply join_split. intros v Hv. unfold common in Hv.
  pose proof Hv as [Hvr Hvl]%elem_of_list_filter.
  assert (Hvn : is_nan v = false).
  { apply elem_of_list_omap in Hvl as (x&Hx&Hxv). destruct v; try done. by destruct (Hnan x Hx). }
  assert (Hall : ∀ g, (∃ mn mx, g = Range mn mx true ∧ (∃ a1 a2 b1 b2, qa = Some (Range a1 a2 true) ∧ qb = Some (Range b1 b2 true) ∧ py_max a1 b1 = Ok mn ∧ py_min a2 b2 = Ok mx)) →
            ∀ u, u ∈ common key L R → within u g).
  { intros g (mn&mx&->&a1&a2&b1&b2&->&->&Hmn&Hmx) u [Hur Hul]%elem_of_list_filter.
    apply elem_of_list_omap in Hur as (y&Hy&Hyu). apply elem_of_list_omap in Hul as (x&Hx&Hxu).
    assert (Hun : is_nan u = false) by (destruct u; try done; by destruct (Hnan x Hx)).
    destruct (Hbl _ x u eq_refl Hx Hxu) as (?&?&[= <- <-]&?&?&?&?).
    destruct (Hbr _ y u eq_refl Hy Hyu) as (?&?&[= <- <-]&?&?&?&?).
    destruct (py_max_le _ _ _ u Hmn) as [? ?]; [done..|]. destruct (py_min_le _ _ _ u Hmx) as [? ?]; [done..|].
    apply within_incl; [done..|]. split; auto. }
  apply elem_of_list_omap in Hvr as (y&Hy&Hyv). apply elem_of_list_omap in Hvl as (x&Hx&Hxv).
  destruct (Hbl _ x v eq_refl Hx Hxv) as (a1&a2&->&_). destruct (Hbr _ y v eq_refl Hy Hyv) as (b1&b2&->&_).
  unfold join_ranges in Hgs. apply rbind_ok in Hgs as (mn&Hmn&(mx&Hmx&[= <-])%rbind_ok).
  assert (Hin : ∀ u, u ∈ common key L R → within u (Range mn mx true)) by (apply Hall; naive_solver).
  cbn [rg_min rg_max] in Hmn, Hmx. destruct part as [f|]; cbn [default from_option id].
  - by apply Hsep.
  - rewrite filter_cons, decide_True by by apply Hin. done.
Qed.
