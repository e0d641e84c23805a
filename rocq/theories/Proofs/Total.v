(** When operations cannot fail. *)
From Verif.Model Require Import System.
From Verif.Spec Require Import Logical Api Pruning Keys Typed.
From Verif.Proofs Require Import Lib World Resolve FalsifySound Stats Bounds SchemaFacts Keys.

(** * Building manifest filters *)
Ltac nolit H := exfalso; apply H; cbn; repeat (apply elem_of_list_here || apply elem_of_list_further).
Ltac here := cbn; repeat (apply elem_of_list_here || apply elem_of_list_further).
Lemma min_max_some s n :
  wf_schema s → n ∈ s_names s → plain_before s n → is_Some (min_max (fenv_of s) n).
Proof.
  intros Hs Hn Hp. unfold min_max. cbn. rewrite phys_names.
  destruct (index_of_some n (s_names s) Hn) as [k Hk]. rewrite Hk. cbn.
  assert (Hal : aligned (fenv_of s) [n]) by (apply aligned_plain; [done|set_solver]).
  specialize (Hal n k). cbn in Hal. rewrite phys_names in Hal. rewrite Hal by set_solver. cbn.
  destruct (name_field s n Hn) as (f&Hf&Hname).
  rewrite (field_ids_lookup (phys_schema s) n) with (f := phys_field s f).
  - cbn. eauto.
  - rewrite phys_names. apply Hs.
  - apply elem_of_list_fmap. eauto.
  - by rewrite phys_field_name.
Qed.
Lemma falsify_total s e top :
  wf_schema s → (∀ n, n ∈ filter_fields e → n ∈ s_names s ∧ plain_before s n) →
  None ∉ literals e → (top = true → bare e = false) → falsify (fenv_of s) top e ≠ FCrash.
Proof.
  intros Hs. revert top. induction e as [v|n|f a IHa|f a IHa b IHb|sem|hf sem]; intros top Hf Hl Hb; cbn.
  - destruct v; [done|]. nolit Hl.
  - done.
  - destruct f; try done. specialize (IHa false Hf Hl). destruct (falsify (fenv_of s) false a) as [[]| |]; try done.
    by apply IHa.
  - cbn in Hf, Hl. assert (Ha := IHa false ltac:(intros n Hn; apply Hf; apply elem_of_app; auto) ltac:(intros Hn; apply Hl; apply elem_of_app; auto) ltac:(done)).
    assert (Hbb := IHb false ltac:(intros n Hn; apply Hf; apply elem_of_app; auto) ltac:(intros Hn; apply Hl; apply elem_of_app; auto) ltac:(done)).
    destruct (is_fn a || is_fn b) eqn:Hfn.
    + unfold combine. destruct (falsify _ false a); try done. destruct (falsify _ false b); try done. by destruct f.
    + assert (Hm : ∀ n, n ∈ filter_fields a ++ filter_fields b → is_Some (min_max (fenv_of s) n)).
      { intros n Hn. destruct (Hf n Hn). by apply min_max_some. }
      destruct a as [va|na|? ?|? ? ?| |], b as [vb|nb|? ?|? ? ?| |]; try done.
      * unfold cond_literals. destruct va; [|nolit Hl]. destruct vb; [|nolit Hl]. cbn. by destruct f as [| | |[]|].
      * unfold cond_field_literal. destruct (Hm nb) as [[[? ?] pk] ->]; [here|].
        destruct pk; [|done]. destruct va; [|nolit Hl]. cbn. by destruct f as [| | |[]|].
      * unfold cond_field_literal. destruct (Hm na) as [[[? ?] pk] ->]; [here|].
        destruct pk; [|done]. destruct vb; [|nolit Hl]. cbn. by destruct f as [| | |[]|].
      * unfold cond_fields. destruct (Hm na) as [[[? ?] pk] ->]; [here|].
        destruct (Hm nb) as [[[? ?] pk'] ->]; [here|].
        destruct (pk && pk'); [|done]. by destruct f as [| | |[]|].
  - done.
  - destruct top; [|done]. specialize (Hb eq_refl). cbn in Hb. by destruct hf.
Qed.
Lemma fields_exist_all s e :
  (∀ n, n ∈ filter_fields e → n ∈ s_names s) → fields_exist (s_names s) e = true.
Proof.
  induction e as [v|n|f a IHa|f a IHa b IHb|sem|hf sem]; cbn; intros Hf; try done.
  - apply bool_decide_eq_true. apply Hf. here.
  - by apply IHa.
  - rewrite IHa, IHb; [done| |]; intros n Hn; apply Hf; apply elem_of_app; auto.
Qed.
Lemma build_total s e :
  wf_schema s → buildable s e → ∃ mf, build_manifest_filter (fenv_of s) e = Ok mf.
Proof.
  intros Hs (Hf&Hl&Hb). unfold build_manifest_filter. cbn [fe_top fenv_of]. rewrite phys_names.
  rewrite fields_exist_all by (intros n Hn; by apply Hf).
  pose proof (falsify_total s e true Hs Hf Hl (fun _ => Hb)) as Hc.
  destruct (falsify (fenv_of s) true e) as [[]| |]; eauto. done.
Qed.
Lemma keyf_buildable s e : wf_schema s → plain_keys s → keyf (s_pks s) e → buildable s e.
Proof.
  intros Hs Hp He. split_and!.
  - intros n Hn. apply (keyf_fields _ _ _ He) in Hn. split; [by apply Hs|by apply Hp].
  - induction He; cbn in *; set_solver.
  - by destruct He.
Qed.

(** * Manifest rows *)
Definition keyed (s : schema) (r : row) : Prop :=
  ∀ n, n ∈ s_pks s → row_look r n ≠ None ∧ row_look r n ≠ Some SNaN.
Definition good (s : schema) (r : row) : Prop := row_conforms s r = true ∧ keyed s r.

Lemma fold_omin_in l acc a : foldl omin acc l = Some a → a ∈ l ∨ acc = Some a.
Proof.
  revert acc. induction l as [|x l IH]; intros acc; cbn; [auto|]. intros [?|Hx]%IH; [set_solver|].
  destruct acc as [m|]; cbn in Hx; [destruct (scalar_lt x m)|]; injection Hx as <-; set_solver.
Qed.
Lemma fold_omax_in l acc a : foldl omax acc l = Some a → a ∈ l ∨ acc = Some a.
Proof.
  revert acc. induction l as [|x l IH]; intros acc; cbn; [auto|]. intros [?|Hx]%IH; [set_solver|].
  destruct acc as [m|]; cbn in Hx; [destruct (scalar_lt m x)|]; injection Hx as <-; set_solver.
Qed.
Lemma chunk_some (K : scalar → Prop) l :
  (∃ v, v ∈ l ∧ is_nan v = false) → (∀ v, v ∈ l → K v) →
  ∃ a b, chunk_min l = Some a ∧ chunk_max l = Some b ∧ K a ∧ K b.
Proof.
  intros (v&Hv&Hn) HK. destruct (chunk_bounds l v Hv Hn) as (a&b&Ha&Hb&_).
  exists a, b. split_and!; try done.
  - apply fold_omin_in in Ha as [Ha|]; [|done]. apply elem_of_list_filter in Ha as [_ ?]. auto.
  - apply fold_omax_in in Hb as [Hb|]; [|done]. apply elem_of_list_filter in Hb as [_ ?]. auto.
Qed.
Lemma merge_total (K : scalar → Prop) cur a b :
  (cur = (None, None) ∨ ∃ x y, cur = (Some x, Some y) ∧ K x ∧ K y) → K a → K b →
  ∃ x y, merge_stats cur (Some a, Some b) = Ok (Some x, Some y) ∧ K x ∧ K y.
Proof.
  intros [->|(x&y&->&Hx&Hy)] Ha Hb; cbn; [eauto|]. do 2 eexists. split; [done|].
  split; case_match; done.
Qed.
Lemma fold_merge_total (K : scalar → Prop) (g : list row → list scalar) groups cur :
  (cur = (None, None) ∨ ∃ x y, cur = (Some x, Some y) ∧ K x ∧ K y) →
  (∀ rg, rg ∈ groups → (∃ v, v ∈ g rg ∧ is_nan v = false) ∧ ∀ v, v ∈ g rg → K v) →
  ∃ st, rfoldM (fun cur rg => merge_stats cur (chunk_min (g rg), chunk_max (g rg))) cur groups = Ok st
    ∧ (st = (None, None) ∨ ∃ x y, st = (Some x, Some y) ∧ K x ∧ K y).
Proof.
  revert cur. induction groups as [|rg groups IH]; intros cur Hc Hg; cbn; [eauto|].
  destruct (Hg rg) as [He HK]; [set_solver|]. destruct (chunk_some K (g rg) He HK) as (a&b&->&->&Ha&Hb).
  destruct (merge_total K cur a b Hc Ha Hb) as (x&y&->&Hx&Hy). cbn. apply IH; [eauto 10|set_solver].
Qed.
Lemma leaves_bound fs k f :
  flat_prefix fs k → fs !! k = Some f → ty_leaves (f_ty f) = 1 →
  k < sum_list_with (fun f => ty_leaves (f_ty f)) fs.
Proof.
  revert k. induction fs as [|g fs IH]; intros k Hp Hk Hone; [done|]. destruct k as [|k]; cbn in *.
  - injection Hk as ->. lia.
  - rewrite (Hp 0 g) by (done || lia). cut (k < sum_list_with (λ f, ty_leaves (f_ty f)) fs); [lia|].
    apply IH; try done. intros j h Hj Hh. apply (Hp (S j)); [lia|done].
Qed.
Lemma conforms_look s r f v :
  row_conforms s r = true → f ∈ s_fields s → f_name f ∉ s_recs s →
  row_look r (f_name f) = Some v → kind_ok (f_ty (phys_field s f)) v = true.
Proof.
  intros Hc Hf Hn Hv. pose proof (conforms_cell s r f Hc Hf) as Hcell. rewrite bool_decide_eq_false_2 in Hcell by done.
  unfold row_look in Hv. destruct (rget (f_name f) r) as [c|]; [|done]. cbn in *. destruct c; try done.
  cbn in Hv. by injection Hv as ->.
Qed.
Lemma rmapM_total {A B} (F : A → res B) l : (∀ x, x ∈ l → ∃ y, F x = Ok y) → ∃ ys, rmapM F l = Ok ys.
Proof.
  induction l as [|x l IH]; intros Hall; cbn; [eauto|]. destruct (Hall x) as [y ->]; [left|]. cbn.
  destruct IH as [ys ->]; [intros; apply Hall; by right|]. cbn. eauto.
Qed.
Lemma manifest_row_total E s p gs :
  wf_schema s → plain_keys s → Forall (fun g => g ≠ []) gs → Forall (Forall (good s)) gs →
  ∃ m, manifest_row E (phys_schema s) (s_pks s) p gs = Ok m.
Proof.
  intros Hs Hp Hne Hg. unfold manifest_row.
  assert (Hcols : ∃ cols, rmapM (fun '(f, k) =>
       let? st := column_stats (phys_schema s) gs k in
       if okind_ok (f_ty f) st.1 && okind_ok (f_ty f) st.2 then Ok (field_id f, st)
       else Err (EOther "ArrowInvalid: statistics type")) (stats_fields (phys_schema s) (s_pks s)) = Ok cols).
  2:{ destruct Hcols as [cols ->]. cbn. eauto. }
  assert (Hall : ∀ fk, fk ∈ stats_fields (phys_schema s) (s_pks s) → ∃ x,
     (fun '(f, k) => let? st := column_stats (phys_schema s) gs k in
       if okind_ok (f_ty f) st.1 && okind_ok (f_ty f) st.2 then Ok (field_id f, st)
       else Err (EOther "ArrowInvalid: statistics type")) fk = Ok x).
  - intros [f k] (g&->&Hk&Hpk)%stats_fields_in.
    pose proof (elem_of_list_lookup_2 _ _ _ Hk) as Hgin.
    assert (Hnr : f_name g ∉ s_recs s) by by apply Hs.
    destruct (wsc_pkty s Hs g Hgin Hpk) as [Hl Hst].
    assert (Hone : ty_leaves (f_ty (phys_field s g)) = 1).
    { rewrite (proj1 (phys_field_plain _ _ Hnr)). by apply leaf_types. }
    assert (Hfp : flat_prefix (phys_schema s) k) by (eapply flat_prefix_plain; [by apply Hp|done..]).
    assert (Hkp : phys_schema s !! k = Some (phys_field s g)) by (unfold phys_schema; by rewrite list_lookup_fmap, Hk).
    assert (Hst' : ∃ st, column_stats (phys_schema s) gs k = Ok st
        ∧ (st = (None, None) ∨ ∃ x y, st = (Some x, Some y) ∧ kind_ok (f_ty (phys_field s g)) x = true ∧ kind_ok (f_ty (phys_field s g)) y = true)).
    2:{ destruct Hst' as (st&->&Hk'). cbn. destruct Hk' as [->|(x&y&->&Hx&Hy)]; cbn; [eauto|]. rewrite Hx, Hy. cbn. eauto. }
    unfold column_stats. rewrite decide_True by by eapply leaves_bound.
    apply (fold_merge_total (fun v => kind_ok (f_ty (phys_field s g)) v = true) (fun rg => leaf_column (phys_schema s) rg k)); [by left|].
    intros rg Hrg. eapply Forall_forall in Hne; [|exact Hrg]. eapply Forall_forall in Hg; [|exact Hrg].
    rewrite (leaf_column_values _ _ _ (phys_field s g)); try done.
    + rewrite phys_field_name. unfold column_values. split.
      * destruct rg as [|r rg]; [done|]. apply Forall_cons in Hg as [[_ Hkey] _]. destruct (Hkey (f_name g) Hpk) as [H1 H2].
        destruct (row_look r (f_name g)) as [v|] eqn:Hv; [|done]. exists v. split.
        -- apply elem_of_list_omap. exists r. split; [set_solver|done].
        -- by destruct v.
      * intros v (r&Hr&Hv)%elem_of_list_omap. eapply Forall_forall in Hg as [Hc _]; [|exact Hr].
        by eapply conforms_look.
    + intros r Hr. apply conforms_leaf_counts. eapply Forall_forall in Hg as [? _]; done.
    + intros r Hr. rewrite phys_field_name. eapply Forall_forall in Hg as [Hconf _]; [|exact Hr].
      pose proof (conforms_cell s r g Hconf Hgin) as Hc. rewrite bool_decide_eq_false_2 in Hc by done.
      destruct (rget (f_name g) r) as [[]|]; simpl in *; try done.
      apply andb_true_iff in Hc as [Hc _]. unfold phys_field in Hc. rewrite decide_False in Hc by done.
      simpl in Hc. destruct (f_ty g); done.
  - apply rmapM_total. exact Hall.
Qed.
