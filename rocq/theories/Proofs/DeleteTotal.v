(** When deletes cannot fail. *)
From Verif.Model Require Import System.
From Verif.Spec Require Import Logical Api Pruning Keys Typed Layout Candidates Serial.
From Verif.Proofs Require Import Lib World Resolve FalsifySound Stats Bounds SchemaFacts Keys ReadSpec
  AppendSpec Total AppendTotal Wf OpSpec Inv FileSet Ops Bodies SysInv ReadRun Effects Observe View Prune DeleteEffect Txn.

Section delete.
Context (E : env) (O : fopts) (s : schema) (e : filter_expr) (w0 : world).
Context (Hs : wf_schema s) (Hpl : plain_keys s) (Hrl : records_last s) (Hb0 : bounded w0).
Notation fs0 := (w_fs w0).
Notation lo := (w_next w0).

Lemma good_names r : good s r → r.*1 = s_names s.
Proof. intros [H _]. by apply conforms_names. Qed.
Lemma rewrite_total st data :
  good_st s st → Forall (good s) data → total (append_write E O s true st data) (good_st s).
Proof.
  intros Hst Hd. unfold append_write. destruct data as [|d0 data0]; [by apply total_ret|].
  revert Hd. generalize (d0 :: data0). clear d0 data0. intros data Hd.
  assert (Hn : Forall (fun r : row => r.*1 = s_names s) data) by (eapply Forall_impl; [exact Hd|]; apply good_names).
  eapply total_bind; [by apply maybe_create_total|]. intros [st0 w] (Hst0&Hgw).
  assert (Hcol : ∀ n, n ∈ s_names s → ∀ r, r ∈ data → is_Some (rget n r)).
  { intros n Hin r Hr. apply rget_some. eapply Forall_forall in Hn; [|exact Hr]. by rewrite Hn. }
  assert (∃ idx, tsel (index_names s) data = Ok idx) as [idx Hidx].
  { apply rmapM_total. intros r Hr. apply rmapM_total. intros n [_ Hin]%elem_of_list_filter.
    destruct (Hcol n Hin r Hr) as [c ->]. eauto. }
  eapply total_bind; [by apply (total_lift _ idx (fun x => x = idx))|]. intros ? ->.
  assert (∃ cols, rmapM (fun '(f, _) => rmap (pair f) (tcol f data)) (rec_fields s) = Ok cols) as [cols Hcols].
  { apply rmapM_total. intros [f i] Hf. assert (Hfn : f ∈ record_names s).
    { rewrite <-rec_fields_names. apply elem_of_list_fmap. by exists (f, i). }
    assert (∃ c, tcol f data = Ok c) as [c ->]; [|cbn; eauto]. apply rmapM_total. intros r Hr.
    apply elem_of_list_filter in Hfn as [_ Hfn]. destruct (Hcol f Hfn r Hr) as [c ->]. eauto. }
  eapply (total_bind _ _ (fun '(st1, idx1) => good_st s st1 ∧ Forall (good s) idx1)).
  - eapply total_bind; [by apply (total_lift _ cols (fun x => x = cols))|]. intros ? ->. apply total_ret. split; [done|].
    pose proof (copied_rows s _ _ _ Hidx Hcols) as Hc.
    assert (Heq : tsel (out_names s) data = Ok data).
    { assert (out_names s = s_names s) as -> by (symmetry; exact Hrl). apply tsel_id; [apply Hs|done]. }
    rewrite Heq in Hc. by injection Hc as <-.
  - intros [st1 idx1] (Hst1&Hidx1). by apply append_tail_total.
Qed.

Lemma delete_file_total D st df w :
  listed s w0 df → Forall (good s) (drows w0 df) → (lo ≤ w_next w)%N →
  dinv E s e w0 D st w → good_st s (ds_append st) →
  ∃ w' st', delete_file E O s e st df w = (w', Ok st') ∧ good_st s (ds_append st').
Proof.
  intros Hl Hg Hlo Hd Hst. destruct Hd as [Hw _]. unfold delete_file.
  assert (Hri : ∃ cols gs, read_index (df_path df) w = (w, Ok (cols, gs)) ∧ concat gs = drows w0 df).
  { destruct Hl as (_&_&m&(cols'&gs'&E'&Hp&_)&Hpath&_). exists cols', gs'. unfold drows, file_rows. rewrite Hpath, Hp.
    split; [|done]. unfold read_index, read_file, bind. cbn. by rewrite (wle_lookup _ _ _ _ Hw (Hb0 _ _ Hp)), Hp. }
  destruct Hri as (cols&gs&Hri&Hgs). erewrite bind_run; [|exact Hri]. cbn beta iota. rewrite Hgs.
  case_match; [eexists _, _; split; [reflexivity|done]|].
  pose proof (kept_pairs e w0 df) as Hk. change (reinsert_filter e) with (EUn FnNot e).
  destruct (filter (λ ir : nat * row, matches (EUn FnNot e) ir.2 = true) (imap pair (drows w0 df))) as [|x l] eqn:Hf.
  { eexists _, _. split; [reflexivity|done]. }
  rewrite Hk. destruct (rewrite_total (ds_append st) (kept e w0 df) Hst) with (w := w) as (w'&ap&Hrun&Hap).
  { apply Forall_forall. intros r [_ Hr]%elem_of_list_filter. by eapply Forall_forall in Hg. }
  erewrite bind_run; [|exact Hrun]. eexists _, _. split; [reflexivity|done].
Qed.
Lemma delete_files_total dfs : ∀ D st w,
  Forall (listed s w0) dfs → Forall (fun df => Forall (good s) (drows w0 df)) dfs → (lo ≤ w_next w)%N →
  dinv E s e w0 D st w → good_st s (ds_append st) →
  ∃ w' st', foldM_st (delete_file E O s e) st dfs w = (w', Ok st') ∧ good_st s (ds_append st').
Proof.
  induction dfs as [|df dfs IH]; intros D st w Hl Hg Hlo Hd Hst; [by eexists _, _|].
  inversion Hl; inversion Hg; subst. destruct (delete_file_total D st df w) as (w1&st1&Hrun&Hst1); try done.
  destruct (hoare_ok _ _ _ _ _ _ _ (delete_file_spec E O s e w0 Hb0 D st df ltac:(done)) Hd Hlo Hrun) as [Hw1 Hd1].
  cbn. erewrite bind_run; [|exact Hrun]. apply (IH (D ++ [df])); try done.
  destruct Hw1. lia.
Qed.
Lemma delete_op_total fset :
  Forall (listed s w0) (fset_files fset) → Forall (fun df => Forall (good s) (drows w0 df)) (fset_files fset) →
  (∀ df, df ∈ fset_files fset → is_Some (fset_mans fset !! df_mid df)) →
  (∀ i q, fset_mans fset !! i = Some q → wf_man s fs0 q) →
  validate_files fset = true →
  ∃ w' op, delete_op E O s e fset w0 = (w', Ok op).
Proof.
  intros Hl Hg Hmid Hmans Hv. unfold delete_op. rewrite Hv.
  assert (Hd0 : dinv E s e w0 [] (DelSt append_init [] [] [] 0 stats0) w0).
  { split; [apply wle_refl|]. exists [], []. cbn. split_and!; try done; [by apply append_init_inv|by left|apply NoDup_nil_2]. }
  destruct (delete_files_total (fset_files fset) [] _ w0 Hl Hg ltac:(lia) Hd0) as (w1&st&Hrun&Hst); [done|].
  destruct (hoare_ok _ _ _ _ _ _ _ (delete_files_spec E O s e w0 Hb0 [] _ _ Hl) Hd0 ltac:(lia) Hrun) as [Hw1 Hd1].
  erewrite bind_run; [|exact Hrun]. case_match; [by eexists _, _|]. cbn [app] in Hd1.
  destruct Hd1 as (Hw&l0&lrows&_&_&_&_&_&_&_&Hin&_).
  assert (∃ mans, rmapM (fun i => of_opt (ERuntime "index manifest ID not found") (fset_mans fset !! i)) (ds_mids st) = Ok mans)
    as [mans Hm].
  { apply rmapM_total. intros i Hi. apply Hin, elem_of_list_fmap in Hi as (df&->&[_ Hdf]%elem_of_list_filter).
    destruct (Hmid df Hdf) as [q ->]. by exists q. }
  rewrite lift_bind, Hm. cbn beta iota.
  apply rmapM_ok in Hm.
  assert (Hwfm : Forall (wf_man s fs0) mans).
  { clear - Hm Hmans. induction Hm as [|i q l k H]; constructor; [|done]. apply of_opt_ok in H. eauto. }
  destruct (read_mans_spec s w0 Hb0 mans w1 Hwfm Hw) as (ts&Hts&_).
  erewrite bind_run; [|exact Hts].
  destruct (append_finish_total E s Hs Hpl (append_index_manifest (ds_append st) (filter (fun m => mr_path m ∉ ds_files st) (concat ts))))
    with (w := w1) as (w2&re&Hre&_).
  { destruct Hst. by split. }
  erewrite bind_run; [|exact Hre]. by eexists _, _.
Qed.
End delete.
