(** When appends cannot fail. *)
From Verif.Model Require Import System.
From Verif.Spec Require Import Logical Api Pruning Keys Typed.
From Verif.Proofs Require Import Lib World Resolve FalsifySound Stats Bounds SchemaFacts Keys.
From Verif.Proofs Require Import AppendSpec Total.

(** * Append *)
Definition total {A} (m : M A) (Q : A → Prop) : Prop := ∀ w, ∃ w' a, m w = (w', Ok a) ∧ Q a.
Lemma total_bind {A B} (m : M A) (k : A → M B) Q R :
  total m Q → (∀ a, Q a → total (k a) R) → total (bind m k) R.
Proof.
  intros Hm Hk w. destruct (Hm w) as (w1&a&H1&Ha). destruct (Hk a Ha w1) as (w2&b&H2&Hb).
  exists w2, b. split; [|done]. erewrite bind_run; [|exact H1]. done.
Qed.
Lemma total_ret {A} (a : A) (Q : A → Prop) : Q a → total (ret a) Q.
Proof. intros HQ w. by exists w, a. Qed.
Lemma total_lift {A} (r : res A) a (Q : A → Prop) : r = Ok a → Q a → total (lift r) Q.
Proof. intros -> HQ w. by exists w, a. Qed.
Lemma total_put p f (Q : unit → Prop) : Q tt → total (put_file p f) Q.
Proof. intros HQ w. do 2 eexists. split; [reflexivity|done]. Qed.
Lemma total_new k : total (new_path k) (fun _ => True).
Proof. intros w. do 2 eexists. split; [reflexivity|done]. Qed.
Lemma total_weaken {A} (m : M A) (Q R : A → Prop) : total m Q → (∀ a, Q a → R a) → total m R.
Proof. intros Hm HQ w. destruct (Hm w) as (w'&a&?&?). eauto. Qed.

Section append.
Context (E : env) (O : fopts) (s : schema) (Hs : wf_schema s) (Hpl : plain_keys s).

Definition good_groups (gs : list (list row)) : Prop := Forall (fun g => g ≠ []) gs ∧ Forall (Forall (good s)) gs.
Definition good_st (st : append_st) : Prop :=
  (∀ p gs, as_writer st = Some (p, gs) → good_groups gs)
  ∧ (∀ t, as_cached st = Some t → Forall (good s) t).

Lemma maybe_create_total st :
  good_st st → total (maybe_create_index_writer st) (fun '(st1, w) => good_st st1 ∧ good_groups w.2).
Proof.
  intros [Hw Hc]. unfold maybe_create_index_writer. destruct (as_writer st) as [[p gs]|] eqn:Hwr.
  - apply total_ret. split; [|by eapply Hw]. split; [|done]. intros p2 gs2 Heq. rewrite Hwr in Heq. injection Heq as <- <-. by eapply Hw.
  - eapply total_bind; [apply total_new|]. intros p _. eapply total_bind; [by apply (total_put _ _ (fun _ => True))|].
    intros _ _. apply total_ret. split; [|split; constructor]. split; cbn; [|done].
    intros p' gs' [= <- <-]. split; constructor.
Qed.
Lemma write_table_total w t :
  good_groups w.2 → Forall (good s) t → total (write_table E s w t) (fun w' => good_groups w'.2).
Proof.
  intros [Hne Hg] Ht. unfold write_table. eapply total_bind; [apply (total_lift _ tt (fun _ => True)); [|done]|].
  - unfold check_table. assert (forallb (row_conforms s) t = true) as ->; [|done].
    apply forallb_forall. intros r Hr%elem_of_list_In. eapply Forall_forall in Ht as [? _]; done.
  - intros _ _. apply total_ret. cbn. split; apply Forall_app; (split; [done|]).
    + apply chop_nonempty.
    + apply Forall_forall. intros g Hgin. apply Forall_forall. intros r Hr. eapply Forall_forall; [exact Ht|].
      rewrite <-(concat_chop (e_rowgroups E t) t). apply elem_of_list_In, in_concat. exists g. by rewrite <-!elem_of_list_In.
Qed.
Lemma finish_index_writer_total st w :
  good_st st → good_groups w.2 → total (finish_index_writer E s st w) good_st.
Proof.
  destruct w as [p gs]. cbn. intros [Hw Hc] [Hne Hg]. unfold finish_index_writer.
  eapply total_bind; [by apply (total_put _ _ (fun _ => True))|]. intros _ _.
  destruct (manifest_row_total E s p gs Hs Hpl Hne Hg) as [m Hm].
  eapply total_bind; [by apply (total_lift _ m (fun _ => True))|]. intros ? _. apply total_ret. by split.
Qed.
Lemma finish_record_writer_total st f fid w :
  good_st st → total (finish_record_writer st f fid w) good_st.
Proof.
  intros [Hw Hc]. unfold finish_record_writer. eapply total_bind; [by apply (total_put _ _ (fun _ => True))|].
  intros _ _. apply total_ret. by split.
Qed.
Lemma write_record_column_total st f fid col :
  good_st st → (∀ c, c ∈ col → ∃ b, c = CVal (SStr b)) →
  total (write_record_column E O st f fid col)
    (fun '(st1, addrs) => good_st st1 ∧ length addrs = length col ∧ ∀ c, c ∈ addrs → ∃ p i, c = CAddr p i).
Proof.
  intros Hst Hcol. unfold write_record_column. eapply (total_bind _ _ (fun _ => True)).
  { destruct (as_recs st !! f); [by apply total_ret|]. eapply total_bind; [apply total_new|]. intros p _.
    eapply total_bind; [by apply (total_put _ _ (fun _ => True))|]. intros _ _. by apply total_ret. }
  intros w _.
  assert (∃ bs, rmapM cell_bytes col = Ok bs) as [bs Hbs].
  { clear -Hcol. induction col as [|c col IH]; cbn; [eauto|]. destruct (Hcol c) as [b ->]; [set_solver|]. cbn.
    destruct IH as [bs ->]; [set_solver|]. cbn. eauto. }
  eapply total_bind; [by apply (total_lift _ bs (fun _ => True))|]. intros ? _.
  assert (Ha : ∀ p i n, length (address_column p i n) = n ∧ ∀ c, c ∈ address_column p i n → ∃ p i, c = CAddr p i).
  { intros p i n. unfold address_column. rewrite fmap_length, seq_length. split; [done|].
    intros c (j&->&_)%elem_of_list_fmap. eauto. }
  assert (Hst' : ∀ w', good_st (set_rec st f w')) by (intros; destruct Hst; by split).
  case_match.
  - eapply total_bind; [by apply finish_record_writer_total|]. intros st' Hst''. apply total_ret. split; [done|]. apply Ha.
  - apply total_ret. split; [done|]. apply Ha.
Qed.
Lemma write_record_columns_total fs data st :
  good_st st → (∀ f r, f ∈ fs → r ∈ data → ∃ b, rget f.1 r = Some (CVal (SStr b))) →
  total (write_record_columns E O st fs data)
    (fun '(st1, cols) => good_st st1 ∧ cols.*1 = fs.*1
       ∧ Forall (fun nc => length nc.2 = length data ∧ ∀ c, c ∈ nc.2 → ∃ p i, c = CAddr p i) cols).
Proof.
  revert st. induction fs as [|[f fid] fs IH]; intros st Hst Hin; cbn [write_record_columns].
  - apply total_ret. split_and!; [done|done|constructor].
  - assert (∃ col, tcol f data = Ok col ∧ length col = length data ∧ ∀ c, c ∈ col → ∃ b, c = CVal (SStr b)) as (col&Hcol&Hlen&Hb).
    { specialize (Hin (f, fid)). clear -Hin. induction data as [|r data IHd]; [exists []; split_and!; [done|done|set_solver]|].
      destruct IHd as (col&Hc&Hl&Hb); [intros; apply Hin; set_solver|].
      destruct (Hin r) as [b Hr]; [set_solver|set_solver|]. exists (CVal (SStr b) :: col). split_and!.
      - apply tcol_ok. constructor; [done|by apply tcol_ok].
      - cbn. by rewrite Hl.
      - set_solver. }
    eapply total_bind; [by apply (total_lift _ col (fun c => c = col))|]. intros ? ->.
    eapply total_bind; [by apply write_record_column_total|]. intros [st1 addrs] (Hst1&Hla&Haddr).
    eapply total_bind; [apply IH; [done|set_solver]|]. intros [st2 cols] (Hst2&Hn&Hcols).
    apply total_ret. split_and!; [done|cbn; by rewrite Hn|]. constructor; [|done]. cbn. split; [lia|done].
Qed.

(** The physical rows of typed rows. *)
Lemma conform_intro r :
  r.*1 = s_names s →
  (∀ f, f ∈ s_fields s → cell_ok (phys_field s f) (bool_decide (f_name f ∈ s_recs s)) (default CNull (rget (f_name f) r)) = true) →
  row_conforms s r = true.
Proof.
  intros Hn Hc. unfold row_conforms. rewrite phys_names. rewrite bool_decide_eq_true_2 by done. cbn.
  apply forallb_forall. intros g Hg%elem_of_list_In. apply elem_of_list_fmap in Hg as (f&->&Hf).
  rewrite phys_field_name. by apply Hc.
Qed.
Lemma value_cell_ok f c :
  f_name f ∉ s_recs s → value_of (f_ty f) c → cell_ok (phys_field s f) false c = true.
Proof.
  intros Hn. unfold phys_field. rewrite decide_False by done. unfold cell_ok, value_of. cbn.
  destruct c as [|v| |ls]; try done.
  - by destruct (f_ty f).
  - intros [H1 H2]. apply andb_true_iff. split; [by destruct (f_ty f)|]. apply bool_decide_eq_true.
    by destruct (f_ty f).
Qed.
Lemma physical_row d r cols i :
  records_last s → typed_row s d → keyed s d → rsel (index_names s) d = Ok r →
  cols.*1 = record_names s →
  Forall (fun nc => ∃ p j, default CNull (nc.2 !! i) = CAddr p j) cols →
  good s (r ++ ((fun nc : string * list cell => (nc.1, default CNull (nc.2 !! i))) <$> cols)).
Proof.
  intros Hrl Ht Hk Hr Hn Hcols. set (tl := _ <$> cols).
  assert (Hnames : r.*1 = index_names s) by by eapply rsel_names.
  assert (Htl : tl.*1 = record_names s).
  { unfold tl. rewrite <-Hn, <-list_fmap_compose. by apply list_fmap_ext. }
  assert (Hget : ∀ n, n ∈ index_names s → rget n (r ++ tl) = rget n d).
  { intros n Hin. rewrite rget_app. apply rsel_ok in Hr. clear -Hr Hin Hnames.
    assert (∃ c, rget n r = Some c ∧ rget n d = Some c) as (c&->&->); [|done].
    rewrite <-Hnames in Hin. apply rget_some in Hin as [c Hc]. exists c. split; [done|].
    apply rget_in in Hc. apply elem_of_list_lookup in Hc as [k Hc].
    destruct (Forall2_lookup_r _ _ _ _ _ Hr Hc) as (n'&_&Hn'&Hg). cbn in *. by subst. }
  assert (Hrec : ∀ n, n ∈ record_names s → ∃ p j, rget n (r ++ tl) = Some (CAddr p j)).
  { intros n Hin. rewrite rget_app. assert (rget n r = None) as ->.
    { apply rget_none. rewrite Hnames. unfold index_names, record_names in *.
      apply elem_of_list_filter in Hin as [? _]. intros [? _]%elem_of_list_filter. done. }
    rewrite <-Htl in Hin. apply rget_some in Hin as [c Hc]. rewrite Hc. apply rget_in in Hc. unfold tl in Hc.
    apply elem_of_list_fmap in Hc as (nc&[= -> ->]&Hnc). eapply Forall_forall in Hcols; [|exact Hnc]. destruct Hcols as (p&j&->). eauto. }
  split.
  - apply conform_intro.
    + rewrite fmap_app, Hnames, Htl. symmetry. exact Hrl.
    + intros f Hf. destruct (Ht f Hf) as (c&Hc&Hty).
      assert (Hfn : f_name f ∈ s_names s) by (apply elem_of_list_fmap; eauto).
      case_decide as Hd.
      * rewrite bool_decide_eq_true_2 by done. destruct (Hrec (f_name f)) as (p&j&->); [by apply elem_of_list_filter|]. done.
      * rewrite bool_decide_eq_false_2 by done. rewrite Hget by by apply elem_of_list_filter. rewrite Hc.
        by apply value_cell_ok.
  - intros n Hnp. unfold row_look. rewrite Hget; [by apply Hk|]. apply elem_of_list_filter. split; by apply Hs.
Qed.
Definition input_ok (d : row) : Prop := typed_row s d ∧ keyed s d.
Lemma typed_sel d ns : typed_row s d → (∀ n, n ∈ ns → n ∈ s_names s) → ∃ r, rsel ns d = Ok r.
Proof.
  intros Ht Hns. induction ns as [|n ns IH]; [by exists []|]. destruct IH as [r Hr]; [set_solver|].
  destruct (name_field s n) as (f&Hf&<-); [apply Hns; set_solver|]. destruct (Ht f Hf) as (c&Hc&_).
  exists ((f_name f, c) :: r). apply rsel_ok. constructor; [done|]. by apply rsel_ok.
Qed.
Lemma typed_tsel data ns :
  Forall (typed_row s) data → (∀ n, n ∈ ns → n ∈ s_names s) → ∃ t, tsel ns data = Ok t.
Proof.
  intros Hd Hns. induction Hd as [|d data Hd _ (t&Ht)]; [by exists []|].
  destruct (typed_sel d ns Hd Hns) as [r Hr]. exists (r :: t). apply tsel_ok. constructor; [done|by apply tsel_ok].
Qed.
(** The last part of append_write. *)
Definition append_tail (st1 : append_st) (w : path * list (list row)) (idx1 : list row) : M append_st :=
  let bytes := (as_bytes st1 + e_nbytes E idx1)%Z in
  let cached := default [] (as_cached st1) ++ idx1 in
  if (fo_row_group O <? e_nbytes E cached)%Z then
    let! w' := write_table E s w cached in
    let st2 := AppendSt (Some w') (as_recs st1) None bytes (as_man_cached st1)
                 (as_man st1) (as_rman st1) (as_log st1) (as_stats st1) in
    if (fo_file O <? bytes)%Z then finish_index_writer E s st2 w' else ret st2
  else ret (AppendSt (Some w) (as_recs st1) (Some cached) bytes (as_man_cached st1)
              (as_man st1) (as_rman st1) (as_log st1) (as_stats st1)).
Lemma append_tail_total st1 w idx1 :
  good_st st1 → good_groups w.2 → Forall (good s) idx1 → total (append_tail st1 w idx1) good_st.
Proof.
  intros [Hw Hc] Hg Hidx. unfold append_tail.
  assert (Hcach : Forall (good s) (default [] (as_cached st1) ++ idx1)).
  { apply Forall_app. split; [|done]. destruct (as_cached st1) eqn:Hca; [by apply Hc|constructor]. }
  case_match.
  - eapply total_bind; [by apply write_table_total|]. intros [p' gs'] Hg'.
    assert (Hst2 : good_st (AppendSt (Some (p', gs')) (as_recs st1) None (as_bytes st1 + e_nbytes E idx1) (as_man_cached st1)
                 (as_man st1) (as_rman st1) (as_log st1) (as_stats st1))).
    { split; cbn; [|done]. intros ? ? [= <- <-]. done. }
    case_match; [by apply finish_index_writer_total|by apply total_ret].
  - apply total_ret. split; cbn.
    + intros ? ? [= ->]. done.
    + intros ? [= <-]. done.
Qed.
Lemma append_write_total st data :
  records_last s → good_st st → Forall input_ok data → total (append_write E O s false st data) good_st.
Proof.
  intros Hrl Hst Hd. unfold append_write. destruct data as [|d0 data0]; [by apply total_ret|].
  revert Hd. generalize (d0 :: data0). clear d0 data0. intros data Hd.
  eapply total_bind; [by apply maybe_create_total|]. intros [st0 w] (Hst0&Hgw).
  assert (Htd : Forall (typed_row s) data) by (eapply Forall_impl; [exact Hd|]; by intros ? [? _]).
  destruct (typed_tsel data (index_names s) Htd) as [idx Hidx].
  { intros n [_ ?]%elem_of_list_filter. done. }
  eapply total_bind; [by apply (total_lift _ idx (fun x => x = idx))|]. intros ? ->.
  eapply (total_bind _ _ (fun '(st1, idx1) => good_st st1 ∧ Forall (good s) idx1)).
  - eapply total_bind; [apply write_record_columns_total; [done|]|].
    + intros [f fid] r Hf Hr. cbn. unfold rec_fields in Hf. apply elem_of_list_fmap in Hf as (g&[= -> ->]&Hg).
      apply elem_of_list_filter in Hg as [Hrec Hg]. eapply Forall_forall in Htd; [|exact Hr].
      destruct (Htd g Hg) as (c&Hc&Hty). rewrite decide_True in Hty by done. destruct Hty as [b ->]. eauto.
    + intros [st1 cols] (Hst1&Hn&Hcols). apply total_ret. split; [done|]. rewrite rec_fields_names in Hn.
      apply tsel_ok in Hidx. pose proof (Forall2_length _ _ _ Hidx) as Hlen.
      rewrite append_columns_rows.
      2:{ eapply Forall_impl; [exact Hcols|]. cbn. intros nc [H1 _]. lia. }
      apply Forall_lookup. intros i r Hi. rewrite list_lookup_imap in Hi. destruct (idx !! i) as [r0|] eqn:Hr0; [|done].
      cbn in Hi. injection Hi as <-. destruct (Forall2_lookup_r _ _ _ _ _ Hidx Hr0) as (d&Hdi&Hsel).
      eapply Forall_lookup_1 in Hd as [Ht Hk]; [|exact Hdi].
      apply (physical_row d); try done. eapply Forall_impl; [exact Hcols|]. intros nc [Hl Ha]. cbn in *.
      destruct (lookup_lt_is_Some_2 nc.2 i) as [x Hx]; [rewrite Hl; by eapply lookup_lt_Some|]. rewrite Hx. cbn.
      apply Ha. by eapply elem_of_list_lookup_2.
  - intros [st1 idx1] (Hst1&Hidx1). by apply append_tail_total.
Qed.
Lemma finish_records_total fs st : good_st st → total (finish_records st fs) good_st.
Proof.
  revert st. induction fs as [|[f fid] fs IH]; intros st Hst; cbn; [by apply total_ret|].
  eapply (total_bind _ _ good_st); [|intros; by apply IH]. destruct (as_recs st !! f); [|by apply total_ret].
  by apply finish_record_writer_total.
Qed.
Lemma finish_index_total st : good_st st → total (finish_index E s st) (fun _ => True).
Proof.
  intros Hst. unfold finish_index.
  eapply (total_bind _ _ (fun '(st1, ow) => good_st st1 ∧ ∀ w, ow = Some w → good_groups w.2)).
  - destruct (as_cached st) as [t|] eqn:Hc.
    + eapply total_bind; [by apply maybe_create_total|]. intros [st1 w] (Hst1&Hg).
      eapply total_bind; [apply write_table_total; [done|by apply Hst]|]. intros w' Hg'. apply total_ret.
      split; [done|]. by intros ? [= <-].
    + apply total_ret. split; [done|]. intros [p gs] Hw. by eapply Hst.
  - intros [st1 [w|]] [Hst1 Hw]; [|by apply total_ret].
    eapply total_weaken; [apply finish_index_writer_total; auto|done].
Qed.
Lemma append_finish_total st : good_st st → total (append_finish E s st) (fun _ => True).
Proof.
  intros Hst. unfold append_finish. eapply total_bind; [by apply finish_records_total|]. intros st1 Hst1.
  eapply total_bind; [by apply finish_index_total|]. intros st2 _.
  eapply (total_bind _ _ (fun _ => True)).
  { unfold finish_index_manifest. destruct (as_man_cached st2 ++ as_man st2); [by apply total_ret|].
    intros w. do 2 eexists. split; [reflexivity|done]. }
  intros im _. eapply (total_bind _ _ (fun _ => True)).
  { unfold finish_record_manifest. destruct (as_rman st2); [by apply total_ret|].
    intros w. do 2 eexists. split; [reflexivity|done]. }
  intros rm _. case_match; by apply total_ret.
Qed.
Lemma append_op_total batches :
  records_last s → Forall (Forall input_ok) batches → total (append_op E O s batches) (fun _ => True).
Proof.
  intros Hrl Hb. unfold append_op. eapply (total_bind _ _ good_st); [|intros; by apply append_finish_total].
  assert (Hinit : good_st append_init) by done. revert Hinit. generalize append_init.
  induction Hb as [|d batches Hd Hb IH]; intros st Hst; cbn; [by apply total_ret|].
  eapply total_bind; [by apply append_write_total|]. intros; by apply IH.
Qed.
End append.
