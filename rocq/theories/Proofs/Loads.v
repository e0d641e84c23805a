(** Loading external files: nothing is copied, and rows refer to the records. *)
From Verif.Model Require Import System.
From Verif.Spec Require Import Logical Loading.
From Verif.Proofs Require Import Lib World Resolve AppendSpec SchemaFacts ReadSpec Wf OpSpec Inv FileSet Ops Bodies Txn
  SysInv ReadRun Effects Observe View Keys Calls Reads Adds Frame AppendFiles.

(** * Nothing is copied *)
Lemma frame_parquet_load (K : path → Prop) E s paths :
  (∀ p, K p → ¬ commit_path p) → (∀ u, ¬ K (PGen KIdxMan u)) →
  frame (same_files K) (fun _ => True) (parquet_load_op E s paths).
Proof.
  intros HK Hm. unfold parquet_load_op. destruct (s_recs s); [|apply frame_raise; apply _].
  eapply (frame_bind _ (fun _ => True)).
  { apply frame_mapM; [apply _|]. intros p _. eapply frame_bind; [apply _|apply frame_read_index|]. intros [cols gs] _.
    by apply (frame_lift _ (fun _ => True)). }
  intros rows _. eapply (frame_bind _ (fun _ => True)).
  { unfold finish_index_manifest. destruct ([] ++ rows); [by apply (frame_ret _ (fun _ => True))|].
    eapply frame_bind; [apply _|apply frame_new|]. intros p [u ->].
    eapply frame_bind; [apply _|by apply frame_write_parquet|]. intros _ _. by apply (frame_ret _ (fun _ => True)). }
  intros im _. by apply (frame_ret _ (fun _ => True)).
Qed.

Definition no_recs (st : append_st) : Prop := as_recs st = ∅ ∧ (∀ p gs, as_writer st = Some (p, gs) → ∃ u, p = PGen KIndex u).
Section append.
Context (K : path → Prop) (HK : ∀ k u, K (PGen k u) → ∃ f, k = KRecord f).
Lemma not_K k u : (∀ f, k ≠ KRecord f) → ¬ K (PGen k u).
Proof. intros Hn Hk. destruct (HK _ _ Hk) as [f ->]. by eapply Hn. Qed.

Lemma frame_maybe_create st : no_recs st →
  frame (same_files K) (fun x => no_recs x.1 ∧ as_writer x.1 = Some x.2) (maybe_create_index_writer st).
Proof.
  intros [Hr Hw]. unfold maybe_create_index_writer. destruct (as_writer st) as [[p gs]|] eqn:Hs.
  { apply frame_ret; [apply _|]. split; [|done]. split; [done|]. cbn. rewrite Hs. done. }
  eapply frame_bind; [apply _|apply frame_new|]. intros p [u ->].
  eapply frame_bind; [apply _|by apply frame_put, not_K|]. intros _ _.
  apply frame_ret; [apply _|]. split; [|done]. split; [done|]. cbn. intros ? ? [= <- <-]. eauto.
Qed.
Lemma frame_finish_writer E s st wr : no_recs st → (∃ u, wr.1 = PGen KIndex u) →
  frame (same_files K) no_recs (finish_index_writer E s st wr).
Proof.
  intros [Hr Hw] [u Hu]. unfold finish_index_writer. destruct wr as [p gs]. cbn in Hu. subst p.
  eapply frame_bind; [apply _|by apply frame_put, not_K|]. intros _ _.
  eapply frame_bind; [apply _|by apply (frame_lift _ (fun _ => True))|]. intros m _.
  apply frame_ret; [apply _|]. split; [done|]. done.
Qed.
Lemma frame_write_table E s (wr : path * list (list row)) t :
  frame (same_files K) (fun wr' => wr'.1 = wr.1) (write_table E s wr t).
Proof.
  unfold write_table. eapply frame_bind; [apply _|by apply (frame_lift _ (fun _ => True))|]. intros _ _.
  by apply (frame_ret _ (fun wr' => wr'.1 = wr.1)).
Qed.
Lemma frame_append_write E fo s st data : no_recs st →
  frame (same_files K) no_recs (append_write E fo s true st data).
Proof.
  intros Hst. unfold append_write. destruct data as [|d data]; [apply frame_ret; [apply _|done]|]. generalize (d :: data). clear d data. intros data.
  eapply frame_bind; [apply _|by apply frame_maybe_create|]. intros [st0 wr] [[Hr0 Hw0] Hwr]. cbn in Hwr, Hr0, Hw0.
  eapply frame_bind; [apply _|by apply (frame_lift _ (fun _ => True))|]. intros idx _.
  eapply (frame_bind _ (fun x : append_st * list row => x.1 = st0)).
  { eapply frame_bind; [apply _|by apply (frame_lift _ (fun _ => True))|]. intros cols _. by apply (frame_ret _ (fun x : append_st * list row => x.1 = st0)). }
  intros [st1 idx1] Hst1. cbn in Hst1. subst st1. destruct wr as [p gs]. destruct (Hw0 _ _ Hwr) as [u ->].
  destruct (_ <? _)%Z.
  - eapply frame_bind; [apply _|apply frame_write_table|]. intros [p' gs'] Hp. cbn in Hp. subst p'.
    destruct (_ <? _)%Z.
    + apply frame_finish_writer; [|eauto]. split; [done|]. cbn. intros ? ? [= <- <-]. eauto.
    + apply frame_ret; [apply _|]. split; [done|]. cbn. intros ? ? [= <- <-]. eauto.
  - apply frame_ret; [apply _|]. split; [done|]. cbn. intros ? ? [= <- <-]. eauto.
Qed.
Lemma frame_append_finish E s st : no_recs st →
  frame (same_files K) (fun _ => True) (append_finish E s st).
Proof.
  intros Hst. unfold append_finish. eapply (frame_bind _ no_recs).
  { assert (∀ fs, frame (same_files K) no_recs (finish_records st fs)) as Hf; [|apply Hf].
    intros fs. induction fs as [|[f fid] fs IH]; cbn; [apply frame_ret; [apply _|done]|].
    destruct Hst as [Hr Hw]. rewrite Hr, lookup_empty. eapply (frame_bind _ (fun x => x = st)).
    - by apply (frame_ret _ (fun x => x = st)).
    - intros ? ->. done. }
  intros st1 Hst1. eapply (frame_bind _ (fun _ => True)).
  { unfold finish_index. eapply (frame_bind _ (fun x : append_st * option (path * list (list row)) => no_recs x.1 ∧ ∀ p gs, x.2 = Some (p, gs) → ∃ u, p = PGen KIndex u)).
    - destruct (as_cached st1).
      + eapply frame_bind; [apply _|by apply frame_maybe_create|]. intros [st0 [p gs]] [[Hr0 Hw0] Hwr]. cbn in Hwr, Hr0, Hw0.
        eapply frame_bind; [apply _|apply frame_write_table|]. intros [p' gs'] Hp. cbn in Hp. subst p'.
        apply frame_ret; [apply _|]. split; [done|]. cbn. intros ? ? [= <- <-]. by eapply Hw0.
      + apply frame_ret; [apply _|]. split; [done|]. cbn. apply Hst1.
    - intros [st2 ow] [Hst2 Hp]. destruct ow as [[p gs]|]; [|by apply (frame_ret _ (fun _ => True))].
      eapply frame_weaken; [apply frame_finish_writer; [done|by eapply Hp]|done]. }
  intros st2 _. eapply (frame_bind _ (fun _ => True)).
  { unfold finish_index_manifest. destruct (_ ++ _); [by apply (frame_ret _ (fun _ => True))|].
    eapply frame_bind; [apply _|apply frame_new|]. intros p [u ->].
    eapply frame_bind; [apply _|by apply frame_write_parquet, not_K|]. intros _ _. by apply (frame_ret _ (fun _ => True)). }
  intros im _. eapply (frame_bind _ (fun _ => True)).
  { unfold finish_record_manifest. destruct (as_rman st2); [by apply (frame_ret _ (fun _ => True))|].
    eapply frame_bind; [apply _|apply frame_new|]. intros p [u ->].
    eapply frame_bind; [apply _|by apply frame_write_parquet, not_K|]. intros _ _. by apply (frame_ret _ (fun _ => True)). }
  intros rm _. destruct (_ =? _)%Z; by apply (frame_ret _ (fun _ => True)).
Qed.
Lemma frame_array_record_load E fo s paths index_fn nbytes :
  frame (same_files K) (fun _ => True) (array_record_load_op E fo s paths index_fn nbytes).
Proof.
  unfold array_record_load_op. destruct (rec_fields s) as [|[f fid] [|]]; [apply frame_raise; apply _| |apply frame_raise; apply _].
  eapply (frame_bind _ (fun x : append_st * Z => no_recs x.1)).
  { apply frame_foldM; [apply _|done|]. intros [st total] p Hst _.
    eapply frame_bind; [apply _|apply frame_read_records|]. intros recs _.
    eapply frame_bind; [apply _|by apply frame_append_write|]. intros st' Hst'. by apply (frame_ret _ (fun x : append_st * Z => no_recs x.1)). }
  intros [st total] Hst. eapply frame_bind; [apply _|by apply frame_append_finish|]. intros p _. by apply (frame_ret _ (fun _ => True)).
Qed.
End append.

Lemma commit_not_data p : data_path p → ¬ commit_path p.
Proof. intros [(u&->)|(f&u&->)] [|(v&[|[|]])]; done. Qed.

Lemma parquet_no_copies σ hid E paths p :
  data_path p → w_fs (y_world (after σ hid (run_append_parquet E paths))) !! p = w_fs (y_world σ) !! p.
Proof.
  intros Hp. unfold after, with_handle. destruct (y_handles σ !! hid) as [h|]; [|done].
  destruct (run_append_parquet E paths (h, y_world σ)) as [[h' w'] r] eqn:He. cbn.
  assert (Hf : frame (same_files_h data_path) (fun _ => True) (run_append_parquet E paths)).
  { apply frame_transactional; [apply commit_not_data|].
    eapply frame_bind; [apply _|apply frame_get_handle|]. intros h0 _. apply frame_liftM, frame_parquet_load; [apply commit_not_data|].
    intros u [(v&Hu)|(f&v&Hu)]; done. }
  destruct (Hf _ _ _ He) as [Hs _]. by apply Hs.
Qed.
Lemma array_record_no_copies σ hid E fo paths index_fn nbytes p :
  record_file p →
  w_fs (y_world (after σ hid (run_append_array_record E fo paths index_fn nbytes))) !! p = w_fs (y_world σ) !! p.
Proof.
  intros Hp. unfold after, with_handle. destruct (y_handles σ !! hid) as [h|]; [|done].
  destruct (run_append_array_record E fo paths index_fn nbytes (h, y_world σ)) as [[h' w'] r] eqn:He. cbn.
  assert (Hf : frame (same_files_h record_file) (fun _ => True) (run_append_array_record E fo paths index_fn nbytes)).
  { apply frame_transactional; [intros ? ?; apply commit_not_data; by right|].
    eapply frame_bind; [apply _|apply frame_get_handle|]. intros h0 _. apply frame_liftM, frame_array_record_load.
    intros k u (f&v&[= -> _]). eauto. }
  destruct (Hf _ _ _ He) as [Hs _]. by apply Hs.
Qed.

(** * Rows refer to the records *)
Definition loaded_refs (s : schema) (f : string) (index_fn : string → row) (p : path) (recs : list string) : list row :=
  imap (fun i b => columns (filter (fun n => n ≠ f) (names_of (s_fields s))) (index_fn b) ++ [(f, CAddr p (Z.of_nat i))]) recs.
Lemma loaded_refs_table s f index_fn p recs :
  tappend f (address_column p 0 (length recs)) (index_row s f <$> (index_fn <$> recs)) = loaded_refs s f index_fn p recs.
Proof.
  unfold loaded_refs. apply list_eq. intros i. rewrite list_lookup_imap. unfold tappend, address_column.
  rewrite lookup_zip_with, !list_lookup_fmap. destruct (recs !! i) as [b|] eqn:Hb; cbn.
  - rewrite lookup_seq_lt by (by eapply lookup_lt_Some). done.
  - done.
Qed.
Lemma columns_fst ns r : (columns ns r).*1 = ns.
Proof. unfold columns. rewrite <-list_fmap_compose. by apply list_fmap_id. Qed.
Lemma split_table ns f t idx col :
  NoDup ns → f ∉ ns → tsel ns t = Ok idx → tcol f t = Ok col →
  (∀ r, r ∈ t → ∃ a c, r = a ++ [(f, c)] ∧ a.*1 = ns) → tappend f col idx = t.
Proof.
  intros Hnd Hf Hs%tsel_ok Hc%tcol_ok. revert col Hc. induction Hs as [|r r' t idx Hr _ IH]; intros col Hc Ht.
  { by inversion Hc. }
  inversion Hc as [|? c ? col' Hg Hc']; subst. unfold tappend. cbn. f_equal; [|apply IH; [done|]; intros; apply Ht; by right].
  destruct (Ht r) as (a&c'&->&Ha); [by left|].
  assert (c' = c) as ->.
  { rewrite rget_app, rget_none in Hg by (by rewrite Ha). cbn in Hg. rewrite decide_True in Hg by done. congruence. }
  f_equal. apply rsel_columns in Hr. subst r'. clear - Ha Hnd. subst ns.
  apply list_eq. intros i. unfold columns. rewrite !list_lookup_fmap.
  destruct (a !! i) as [[n d]|] eqn:Hi; [|done]. cbn. rewrite rget_app.
  rewrite (in_rget n d a); [done..|]. by eapply elem_of_list_lookup_2.
Qed.
Lemma filter_same {A} (P Q : A → Prop) `{∀ x, Decision (P x)} `{∀ x, Decision (Q x)} (l : list A) :
  (∀ x, x ∈ l → P x ↔ Q x) → filter P l = filter Q l.
Proof.
  induction l as [|x l IH]; [done|]. intros Hl. rewrite !filter_cons, IH by (intros; apply Hl; by right).
  pose proof (Hl x (elem_of_list_here _ _)). by repeat case_decide; try tauto.
Qed.
Lemma index_names_one s f : record_names s = [f] → index_names s = filter (fun n => n ≠ f) (names_of (s_fields s)).
Proof.
  intros Hf. unfold index_names, record_names in *. change (s_names s) with (names_of (s_fields s)) in *.
  apply filter_same. intros n Hn. split.
  - intros Hr ->. assert (f ∈ filter (fun n => n ∈ s_recs s) (names_of (s_fields s))) as Hin by (rewrite Hf; by left).
    by apply elem_of_list_filter in Hin as [? _].
  - intros Hne Hr. assert (n ∈ filter (fun n => n ∈ s_recs s) (names_of (s_fields s))) as Hin by (by apply elem_of_list_filter).
    rewrite Hf in Hin. by apply elem_of_list_singleton in Hin.
Qed.

#[local] Arguments man_rows : simpl never.
Section refs.
Context (E : env) (O : fopts) (s : schema) (f : string) (fid : Z) (fs0 : fsys).
Context (Hs : wf_schema s) (Hf : rec_fields s = [(f, fid)]).

Definition pinv (st : append_st) (rows : list row) (w : world) : Prop :=
  (∀ m, m ∈ as_man st → ∃ u, mr_path m = PGen KIndex u ∧ (u < w_next w)%N)
  ∧ (∀ p gs, as_writer st = Some (p, gs) → ∃ u, p = PGen KIndex u ∧ (u < w_next w)%N ∧ p ∉ mr_path <$> as_man st)
  ∧ man_rows (w_fs w) (as_man st) ++ writer_rows st ++ default [] (as_cached st) = rows
  ∧ as_recs st = ∅ ∧ as_man_cached st = []
  ∧ ∀ n, w_fs w !! PExt n = fs0 !! PExt n.

Lemma man_rows_put fs ms p x : p ∉ mr_path <$> ms → man_rows (<[p := x]> fs) ms = man_rows fs ms.
Proof.
  unfold man_rows. induction ms as [|m ms IH]; [done|]. rewrite fmap_cons, not_elem_of_cons. intros [Hm Hms].
  rewrite !bind_cons, IH by done. f_equal. unfold file_rows. by rewrite lookup_insert_ne.
Qed.
Lemma maybe_create_refs st rows :
  pc (pinv st rows) (maybe_create_index_writer st)
    (fun '(st', wr) w => pinv st' rows w ∧ as_writer st' = Some wr ∧ as_cached st' = as_cached st).
Proof.
  unfold maybe_create_index_writer. destruct (as_writer st) as [wr|] eqn:Hw.
  { apply pc_ret. done. }
  apply pc_new. intros u. apply pc_put, pc_ret. intros w (w1&(w0&(H1&H2&H3&H4&H5&H6)&->&->)&->).
  assert (Hn : PGen KIndex (w_next w0) ∉ mr_path <$> as_man st).
  { intros (m&Hm&Hin)%elem_of_list_fmap. destruct (H1 _ Hin) as (v&Hv&Hlt). rewrite <-Hm in Hv. injection Hv as <-. lia. }
  split; [|done]. split_and!; cbn; try done.
  - intros m Hm. destruct (H1 _ Hm) as (v&?&?). exists v. split; [done|lia].
  - intros p gs [= <- <-]. eexists. split_and!; [done|lia|done].
  - rewrite man_rows_put by done. unfold writer_rows in *. rewrite Hw in H3. done.
  - intros n. rewrite lookup_insert_ne by done. apply H6.
Qed.
Definition indexed (st : append_st) (rows : list row) (w : world) : Prop :=
  (∀ m, m ∈ as_man st → ∃ u, mr_path m = PGen KIndex u ∧ (u < w_next w)%N)
  ∧ man_rows (w_fs w) (as_man st) = rows ∧ as_man_cached st = [] ∧ ∀ n, w_fs w !! PExt n = fs0 !! PExt n.
Lemma finish_writer_indexed st p gs rows :
  pc (fun w => (∀ m, m ∈ as_man st → ∃ u, mr_path m = PGen KIndex u ∧ (u < w_next w)%N)
      ∧ (∃ u, p = PGen KIndex u ∧ (u < w_next w)%N ∧ p ∉ mr_path <$> as_man st)
      ∧ man_rows (w_fs w) (as_man st) ++ concat gs = rows ∧ as_man_cached st = [] ∧ ∀ n, w_fs w !! PExt n = fs0 !! PExt n)
    (finish_index_writer E s st (p, gs))
    (fun st' w => indexed st' rows w ∧ as_writer st' = None ∧ as_cached st' = as_cached st ∧ as_recs st' = as_recs st).
Proof.
  unfold finish_index_writer. apply pc_put, pc_lift. intros m Hm. apply pc_ret.
  intros w (w0&(H1&(u&->&Hlt&Hn)&H3&H5&H6)&->). apply manifest_row_fields in Hm as [Hp _].
  split; [|done]. split_and!; cbn; try done.
  - intros m' [?|Hm'%elem_of_list_singleton]%elem_of_app; [auto|]. subst m'. eauto.
  - rewrite man_rows_app, man_rows_put by done. rewrite <-H3. f_equal.
    rewrite man_rows_cons. unfold file_rows. rewrite Hp, lookup_insert. cbn. by rewrite app_nil_r.
  - intros n. by rewrite lookup_insert_ne.
Qed.
Lemma finish_writer_refs st wr rows :
  pc (fun w => pinv st rows w ∧ as_writer st = Some wr ∧ as_cached st = None) (finish_index_writer E s st wr)
    (fun st' w => pinv st' rows w).
Proof.
  destruct wr as [p gs]. intros w w' st' ((H1&H2&H3&H4&H5&H6)&Hw&Hc) Hrun.
  eapply (finish_writer_indexed st p gs rows) in Hrun as ((I1&I2&I3&I4)&Hw'&Hc'&Hr').
  - split_and!; try done.
    + rewrite Hw'. done.
    + unfold writer_rows. rewrite Hw', Hc', Hc. cbn. by rewrite app_nil_r.
    + by rewrite Hr'.
  - split_and!; try done; [by eapply H2|]. rewrite <-H3, Hc. unfold writer_rows. rewrite Hw. cbn. by rewrite app_nil_r.
Qed.
Lemma pc_write_table (P : world → Prop) (wr : path * list (list row)) t :
  pc P (write_table E s wr t) (fun wr' w => wr' = (wr.1, wr.2 ++ chop (e_rowgroups E t) t) ∧ P w).
Proof. unfold write_table. apply pc_lift. intros _ _. by apply pc_ret. Qed.
Lemma append_write_refs st rows data :
  (∀ r, r ∈ data → ∃ a c, r = a ++ [(f, c)] ∧ a.*1 = index_names s) →
  pc (pinv st rows) (append_write E O s true st data) (fun st' w => pinv st' (rows ++ data) w).
Proof.
  intros Hd. unfold append_write. destruct data as [|d data'] eqn:Hdata.
  { apply pc_ret. intros w. by rewrite app_nil_r. }
  rewrite <-Hdata in *. clear d data' Hdata.
  eapply pc_bind; [apply maybe_create_refs|]. intros [st0 wr]. apply pc_lift. intros idx Hidx. rewrite Hf.
  eapply (pc_bind _ _ (fun '(st1, idx1) w => st1 = st0 ∧ idx1 = data ∧ pinv st0 rows w ∧ as_writer st0 = Some wr ∧ as_cached st0 = as_cached st)).
  { apply pc_lift. intros cols Hcols. cbn in Hcols. destruct (tcol f data) as [col|] eqn:Hcol; [|done]. injection Hcols as <-.
    apply pc_ret. intros w Hw. split; [done|]. split; [|done]. cbn.
    eapply (split_table (index_names s)); try done.
    - unfold index_names. apply NoDup_filter, Hs.
    - intros Hin%elem_of_list_filter. pose proof (rec_fields_names s) as Hn. rewrite Hf in Hn. cbn in Hn.
      assert (f ∈ record_names s) as Hr by (rewrite <-Hn; by left). apply elem_of_list_filter in Hr as [Hr _]. by destruct Hin. }
  intros [st1 idx1] w w' st' (->&->&(H1&H2&H3&H4&H5&H6)&Hw&Hc).
  revert w w' st' H1 H2 H3 H6.
  assert (Hgoal : pc (fun w => (∀ m, m ∈ as_man st0 → ∃ u, mr_path m = PGen KIndex u ∧ (u < w_next w)%N)
    ∧ (∀ p gs, as_writer st0 = Some (p, gs) → ∃ u, p = PGen KIndex u ∧ (u < w_next w)%N ∧ p ∉ mr_path <$> as_man st0)
    ∧ man_rows (w_fs w) (as_man st0) ++ writer_rows st0 ++ default [] (as_cached st0) = rows
    ∧ ∀ n, w_fs w !! PExt n = fs0 !! PExt n)
   (let bytes := (as_bytes st0 + e_nbytes E data)%Z in
      let cached := default [] (as_cached st0) ++ data in
      if (fo_row_group O <? e_nbytes E cached)%Z then
        let! w' := write_table E s wr cached in
        let st2 := AppendSt (Some w') (as_recs st0) None bytes (as_man_cached st0)
                     (as_man st0) (as_rman st0) (as_log st0) (as_stats st0) in
        if (fo_file O <? bytes)%Z then finish_index_writer E s st2 w' else ret st2
      else ret (AppendSt (Some wr) (as_recs st0) (Some cached) bytes (as_man_cached st0)
                  (as_man st0) (as_rman st0) (as_log st0) (as_stats st0))) (fun st' w => pinv st' (rows ++ data) w)).
  2:{ intros w w' st' H1 H2 H3 H6 Hrun. eapply Hgoal; [|exact Hrun]. done. }
  cbv zeta. destruct (_ <? _)%Z.
  - eapply pc_bind; [apply pc_write_table|].
    intros wr'.
    set (st2 := AppendSt (Some wr') (as_recs st0) None (as_bytes st0 + e_nbytes E data)%Z (as_man_cached st0)
                     (as_man st0) (as_rman st0) (as_log st0) (as_stats st0)).
    assert (Hst2 : ∀ w, (wr' = (wr.1, wr.2 ++ chop (e_rowgroups E (default [] (as_cached st0) ++ data)) (default [] (as_cached st0) ++ data)) ∧
      (∀ m, m ∈ as_man st0 → ∃ u, mr_path m = PGen KIndex u ∧ (u < w_next w)%N)
    ∧ (∀ p gs, as_writer st0 = Some (p, gs) → ∃ u, p = PGen KIndex u ∧ (u < w_next w)%N ∧ p ∉ mr_path <$> as_man st0)
    ∧ man_rows (w_fs w) (as_man st0) ++ writer_rows st0 ++ default [] (as_cached st0) = rows
    ∧ ∀ n, w_fs w !! PExt n = fs0 !! PExt n) → pinv st2 (rows ++ data) w).
    { intros w (->&H1&H2&H3&H6). destruct wr as [p gs]. split_and!; cbn; try done.
      - intros p' gs' [= <- <-]. by eapply H2.
      - rewrite <-H3. unfold writer_rows. cbn. rewrite Hw. rewrite concat_app, concat_chop, app_nil_r. by rewrite <-!app_assoc. }
    destruct (_ <? _)%Z.
    + eapply pc_post; [|eapply pc_pre; [|apply (finish_writer_refs _ _ (rows ++ data))]].
      * done.
      * intros w Hww. split; [by apply Hst2|done].
    + apply pc_ret. exact Hst2.
  - apply pc_ret. intros w (H1&H2&H3&H6). split_and!; cbn; try done.
    + intros p' gs' [= ->]. by eapply H2.
    + rewrite <-H3. unfold writer_rows. cbn. rewrite Hw. by rewrite <-!app_assoc.
Qed.
Lemma finish_index_manifest_refs st rows :
  pc (indexed st rows) (finish_index_manifest (as_man_cached st) (as_man st))
    (fun im w => ∃ ms, man_rows (w_fs w) ms = rows ∧ (∀ m, m ∈ ms → ∃ u, mr_path m = PGen KIndex u)
        ∧ match im with Some p => ∃ u, p = PGen KIdxMan u ∧ w_fs w !! p = Some (FIdxMan ms) | None => ms = [] end).
Proof.
  intros w w' im (H1&H2&H3&H4). unfold finish_index_manifest. rewrite H3. cbn. destruct (as_man st) as [|m ms] eqn:Hms.
  - intros [= <- <-]. exists []. split_and!; [done| |done]. by intros ? ?%elem_of_nil.
  - rewrite <-Hms in *. revert w w' im H1 H2 H4.
    assert (pc (fun w => (∀ m, m ∈ as_man st → ∃ u, mr_path m = PGen KIndex u ∧ (u < w_next w)%N) ∧ man_rows (w_fs w) (as_man st) = rows)
      (let! p := new_path KIdxMan in write_parquet p (FIdxMan (as_man st)) ;; ret (Some p))
      (fun im w => ∃ ms, man_rows (w_fs w) ms = rows ∧ (∀ m, m ∈ ms → ∃ u, mr_path m = PGen KIndex u)
        ∧ match im with Some p => ∃ u, p = PGen KIdxMan u ∧ w_fs w !! p = Some (FIdxMan ms) | None => ms = [] end)) as Hpc.
    2:{ intros w w' im H1 H2 _ Hrun. eapply Hpc; [|rewrite Hms in Hrun |- *; exact Hrun]. done. }
    apply pc_new. intros u. unfold write_parquet. intros w w' im (w0&[H1 H2]&->&->) Hrun. cbn in Hrun. injection Hrun as <- <-.
    assert (Hn : PGen KIdxMan (w_next w0) ∉ mr_path <$> as_man st).
    { intros (m'&Hm&Hin)%elem_of_list_fmap. destruct (H1 _ Hin) as (v&Hv&Hlt). rewrite <-Hm in Hv. done. }
    exists (as_man st). cbn. split_and!.
    + by rewrite !man_rows_put.
    + intros m' Hm'. destruct (H1 _ Hm') as (v&?&?). eauto.
    + eexists. split; [done|]. by rewrite lookup_insert.
Qed.
Lemma finish_record_manifest_refs rman im rows :
  pc (fun w => ∃ ms, man_rows (w_fs w) ms = rows ∧ (∀ m, m ∈ ms → ∃ u, mr_path m = PGen KIndex u)
        ∧ match im with Some p => ∃ u, p = PGen KIdxMan u ∧ w_fs w !! p = Some (FIdxMan ms) | None => ms = [] end)
    (finish_record_manifest rman)
    (fun _ w => man_rows (w_fs w) (option_list im ≫= man_at (w_fs w)) = rows).
Proof.
  assert (Hend : ∀ w, (∃ ms, man_rows (w_fs w) ms = rows ∧ (∀ m, m ∈ ms → ∃ u, mr_path m = PGen KIndex u)
        ∧ match im with Some p => ∃ u, p = PGen KIdxMan u ∧ w_fs w !! p = Some (FIdxMan ms) | None => ms = [] end) →
      man_rows (w_fs w) (option_list im ≫= man_at (w_fs w)) = rows).
  { intros w (ms&H1&H2&H3). destruct im as [p|]; [|by subst ms]. destruct H3 as (u&_&Hp). cbn. rewrite app_nil_r.
    by rewrite (man_at_some _ _ _ Hp). }
  unfold finish_record_manifest. destruct rman as [|r rman]; [by apply pc_ret|].
  apply pc_new. intros u. unfold write_parquet. intros w w' rm (w0&(ms&H1&H2&H3)&->&->) Hrun. cbn in Hrun. injection Hrun as <- <-.
  apply Hend. exists ms.
  assert (Hn : PGen KRecMan (w_next w0) ∉ mr_path <$> ms).
  { intros (m'&Hm&Hin)%elem_of_list_fmap. destruct (H2 _ Hin) as (v&Hv). rewrite <-Hm in Hv. done. }
  cbn. split_and!; [by rewrite !man_rows_put|done|]. destruct im as [p|]; [|done]. destruct H3 as (v&->&Hp). exists v. split; [done|].
  by rewrite !lookup_insert_ne.
Qed.
Lemma append_finish_refs st rows :
  pc (pinv st rows) (append_finish E s st)
    (fun op w => ∀ p, op = Some p → man_rows (w_fs w) (pa_add_idx p ≫= man_at (w_fs w)) = rows).
Proof.
  unfold append_finish. eapply (pc_bind _ _ (fun st1 w => pinv st1 rows w)).
  { intros w w' st1 Hp. rewrite Hf. cbn. destruct Hp as (H1&H2&H3&H4&H5&H6) eqn:Heq. rewrite H4, lookup_empty.
    intros [= <- <-]. done. }
  intros st1. eapply (pc_bind _ _ (fun st2 w => indexed st2 rows w)).
  { unfold finish_index. eapply (pc_bind _ _ (fun '(st2, ow) w => match ow with
      | Some (p, gs) => (∀ m, m ∈ as_man st2 → ∃ u, mr_path m = PGen KIndex u ∧ (u < w_next w)%N)
        ∧ (∃ u, p = PGen KIndex u ∧ (u < w_next w)%N ∧ p ∉ mr_path <$> as_man st2)
        ∧ man_rows (w_fs w) (as_man st2) ++ concat gs = rows ∧ as_man_cached st2 = [] ∧ ∀ n, w_fs w !! PExt n = fs0 !! PExt n
      | None => indexed st2 rows w end)).
    - destruct (as_cached st1) as [t|] eqn:Hc.
      + eapply pc_bind; [apply maybe_create_refs|]. intros [st2 wr]. unfold write_table.
        intros w w' [st3 ow] ((H1&H2&H3&H4&H5&H6)&Hw&Hc2). unfold bind, lift. destruct (check_table s t); [|done].
        destruct wr as [p gs]. cbn. intros [= <- <- <-]. split_and!; try done; [by eapply H2|].
        rewrite <-H3, Hc2, Hc. unfold writer_rows. rewrite Hw. cbn. by rewrite concat_app, concat_chop.
      + apply pc_ret. intros w (H1&H2&H3&H4&H5&H6). rewrite Hc in H3. unfold writer_rows in H3. cbn in H3. rewrite app_nil_r in H3.
        destruct (as_writer st1) as [[p gs]|]; [split_and!; try done; by eapply H2|]. cbn in H3. rewrite app_nil_r in H3. done.
    - intros [st2 [[p gs]|]]; [|apply pc_ret; done].
      eapply pc_post; [|apply finish_writer_indexed]. by intros ? ? [? _]. }
  intros st2. eapply pc_bind; [apply finish_index_manifest_refs|]. intros im.
  eapply pc_bind; [apply finish_record_manifest_refs|]. intros rm. destruct (_ =? _)%Z; apply pc_ret; [done|].
  intros w Hw p [= <-]. exact Hw.
Qed.
Lemma load_refs index_fn (nbytes : string → Z) paths st total rows :
  (∀ p, p ∈ paths → path_is_ext p) →
  pc (pinv st rows)
    (foldM_st (fun '(st, total) p =>
          let! recs := read_records p in
          let t := tappend f (address_column p 0 (length recs)) (index_row s f <$> (index_fn <$> recs)) in
          let! st' := append_write E O s true st t in
          ret (st', total + Zsum (nbytes <$> recs))%Z) (st, total) paths)
    (fun '(st', _) w => pinv st' (rows ++ (paths ≫= (fun p => loaded_refs s f index_fn p (default [] (records_in fs0 p))))) w).
Proof.
  assert (Hrn : record_names s = [f]) by (rewrite <-rec_fields_names, Hf; done).
  revert st total rows. induction paths as [|p paths IH]; intros st total rows Hext.
  { apply pc_ret. intros w. cbn. by rewrite app_nil_r. }
  cbn [foldM_st]. rewrite bind_cons.
  eapply (pc_bind _ _ (fun '(st', _) w => pinv st' (rows ++ loaded_refs s f index_fn p (default [] (records_in fs0 p))) w)).
  - eapply (pc_bind _ _ (fun recs w => recs = default [] (records_in fs0 p) ∧ pinv st rows w)).
    + intros w w' recs Hp Hrun. unfold read_records, read_file, bind in Hrun.
      pose proof (Hext p (elem_of_list_here _ _)) as Hx. destruct p as [| |n]; try done.
      pose proof Hp as (_&_&_&_&_&H6). unfold records_in. rewrite <-H6.
      destruct (w_fs w !! PExt n) as [[]|]; try done. cbn in Hrun. injection Hrun as <- <-. done.
    + intros recs. apply (pc_pre _ (fun w => recs = default [] (records_in fs0 p) ∧ pinv st rows w)); [done|].
      intros w w' r [-> Hp]. cbv zeta. rewrite loaded_refs_table. revert w w' r Hp.
      eapply pc_bind; [apply append_write_refs|].
      * intros r (i&b&->&_)%elem_of_lookup_imap. do 2 eexists. split; [done|]. rewrite columns_fst. by rewrite (index_names_one s f Hrn).
      * intros st'. by apply pc_ret.
  - intros [st' total']. eapply pc_post; [|apply IH]; [|intros; apply Hext; by right].
    intros [st2 t2] w Hp. by rewrite <-app_assoc in Hp.
Qed.
Lemma array_record_load_refs index_fn nbytes paths w w' p :
  (∀ p, p ∈ paths → path_is_ext p) → fs0 = w_fs w →
  array_record_load_op E O s paths index_fn nbytes w = (w', Ok (Some p)) →
  man_rows (w_fs w') (pa_add_idx p ≫= man_at (w_fs w'))
  = paths ≫= (fun p => loaded_refs s f index_fn p (default [] (records_in fs0 p))).
Proof.
  intros Hext Hfs. unfold array_record_load_op. rewrite Hf.
  assert (Hpc : pc (pinv append_init []) (array_record_load_op E O s paths index_fn nbytes)
    (fun op w => ∀ p, op = Some p → man_rows (w_fs w) (pa_add_idx p ≫= man_at (w_fs w))
       = paths ≫= (fun p => loaded_refs s f index_fn p (default [] (records_in fs0 p))))).
  { unfold array_record_load_op. rewrite Hf. eapply pc_bind; [by apply load_refs|]. intros [st total].
    eapply pc_bind; [apply append_finish_refs|]. intros op. apply pc_ret. intros w0 Hw q Hq.
    destruct op as [p0|]; [|done]. injection Hq as <-. cbn. by apply Hw. }
  intros Hrun. eapply (Hpc w w' (Some p)); [|unfold array_record_load_op; rewrite Hf; exact Hrun|done].
  split_and!; try done; [|intros n; by rewrite Hfs]. intros m Hm. by apply elem_of_nil in Hm.
Qed.
End refs.

Lemma ref_reads s σ hid h p m sn E b :
  seen s σ hid h p m → snap_of m (h_branch h) None = Some sn →
  result σ hid (run_read_all E None None None true b)
  = Some (Ok (columns (names_of (s_fields s)) <$> phys_rows (w_fs (y_world σ)) sn)).
Proof.
  intros [Hs Hh Hwf Hst Hm _] Hsn. pose proof (si_world _ _ Hs) as Hi.
  destruct (run_read_run E None None None true b s h (y_world σ) p m Hi Hwf Hst Hm) as (r&Hr&Hout).
  rewrite result_read_all, (result_eq _ _ _ _ Hh), Hr. rewrite Hsn in Hout. cbn [man_filter] in Hout.
  destruct (Hout (fun _ H => H)) as (ts&rows&->&_&Hts). cbn. do 2 f_equal. apply tsel_columns in Hts. rewrite Hts.
  cbn [filter_rows]. by rewrite picked_rows_none.
Qed.
Lemma array_record_refers σ hid s f E E' fo paths index_fn nbytes st before b :
  reachable σ → schema_at σ hid = Some s → record_names s = [f] → (∀ p, p ∈ paths → path_is_ext p) →
  result σ hid (run_read_all E' None None None true b) = Some (Ok before) →
  result σ hid (run_append_array_record E fo paths index_fn nbytes) = Some (Ok (JSucceeded st)) →
  result (after σ hid (run_append_array_record E fo paths index_fn nbytes)) hid (run_read_all E' None None None true b)
  = Some (Ok (before ++ (paths ≫= (fun p => addressed s f index_fn p (default [] (records_in (w_fs (y_world σ)) p)))))).
Proof.
  intros Hr Hsch Hf Hext Hb Hres.
  destruct (op_succeeded σ hid E fo (OArrayRecord paths index_fn nbytes) st Hr) as (s'&h&p&m&h'&base&sn&pa&w1&q&H1&H2&_&Hd);
    [by intros ??|done|].
  assert (s' = s) as -> by (rewrite (sn_schema _ _ _ _ _ _ H1) in Hsch; congruence).
  change (run_append_array_record E fo paths index_fn nbytes) with (run_op E fo (OArrayRecord paths index_fn nbytes)).
  set (σ' := after σ hid _) in *.
  pose proof (od_base _ _ _ _ _ _ _ _ _ _ _ _ _ Hd) as Hbase.
  rewrite (ref_reads _ _ _ _ _ _ _ E' b H1 Hbase) in Hb. injection Hb as <-.
  assert (Hsn : snap_of (with_snap m (h_branch h) sn) (h_branch h') None = Some sn).
  { rewrite (od_branch _ _ _ _ _ _ _ _ _ _ _ _ _ Hd). apply snap_of_with_snap. }
  rewrite (ref_reads _ _ _ _ _ _ _ E' b H2 Hsn). do 2 f_equal.
  destruct (rec_fields s) as [|[f' fid] [|]] eqn:Hrf.
  1,3: pose proof (rec_fields_names s) as Hn; rewrite Hrf, Hf in Hn; cbn in Hn; congruence.
  assert (f' = f) as ->.
  { pose proof (rec_fields_names s) as Hn. rewrite Hrf, Hf in Hn. cbn in Hn. congruence. }
  destruct (od_run _ _ _ _ _ _ _ _ _ _ _ _ _ Hd) as (fo'&h0&Hm0&Hrun). cbn [op_body] in Hrun. rewrite get_handle_bind, Hm0 in Hrun.
  rewrite (wm_schema _ _ _ (sn_meta _ _ _ _ _ _ H1)) in Hrun.
  destruct (array_record_load_op E fo' s paths index_fn nbytes (y_world σ)) as [w2 r2] eqn:Hload.
  rewrite (liftM_run _ h0 _ _ _ Hload) in Hrun. injection Hrun as -> ->.
  apply (array_record_load_refs E fo' s f fid (w_fs (y_world σ)) (seen_schema _ _ _ _ _ _ H1) Hrf) in Hload; [|done..].
  assert (Hdel : pa_del_idx pa = []).
  { destruct (od_body _ _ _ _ _ _ _ _ _ _ _ _ _ Hd) as (h1&_&_&Hout&_).
    destruct Hout as (f1&fid1&rows&Hf1&_&_&p0&total&Hadds&->).
    destruct (patch_adds_rows s _ _ _ _ (seen_schema _ _ _ _ _ _ H1) Hadds) as (_&_&?&_). done. }
  pose proof (od_wf_base _ _ _ _ _ _ _ _ _ _ _ _ _ Hd) as Hwb.
  pose proof (od_patch _ _ _ _ _ _ _ _ _ _ _ _ _ Hd) as Hwp.
  pose proof (od_keeps1 _ _ _ _ _ _ _ _ _ _ _ _ _ Hd) as Hk1. pose proof (od_keeps2 _ _ _ _ _ _ _ _ _ _ _ _ _ Hd) as Hk2.
  destruct (next_idx _ _ _ _ _ _ (proj1 Hwb) (od_next _ _ _ _ _ _ _ _ _ _ _ _ _ Hd)) as (Hidx&_&_).
  rewrite Hdel, filter_notin_nil in Hidx. unfold phys_rows, snap_mrows. rewrite Hidx, bind_app, man_rows_app, fmap_app.
  f_equal.
  - assert (keeps (w_fs (y_world σ)) (w_fs (y_world σ'))) as Hk by (intros ??; auto).
    rewrite (bind_man_keeps s (w_fs (y_world σ))) by (try done; apply Hwb). f_equal.
    apply (man_rows_keeps s); [done|]. apply snap_mrows_wf, Hwb.
  - rewrite (bind_man_keeps s (w_fs w1)) by (try done; apply Hwp).
    rewrite (man_rows_keeps s (w_fs w1)) by (try done; apply snap_mrows_wf, Hwp). rewrite Hload. clear.
    induction paths as [|p paths IH]; [done|]. rewrite !bind_cons, fmap_app, IH. f_equal.
    unfold loaded_refs, addressed. rewrite fmap_imap. done.
Qed.
