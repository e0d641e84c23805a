(** The operations that only add rows, in terms of shown rows. *)
From Verif.Model Require Import System.
From Verif.Spec Require Import Logical Api Layout Keys.
From Verif.Proofs Require Import Lib World Resolve AppendSpec SchemaFacts ReadSpec Wf OpSpec Inv FileSet Ops Bodies Txn
  SysInv ReadRun Effects Observe View Keys Calls Reads.

Lemma append_shows σ hid s E fo batches st before :
  reachable σ → schema_at σ hid = Some s → reads σ hid None before →
  result σ hid (run_append E fo batches) = Some (Ok (JSucceeded st)) →
  reads (after σ hid (run_append E fo batches)) hid None (before ++ (show s <$> concat batches)).
Proof.
  intros Hr Hsch Hb Hres. destruct (append_adds_input σ hid s E fo batches st before Hr Hsch Hb Hres) as (input&Hin&Hrd).
  apply tsel_columns in Hin as ->. done.
Qed.
Lemma parquet_shows σ hid s E paths st before :
  reachable σ → schema_at σ hid = Some s →
  (∀ p, p ∈ paths → external_ok s (w_fs (y_world σ)) p) → reads σ hid None before →
  result σ hid (run_append_parquet E paths) = Some (Ok (JSucceeded st)) →
  reads (after σ hid (run_append_parquet E paths)) hid None
    (before ++ (show s <$> (paths ≫= file_table (w_fs (y_world σ))))).
Proof.
  intros Hr Hsch Hext Hb Hres.
  destruct (parquet_adds_files σ hid s E (FOpts 0 0 0) paths st before Hr Hsch Hext Hb Hres) as (input&Hin&Hrd).
  apply tsel_columns in Hin as ->. done.
Qed.
(** Rows loaded from the records of external files. *)
Lemma loaded_rows_spec s f index_fn recs :
  loaded_rows s f index_fn recs
  = (fun b => columns (filter (fun n => n ≠ f) (names_of (s_fields s))) (index_fn b) ++ [(f, CVal (SStr b))]) <$> recs.
Proof.
  unfold loaded_rows. induction recs as [|b recs IH]; [done|].
  rewrite !fmap_cons. unfold tappend in *. cbn [zip zip_with map]. rewrite <-IH. done.
Qed.
Lemma array_record_shows σ hid s f E fo paths index_fn nbytes st before :
  reachable σ → schema_at σ hid = Some s → record_names s = [f] →
  (∀ p, p ∈ paths → path_is_ext p) → reads σ hid None before →
  result σ hid (run_append_array_record E fo paths index_fn nbytes) = Some (Ok (JSucceeded st)) →
  reads (after σ hid (run_append_array_record E fo paths index_fn nbytes)) hid None
    (before ++ (show s <$> ((fun b => columns (filter (fun n => n ≠ f) (names_of (s_fields s))) (index_fn b)
                                       ++ [(f, CVal (SStr b))])
                            <$> (paths ≫= (fun p => default [] (records_in (w_fs (y_world σ)) p)))))).
Proof.
  intros Hr Hsch Hf Hext Hb Hres.
  destruct (op_before σ hid s E fo (OArrayRecord paths index_fn nbytes) st before Hr)
    as (h&p&m&h'&base&sn&pa&w1&q&H1&H2&Hd&Hold&Hlay&Hrd); [by intros ??|done..|].
  destruct (array_record_effect E s paths index_fn nbytes _ _ _ _ _ _ _ _ before (seen_schema _ _ _ _ _ _ H1) Hd Hold)
    as (f'&fid&input&Hf'&_&Hin&Hnew).
  assert (f' = f) as ->.
  { pose proof (rec_fields_names s) as Hn. rewrite Hf', Hf in Hn. cbn in Hn. congruence. }
  apply tsel_columns in Hin as ->. apply Hrd.
  replace (_ <$> (paths ≫= _)) with (paths ≫= (fun q => loaded_rows s f index_fn (recs_at (w_fs (y_world σ)) q))); [done|].
  clear. induction paths as [|q paths IH]; [done|]. rewrite !bind_cons, fmap_app, IH, loaded_rows_spec. done.
Qed.

(** * Mutations *)
Lemma insert_shows σ hid s E fo data st before :
  reachable σ → schema_at σ hid = Some s → plain_keys s → reads σ hid None before →
  proper_keys (s_pks s) before → key_nonnull (s_pks s) data →
  result σ hid (run_insert E fo MInsert data) = Some (Ok (JSucceeded st)) →
  unique_keys (s_pks s) data
  ∧ (∀ y d, y ∈ before → d ∈ data → key_of (s_pks s) y ≠ key_of (s_pks s) d)
  ∧ reads (after σ hid (run_insert E fo MInsert data)) hid None (before ++ (show s <$> data)).
Proof.
  intros Hr Hsch Hpl Hb Hp Hnn Hres.
  destruct (insert_adds σ hid s E fo data st before Hr Hsch Hpl Hb Hp Hnn Hres) as (input&Hin&Hrd&Hu&Hno).
  apply tsel_columns in Hin as ->. done.
Qed.
Lemma upsert_shows σ hid s E fo data st before :
  reachable σ → schema_at σ hid = Some s → plain_keys s → reads σ hid None before →
  proper_keys (s_pks s) before → key_nonnull (s_pks s) data →
  result σ hid (run_insert E fo MUpsert data) = Some (Ok (JSucceeded st)) →
  ∃ kept lost, reads (after σ hid (run_insert E fo MUpsert data)) hid None (kept ++ (show s <$> data))
    ∧ filter (fun y => key_of (s_pks s) y ∉ key_of (s_pks s) <$> data) before ≡ₚ kept ++ lost
    ∧ (lost = [] ↔ lossless (layout σ hid) (fun r => key_of (s_pks s) r ∈ key_of (s_pks s) <$> data)).
Proof.
  intros Hr Hsch Hpl Hb Hp Hnn Hres.
  destruct (upsert_replaces σ hid s E fo data st before Hr Hsch Hpl Hb Hp Hnn Hres) as (input&rows&lost&Hin&Hrd&Hu&Hperm&Hl).
  apply tsel_columns in Hin as ->. eauto.
Qed.

(** * What a successful call does to the stored metadata *)
Lemma head_id_head m b : head_id m b = head_of m b.
Proof. done. Qed.
Lemma success_metadata σ hid E fo o st :
  reachable σ → env_ok σ (CRun hid E fo o) →
  result σ hid (run_op E fo o) = Some (Ok (JSucceeded st)) →
  ∃ h m m' base sn,
    y_handles σ !! hid = Some h
    ∧ stored_meta (w_fs (y_world σ)) = Some m
    ∧ stored_meta (w_fs (y_world (after σ hid (run_op E fo o)))) = Some m'
    ∧ head_snapshot m (h_branch h) = Some base
    ∧ sn_parent sn = Some (sn_id base)
    ∧ (∀ b i, head_id m b = Some i → (i < sn_id sn)%Z)
    ∧ md_snaps m' = <[sn_id sn := sn]> (md_snaps m)
    ∧ head_id m' (h_branch h) = Some (sn_id sn)
    ∧ (∀ b, b ≠ h_branch h → head_id m' b = head_id m b)
    ∧ md_schema m' = md_schema m.
Proof.
  intros Hr Hok Hres. destruct (op_succeeded σ hid E fo o st Hr Hok Hres) as (s&h&p&m&h'&base&sn&pa&w1&q&H1&H2&_&Hd).
  exists h, m, (with_snap m (h_branch h) sn), base, sn.
  split_and!.
  - apply H1.
  - apply (stored_meta_eq _ p), H1.
  - apply (stored_meta_eq _ q), H2.
  - exact (od_base _ _ _ _ _ _ _ _ _ _ _ _ _ Hd).
  - by destruct (od_next _ _ _ _ _ _ _ _ _ _ _ _ _ Hd) as (_&?&_).
  - intros b i Hi. destruct (od_body _ _ _ _ _ _ _ _ _ _ _ _ _ Hd) as (h0&_&_&_&Hmax&->).
    pose proof (head_of_max _ _ _ Hi). lia.
  - done.
  - apply head_with_snap.
  - intros b Hb. unfold head_id, with_snap. cbn. destruct (decide (h_branch h = MAIN)) as [Hm|Hm].
    + rewrite !decide_False by congruence. done.
    + case_decide; [done|]. rewrite lookup_insert_ne by done. done.
  - done.
Qed.
Lemma new_id_largest σ hid E fo o st :
  reachable σ → env_ok σ (CRun hid E fo o) →
  result σ hid (run_op E fo o) = Some (Ok (JSucceeded st)) →
  ∃ h m m' sn j,
    y_handles σ !! hid = Some h
    ∧ stored_meta (w_fs (y_world σ)) = Some m
    ∧ stored_meta (w_fs (y_world (after σ hid (run_op E fo o)))) = Some m'
    ∧ head_snapshot m' (h_branch h) = Some sn
    ∧ sn_parent sn = Some j ∧ (j < sn_id sn)%Z
    ∧ (∀ b i, head_id m b = Some i → (i < sn_id sn)%Z).
Proof.
  intros Hr Hok Hres. destruct (success_metadata σ hid E fo o st Hr Hok Hres) as (h&m&m'&base&sn&Hh&Hm&Hm'&Hb&Hp&Hlt&Hs&Hh'&_).
  exists h, m, m', sn, (sn_id base). split_and!; try done.
  - unfold head_snapshot. rewrite Hh'. cbn. rewrite Hs. apply lookup_insert.
  - unfold head_snapshot in Hb. destruct (head_id m (h_branch h)) as [i|] eqn:Hi; [|done]. cbn in Hb.
    destruct (reachable_seen _ _ _ Hr Hh) as (s&p&mm&Hseen).
    pose proof (stored_meta_eq _ _ _ (sn_stored _ _ _ _ _ _ Hseen)) as Heq. rewrite Hm in Heq. injection Heq as <-.
    destruct (wm_snaps _ _ _ (sn_meta _ _ _ _ _ _ Hseen) _ _ Hb) as [-> _]. by eapply Hlt.
Qed.
