(** Replaying a diff, and row counts. *)
From Verif.Model Require Import System.
From Verif.Spec Require Import Logical Pruning Keys Layout Changes Orderly Uniqueness.
From Verif.Proofs Require Import Lib World Resolve AppendSpec SchemaFacts ReadSpec Wf OpSpec
  Inv FileSet Ops Bodies Txn SysInv ReadRun Effects Observe View Prune Keys DeleteEffect Mutations Calls Durable Evolve History Serial Diff
  Orderly Edge Unique.


(** * One step *)
Lemma replay_app pks rows a b : apply_changes pks rows (a ++ b) = apply_changes pks (apply_changes pks rows a) b.
Proof. apply foldl_app. Qed.
Lemma replay_deletes pks k rows dels :
  apply_changes pks rows (Change k ChDelete <$> dels) = filter (fun r => key_of pks r ∉ key_of pks <$> concat dels) rows.
Proof.
  revert rows. induction dels as [|d dels IH]; intros rows.
  - cbn. symmetry. apply filter_every. intros r _. apply not_elem_of_nil.
  - unfold apply_changes in *. rewrite fmap_cons. cbn [foldl]. rewrite IH. unfold apply_change. cbn [ch_type ch_data].
    rewrite list_filter_filter. apply filter_ext_in. intros r _. cbn [concat]. rewrite fmap_app, elem_of_app. tauto.
Qed.
Lemma replay_adds pks k rows adds : apply_changes pks rows (Change k ChAdd <$> adds) = rows ++ concat adds.
Proof.
  revert rows. induction adds as [|d adds IH]; intros rows; [by rewrite app_nil_r|].
  unfold apply_changes in *. rewrite fmap_cons. cbn [foldl]. rewrite IH. unfold apply_change. cbn. by rewrite <-app_assoc.
Qed.
Lemma sel_keys pks A B (l d y : list row) :
  (∀ n, n ∈ pks → n ∈ A) → (∀ n, n ∈ pks → n ∈ B) → tsel A l = Ok d → tsel B l = Ok y →
  key_of pks <$> d = key_of pks <$> y.
Proof.
  intros HA HB. revert d y. induction l as [|r l IH]; intros d y Hd Hy; cbn in Hd, Hy.
  - injection Hd as <-. by injection Hy as <-.
  - destruct (rsel A r) as [d1|] eqn:H1; [|done]. destruct (rsel B r) as [y1|] eqn:H2; [|done]. cbn in Hd, Hy.
    destruct (rmapM (rsel A) l) as [ds|] eqn:H3; [|done]. destruct (rmapM (rsel B) l) as [ys|] eqn:H4; [|done].
    cbn in Hd, Hy. injection Hd as <-. injection Hy as <-. rewrite !fmap_cons. f_equal; [|by apply IH].
    unfold key_of. apply map_ext_in. intros n Hn%elem_of_list_In. unfold row_look.
    by rewrite (rsel_look _ _ _ n H1), (rsel_look _ _ _ n H2) by auto.
Qed.
Lemma unique_filter pks (old kept del : list row) :
  unique_keys pks old → old ≡ₚ kept ++ del →
  filter (fun r => key_of pks r ∉ key_of pks <$> del) old ≡ₚ kept.
Proof.
  intros Hu Hp. unfold unique_keys in Hu. rewrite Hp in Hu. rewrite fmap_app in Hu. apply NoDup_app in Hu as (_&Hd&_).
  rewrite Hp, filter_app. rewrite (filter_every _ kept), (filter_none _ del), app_nil_r; [done| |].
  - intros r Hr Hn. apply Hn. by apply elem_of_list_fmap_1.
  - intros r Hr. apply Hd. by apply elem_of_list_fmap_1.
Qed.
Lemma replay_one E s h w i sn batch base careful old new rows cs :
  winv s w → wf_meta s (w_fs w) (h_meta h) → md_snaps (h_meta h) !! i = Some sn →
  edge s (w_fs w) base sn careful → snap_rows s (w_fs w) base old → snap_rows s (w_fs w) sn new →
  st_rows (sn_stats base) = Z.of_nat (length old) → st_rows (sn_stats sn) = Z.of_nat (length new) →
  unique_keys (s_pks s) old → rows ≡ₚ old →
  (read_changes E h i batch w).2 = Ok cs → apply_changes (s_pks s) rows cs ≡ₚ new.
Proof.
  intros Hi Hm Hsn He Hold Hnew Hbo Hbn Hu Hr Hcs. pose proof (wi_schema _ _ Hi) as Hs.
  destruct (edge_exact _ _ _ _ _ _ _ He Hold Hnew Hbo Hbn) as (kept&del&add&Hp&Hpn&Hlog).
  pose proof (read_changes_run E s h w i sn batch Hi Hm Hsn) as Hrun. destruct (sn_log sn) as [lp|]; [|by rewrite Hrun in Hcs].
  destruct Hlog as (c&Hc&Hd&Ha). destruct Hrun as (c'&dels&adds&ldel&ladd&Hc'&Hrun&Hld&Hla&Hsd&Hsa).
  rewrite Hc in Hc'. injection Hc' as <-. rewrite Hrun in Hcs. injection Hcs as <-.
  apply shows_iff in Hd as (l1&Hl1&Hd). rewrite Hld in Hl1. injection Hl1 as <-.
  apply shows_iff in Ha as (l2&Hl2&Ha). rewrite Hla in Hl2. injection Hl2 as <-.
  rewrite Hsa in Ha. injection Ha as <-. rewrite replay_app, replay_adds, replay_deletes.
  rewrite (sel_keys (s_pks s) _ _ _ _ _ ltac:(intros n Hn; by apply elem_of_read_order) ltac:(intros n Hn; apply out_names_in; by apply Hs) Hsd Hd).
  rewrite Hpn. f_equiv. rewrite Hr. by apply unique_filter.
Qed.

(** * Paths *)
Fixpoint steps (m : metadata) (i : Z) (l : list Z) : Prop :=
  match l with [] => True | k :: l' => (∃ sn, md_snaps m !! k = Some sn ∧ sn_parent sn = Some i) ∧ steps m k l' end.
Lemma path_steps_gen s fs m j above : wf_meta s fs m → ∀ i below, chain m j (above ++ i :: below) →
  steps m i (reverse above) ∧ default i (last (reverse above)) = j.
Proof.
  intros Hm. induction above as [|k above IH] using rev_ind; intros i below Hc.
  - split; [done|]. cbn in *. inversion Hc; subst; done.
  - rewrite <-app_assoc in Hc. cbn in Hc. destruct (IH k (i :: below) Hc) as [Hst Hl]. rewrite reverse_app. cbn.
    split.
    + split; [|done]. assert (chain m k (k :: i :: below)) as Hck.
      { clear -Hm Hc. revert j Hc. induction above as [|x above IH]; intros j Hc.
        - cbn in Hc. inversion Hc; subst; done.
        - cbn in Hc. inversion Hc as [? ? ? ? Heq|? sn q l Hi Hp Hc']; subst; [by destruct above|]. by eapply IH. }
      inversion Hck as [|? sn q l Hi Hp Hc' Heq]; subst. exists sn. split; [done|]. rewrite Hp. f_equal. inversion Hc'; subst; done.
    + rewrite last_cons. destruct (last (reverse above)) eqn:Hlast; cbn in *; done.
Qed.
Lemma path_steps s fs m i j l : wf_meta s fs m → path_to m i j l → steps m i l ∧ default i (last l) = j.
Proof. intros Hm (a&b&Hc&_&->). by eapply path_steps_gen. Qed.
Lemma all_ok_cons {A} (r : res A) rs xs : all_ok (r :: rs) = Ok xs → ∃ x xs', r = Ok x ∧ all_ok rs = Ok xs' ∧ xs = x :: xs'.
Proof. cbn. destruct r as [x|]; [|done]. destruct (all_ok rs) as [xs'|]; [|done]. intros [= <-]. eauto. Qed.
Lemma replay_steps E s h w batch careful m : winv s w → wf_meta s (w_fs w) m → h_meta h = m → edges careful s (w_fs w) m →
  ∀ l i sni rows old css,
  (∀ k sn rows, k ∈ i :: l → md_snaps m !! k = Some sn → snap_rows s (w_fs w) sn rows →
     unique_keys (s_pks s) rows ∧ st_rows (sn_stats sn) = Z.of_nat (length rows)) →
  steps m i l → md_snaps m !! i = Some sni → snap_rows s (w_fs w) sni old → rows ≡ₚ old →
  all_ok ((fun k => (read_changes E h k batch w).2) <$> l) = Ok css →
  ∃ snj new, md_snaps m !! default i (last l) = Some snj ∧ snap_rows s (w_fs w) snj new
    ∧ apply_changes (s_pks s) rows (concat css) ≡ₚ new.
Proof.
  intros Hi Hm Hh He l. induction l as [|k l IH]; intros i sni rows old css Hall Hst Hsn Hold Hr Hcss.
  - injection Hcss as <-. exists sni, old. split_and!; done.
  - destruct Hst as [(sn&Hk&Hpar) Hst]. rewrite fmap_cons in Hcss.
    apply all_ok_cons in Hcss as (cs&css'&Hcs&Hcss&->).
    destruct (wm_snaps _ _ _ Hm k sn Hk) as (_&Hwk&_). destruct (snap_rows_some s _ sn Hwk) as [new Hnew].
    pose proof (He k sn Hk) as Hedge. rewrite Hpar in Hedge. destruct Hedge as (base&Hb&Hedge).
    rewrite Hsn in Hb. injection Hb as <-.
    destruct (Hall i sni old) as [Hu Hco]; [by left|done|done|].
    destruct (Hall k sn new) as [_ Hcn]; [right; by left|done|done|].
    destruct (IH k sn (apply_changes (s_pks s) rows cs) new css') as (snj&newj&Hj&Hnj&Hrep); try done.
    + intros k' sn' rows' Hin. apply Hall. by right.
    + eapply (replay_one E s h w k sn batch sni careful old new rows cs); try done; by rewrite Hh.
    + exists snj, newj. split_and!; [|done|].
      * rewrite last_cons. destruct (last l); done.
      * cbn [concat]. by rewrite replay_app.
Qed.
Lemma schema_seen σ hid h s : reachable σ → y_handles σ !! hid = Some h → schema_at σ hid = Some s →
  ∃ p m, seen s σ hid h p m ∧ stored_meta (w_fs (y_world σ)) = Some m.
Proof.
  intros Hr Hh Hsch. destruct (reachable_seen σ hid h Hr Hh) as (s'&q&m&Hseen). exists q, m.
  assert (s' = s) as ->.
  { pose proof (sn_schema _ _ _ _ _ _ Hseen) as H'. congruence. }
  split; [done|]. by eapply stored_meta_eq, sn_stored.
Qed.
Lemma replay_edges σ hid h s m E a b batch i j l cs rows_a rows_b :
  reachable σ → edges False s (w_fs (y_world σ)) m →
  y_handles σ !! hid = Some h → schema_at σ hid = Some s → stored_meta (w_fs (y_world σ)) = Some m →
  named m a = Some i → named m b = Some j → path_to m i j l →
  (∀ k sn rows, k ∈ i :: l → md_snaps m !! k = Some sn → reads σ hid (Some (VId k)) rows →
     unique_keys (s_pks s) rows ∧ st_rows (sn_stats sn) = Z.of_nat (length rows)) →
  result σ hid (run_diff E a b batch) = Some (Ok cs) →
  reads σ hid (Some (VId i)) rows_a → reads σ hid (Some (VId j)) rows_b →
  apply_changes (s_pks s) rows_a cs ≡ₚ rows_b.
Proof.
  intros Hr He Hh Hsch Hm Ha Hb Hp Hall Hd Hra Hrb.
  destruct (schema_seen σ hid h s Hr Hh Hsch) as (p&m'&Hseen&Hm'). rewrite Hm in Hm'. injection Hm' as <-.
  pose proof (sn_meta _ _ _ _ _ _ Hseen) as Hwm. destruct (path_steps _ _ _ _ _ _ Hwm Hp) as [Hst Hl].
  rewrite (diff_path _ _ _ _ _ _ _ _ _ _ _ _ _ Hseen Ha Hb Hp) in Hd. injection Hd as Hd.
  destruct (all_ok (changes_of σ E h p m batch <$> l)) as [css|] eqn:Hcss; [|done]. injection Hd as <-.
  apply (reads_iff _ _ _ _ _ _ _ _ Hseen) in Hra as (sni&Hi&Hra).
  apply (reads_iff _ _ _ _ _ _ _ _ Hseen) in Hrb as (snj'&Hj'&Hrb).
  change (md_snaps m !! i = Some sni) in Hi. change (md_snaps m !! j = Some snj') in Hj'.
  destruct (replay_steps E s (sync p m h) (y_world σ) batch False m (si_world _ _ (sn_inv _ _ _ _ _ _ Hseen)) Hwm
    (sync_meta_wf _ _ _ _ _ _ Hseen) He l i sni rows_a rows_a css) as (snj&new&Hj&Hn&Hrep); try done.
  - intros k sn rows Hk Hsn Hrows. apply (Hall k sn rows Hk Hsn). apply (reads_iff _ _ _ _ _ _ _ _ Hseen). by exists sn.
  - rewrite Hl, Hj' in Hj. injection Hj as <-. by rewrite (snap_rows_fun _ _ _ _ _ Hrb Hn).
Qed.

(** * Counts *)
Lemma count_seen (P : schema → fsys → snapshot → op → Prop) (careful : Prop) σ hid h m i sn rows :
  (∀ s fs sn o, careful → P s fs sn o → careful_op s fs sn o) → (∀ s fs sn o, P s fs sn o → separate_op s fs sn o) →
  undisturbed P init σ → y_handles σ !! hid = Some h → stored_meta (w_fs (y_world σ)) = Some m → md_snaps m !! i = Some sn →
  reads σ hid (Some (VId i)) rows →
  (Z.of_nat (length rows) ≤ st_rows (sn_stats sn))%Z ∧ (careful → st_rows (sn_stats sn) = Z.of_nat (length rows)).
Proof.
  intros HP HQ Ho Hh Hm Hi Hrd. pose proof (undisturbed_reachable _ _ Ho) as Hr.
  destruct (reachable_seen σ hid h Hr Hh) as (s&p&m'&Hseen).
  pose proof (stored_meta_eq _ _ _ (sn_stored _ _ _ _ _ _ Hseen)) as Heq. rewrite Hm in Heq. injection Heq as <-.
  apply (reads_iff _ _ _ _ _ _ _ _ Hseen) in Hrd as (sn'&Hi'&Hrd). change (md_snaps m !! i = Some sn') in Hi'.
  rewrite Hi in Hi'. injection Hi' as <-.
  refine (undisturbed_snap P (fun s fs sn => ∀ rows, snap_rows s fs sn rows →
    (Z.of_nat (length rows) ≤ st_rows (sn_stats sn))%Z ∧ (careful → st_rows (sn_stats sn) = Z.of_nat (length rows)))
    _ _ _ s σ m i sn Ho (sn_inv _ _ _ _ _ _ Hseen) _ Hi rows Hrd).
  - intros s0 fs fs' sn0 Hw Hk Hd rows' Hrows'. destruct (snap_rows_some _ _ _ Hw) as [rows0 Hrows0].
    rewrite (snap_rows_fun _ _ _ _ _ Hrows' (snap_rows_keeps _ _ _ _ _ Hk Hw Hrows0)). by apply Hd.
  - intros s0 fs t rows0 (l&Hl&Hsel). cbn in Hl. injection Hl as <-. by injection Hsel as <-.
  - intros E s0 o b m1 w w' base sn0 p0 w1 Hop Hs Hb Hok Heff Hd rows1 Hrows1.
    pose proof (oe_wf_base _ _ _ _ _ _ _ _ _ _ _ Heff) as Hwb. destruct (snap_rows_some _ _ _ Hwb) as [old Hold].
    assert (Hsw : splits_well s0 (snap_layout (w_fs w) base) old o) by (apply separate_splits; try done; by apply HQ).
    destruct (op_edge E s0 o b m1 w w' base sn0 p0 w1 old Hs Hb Hok Heff Hold Hsw) as (kept&del&lost&add&Hp&Hnew&_&_&Hst&Hc).
    pose proof Heff as [_ _ _ _ _ (k&t&(_&_&_&_&Hstats&_)) Hk1 Hk2]. pose proof (keeps_trans _ _ _ Hk1 Hk2) as Hk.
    destruct (Hd old (snap_rows_keeps _ _ _ _ _ Hk Hwb Hold)) as [Hle Heq].
    rewrite (snap_rows_fun _ _ _ _ _ Hrows1 Hnew), Hstats. cbn. rewrite Hst.
    apply Permutation_length in Hp. rewrite !app_length in *. split; [lia|].
    intros Hcf. rewrite (Heq Hcf), Hc in * by (apply careful_keeps; try done; by eapply HP). cbn in Hp. lia.
  - exists p. apply Hseen.
Qed.
Lemma count_at_least σ hid h m i sn rows :
  undisturbed separate_op init σ → y_handles σ !! hid = Some h → stored_meta (w_fs (y_world σ)) = Some m → md_snaps m !! i = Some sn →
  reads σ hid (Some (VId i)) rows → (Z.of_nat (length rows) ≤ st_rows (sn_stats sn))%Z.
Proof. intros. by eapply (count_seen separate_op False). Qed.
Lemma count_exact σ hid h m i sn rows :
  undisturbed careful_op init σ → y_handles σ !! hid = Some h → stored_meta (w_fs (y_world σ)) = Some m → md_snaps m !! i = Some sn →
  reads σ hid (Some (VId i)) rows → st_rows (sn_stats sn) = Z.of_nat (length rows).
Proof. intros. eapply (count_seen careful_op True); try done. by intros; apply careful_separate. Qed.
Lemma replay_keyed σ hid h s m E a b batch i j l cs rows_a rows_b :
  orderly (fun s fs sn o => keyed_op s fs sn o ∧ careful_op s fs sn o) init σ →
  y_handles σ !! hid = Some h → schema_at σ hid = Some s → plain_keys s → stored_meta (w_fs (y_world σ)) = Some m →
  named m a = Some i → named m b = Some j → path_to m i j l →
  result σ hid (run_diff E a b batch) = Some (Ok cs) →
  reads σ hid (Some (VId i)) rows_a → reads σ hid (Some (VId j)) rows_b →
  apply_changes (s_pks s) rows_a cs ≡ₚ rows_b.
Proof.
  intros Ho Hh Hs Hpl Hm Ha Hb Hp Hd Hra Hrb. eapply (replay_edges σ hid h s m E a b batch i j l); try done.
  - by eapply orderly_reachable.
  - destruct (schema_seen σ hid h s (orderly_reachable _ _ Ho) Hh Hs) as (p&m'&Hseen&Hm'). rewrite Hm in Hm'. injection Hm' as <-.
    eapply (edges_history separate_op False); [done|done| |apply Hseen|exists p; apply Hseen].
    eapply orderly_mono; [|exact Ho]. intros ???? [_ ?]. by apply careful_separate.
  - intros k sn rows Hk Hsn Hrd. split.
    + eapply unique_history; [|done..]. apply orderly_undisturbed. eapply orderly_mono; [|exact Ho]. by intros ???? [??].
    + eapply (count_exact σ hid h m k); [|done..]. apply orderly_undisturbed. eapply orderly_mono; [|exact Ho]. by intros ???? [??].
Qed.

(** * Logs *)
Lemma logged_history s σ m : undisturbed logged_op init σ → sinv s σ → mof σ m →
  ∀ i sn, md_snaps m !! i = Some sn → sn_parent sn ≠ None → sn_log sn ≠ None.
Proof.
  intros Ho Hs Hm i sn Hi. refine (undisturbed_snap logged_op (fun _ _ sn => sn_parent sn ≠ None → sn_log sn ≠ None) _ _ _ s σ m i sn Ho Hs Hm Hi);
    clear s σ m Ho Hs Hm i sn Hi.
  - done.
  - done.
  - intros E s o b m1 w w' base sn p w1 Ho Hs Hb Hok Heff He Hp'.
    pose proof (op_logged E s o b m1 w w' base sn p w1 Hs Hb Hok Heff) as Hlog.
    destruct (oe_next _ _ _ _ _ _ _ _ _ _ _ Heff) as (i&t&_&_&_&_&_&Hl).
    destruct (pa_log p) as [c|]; [by destruct (sn_log sn)|]. destruct Hlog as [paths ->]; done.
Qed.
Lemma all_ok_forall {A} (rs : list (res A)) : Forall (fun r => ∃ x, r = Ok x) rs → ∃ xs, all_ok rs = Ok xs.
Proof. induction 1 as [|r rs (x&->) _ (xs&IH)]; [by exists []|]. exists (x :: xs). cbn. by rewrite IH. Qed.
Lemma diff_available σ hid h m E a b batch i j l :
  reachable σ → y_handles σ !! hid = Some h → stored_meta (w_fs (y_world σ)) = Some m →
  named m a = Some i → named m b = Some j → path_to m i j l →
  (∀ k sn, k ∈ l → md_snaps m !! k = Some sn → sn_log sn ≠ None) →
  ∃ cs, result σ hid (run_diff E a b batch) = Some (Ok cs).
Proof.
  intros Hr Hh Hm Ha Hb Hp Hlog. destruct (reachable_seen _ _ _ Hr Hh) as (s&p&m'&Hseen).
  pose proof (stored_meta_eq _ _ _ (sn_stored _ _ _ _ _ _ Hseen)) as Heq. rewrite Hm in Heq. injection Heq as <-.
  pose proof (sn_meta _ _ _ _ _ _ Hseen) as Hwm. pose proof (sync_meta_wf _ _ _ _ _ _ Hseen) as Hm0.
  rewrite (diff_path _ _ _ _ _ _ _ _ _ _ _ _ _ Hseen Ha Hb Hp).
  destruct (all_ok_forall (changes_of σ E h p m batch <$> l)) as [xs ->]; [|cbn; eauto].
  apply Forall_fmap, Forall_forall. intros k Hk. cbn.
  pose proof (path_parent _ _ _ _ _ _ Hwm Hp) as Hpar. eapply Forall_forall in Hpar; [|exact Hk].
  destruct Hpar as (q&sn&Hsn&_). unfold changes_of.
  destruct (read_changes_cases E s (sync p m h) (y_world σ) k sn batch) as (r&->&_&_&Hok); rewrite ?Hm0; try done; [apply Hseen|].
  cbn. apply Hok. by eapply Hlog.
Qed.
Lemma diff_logged σ hid h m E a b batch i j l :
  undisturbed logged_op init σ → y_handles σ !! hid = Some h → stored_meta (w_fs (y_world σ)) = Some m →
  named m a = Some i → named m b = Some j → path_to m i j l →
  ∃ cs, result σ hid (run_diff E a b batch) = Some (Ok cs).
Proof.
  intros Ho Hh Hm Ha Hb Hp. pose proof (undisturbed_reachable _ _ Ho) as Hr.
  eapply (diff_available σ hid h m E a b batch i j l); try done.
  intros k sn Hk Hsn. destruct (reachable_sinv σ m Hr Hm) as (s&Hs&Hmof).
  eapply (logged_history s σ m Ho Hs Hmof k sn Hsn). destruct (sinv_mof s σ Hs) as (m'&Hm'&Hwm).
  rewrite (mof_fun _ _ _ Hm' Hmof) in Hwm. pose proof (path_parent _ _ _ _ _ _ Hwm Hp) as Hpar.
  eapply Forall_forall in Hpar; [|exact Hk]. destruct Hpar as (q&sn'&Hsn'&Hq&_). congruence.
Qed.
