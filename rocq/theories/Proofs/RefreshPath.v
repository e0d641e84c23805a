(** A refresh brings a materialized view from one version of the source to
    another. *)
From Verif.Model Require Import System Refresh.
From Verif.Spec Require Import Logical Pruning Keys Layout Changes Api Refreshing.
From Verif.Proofs Require Import Lib World Resolve AppendSpec SchemaFacts ReadSpec Wf OpSpec
  Inv FileSet Ops Bodies Txn SysInv ReadRun Effects Observe View Prune Keys DeleteEffect Mutations Calls Diff Edge Replay AnyOp RayDiff Reads
  RefreshStep RefreshEffect RefreshLoop RefreshSource RefreshRun.

Section view.
Context {F : Type} (map_fn : F → row → list row) (keep_fn : F → row → bool).
Notation process := (process map_fn keep_fn).
Notation view_rows := (view_rows map_fn keep_fn).

Lemma process_view v t out : process v t = Ok out → out = view_rows v t.
Proof.
  revert t out. induction v as [l b s|u i IH fields|u i IH fields]; intros t out H; cbn in H |- *.
  - by injection H as <-.
  - apply rbind_ok in H as (a&Ha&H). apply rbind_ok in H as (b&Hb&H). injection H as <-.
    apply IH in Ha as ->. by apply tsel_columns in Hb as ->.
  - apply rbind_ok in H as (a&Ha&H). apply rbind_ok in H as (b&Hb&H). injection H as <-.
    apply IH in Ha as ->. by apply tsel_columns in Hb as ->.
Qed.
Lemma view_app v a b : view_rows v (a ++ b) = view_rows v a ++ view_rows v b.
Proof.
  induction v as [l br s|u i IH fields|u i IH fields]; cbn; [done|..]; rewrite IH, fmap_app.
  - by rewrite bind_app.
  - by rewrite filter_app.
Qed.
Lemma view_nil v : view_rows v [] = [].
Proof. induction v as [l br s|u i IH fields|u i IH fields]; cbn; [done|..]; by rewrite IH. Qed.
Lemma view_perm v a b : a ≡ₚ b → view_rows v a ≡ₚ view_rows v b.
Proof.
  intros H. induction v as [l br s|u i IH fields|u i IH fields]; cbn; [done|..]; by rewrite IH.
Qed.
Lemma view_filter v pks (K : list (list (option scalar))) t :
  keeps_keys map_fn keep_fn v pks →
  view_rows v (filter (fun r => key_of pks r ∉ K) t) = filter (fun r => key_of pks r ∉ K) (view_rows v t).
Proof.
  intros Hk. induction t as [|r t IH].
  { change (view_rows v [] = filter (fun r => key_of pks r ∉ K) (view_rows v [])). by rewrite view_nil. }
  assert (Hc : ∀ t, view_rows v (r :: t) = view_rows v [r] ++ view_rows v t) by (intros t0; apply (view_app v [r] t0)).
  rewrite (Hc t), filter_app, <-IH. rewrite filter_cons. case_decide as Hd.
  - rewrite Hc. f_equal. symmetry. apply filter_every. intros x Hx. by rewrite (Hk r x Hx).
  - assert (filter (fun r => key_of pks r ∉ K) (view_rows v [r]) = []) as ->; [|done].
    apply elem_of_nil_inv. intros x [Hx Hin]%elem_of_list_filter. by rewrite (Hk r x Hin) in Hx.
Qed.
End view.

Lemma key_of_look pks (r y : row) n : key_of pks r = key_of pks y → n ∈ pks → row_look r n = row_look y n.
Proof.
  unfold key_of. intros H Hn. apply elem_of_list_lookup in Hn as [i Hi].
  assert ((row_look r <$> pks) !! i = (row_look y <$> pks) !! i) as Heq by (by rewrite H).
  rewrite !list_lookup_fmap, Hi in Heq. by injection Heq.
Qed.
Lemma nonnull_keys pks (old del : list row) :
  (∀ k, k ∈ key_of pks <$> del → k ∈ key_of pks <$> old) → proper_keys pks old → key_nonnull pks del.
Proof.
  intros Hsub Hp r n Hr Hn. assert (key_of pks r ∈ key_of pks <$> old) as Hk by (apply Hsub; by apply elem_of_list_fmap_1).
  apply elem_of_list_fmap in Hk as (y&Hk&Hy). rewrite (key_of_look _ _ _ _ Hk Hn). by apply Hp.
Qed.

Section path.
Context {F : Type} (map_fn : F → row → list row) (keep_fn : F → row → bool).
Context (E : env) (O : fopts) (n : nat) (blocks : bool) (v : view F).
Notation mv_chain := (mv_chain map_fn keep_fn E O n v).
Notation view_rows := (view_rows map_fn keep_fn).
Context (sm : schema) (Hn : 1 ≤ n).

Definition shaped (cs : list ray_change) : Prop := ∃ i d a, cs = dels_of i d ++ adds_of i a.

Lemma begin_live a b x p m : live sm a p m → h_branch a.1 = MAIN → txn_begin a = (b, Ok x) →
  live sm b p m ∧ h_branch b.1 = MAIN ∧ b.2 = a.2 ∧ b.1 = sync p m a.1.
Proof.
  destruct a as [h w]. intros [Hi Hh Hst Hm] Hb H. cbn [fst snd] in *.
  destruct (sync_spec sm w p m h Hst Hm Hh) as (Hh0&Hm0&Hf0&Hb0&Hmax).
  rewrite (txn_begin_run p m) in H by done. injection H as <- _. cbn. split; [by constructor|]. split; [congruence|done].
Qed.
Lemma sync_again p m h : sync p m (sync p m h) = sync p m h.
Proof. unfold sync at 2 3. case_decide; unfold sync; by rewrite decide_True. Qed.

Lemma chain_live gs a b js : mv_chain gs a b js → ∀ p m,
  Forall shaped gs → live sm a p m → h_branch a.1 = MAIN →
  ∃ q m', live sm b q m' ∧ h_branch b.1 = MAIN ∧ keeps (w_fs a.2) (w_fs b.2) ∧ extends m m'.
Proof.
  induction 1 as [a|cs gs a b c d j js Hrun Hj Hc Hch IH]; intros p m Hsh Hl Hb.
  - exists p, m. refine (conj Hl (conj Hb (conj _ (extends_refl m)))). by intros ? ?.
  - apply Forall_cons in Hsh as [(i&dd&aa&->) Hsh]. destruct a as [h w], b as [h' w'].
    destruct (mv_step map_fn keep_fn E O n v sm i dd aa h w p m h' w' j Hn Hl Hb Hrun Hj)
      as (q&m'&base&base'&Hl'&Hb'&Hk&Hex&_).
    assert (live sm c q m' ∧ h_branch c.1 = MAIN ∧ c.2 = w') as (Hlc&Hbc&Hcw).
    { destruct Hc as [->|[x Hx]]; [done|]. destruct (begin_live _ _ _ _ _ Hl' Hb' Hx) as (?&?&?&_). done. }
    destruct (IH q m' Hsh Hlc Hbc) as (q2&m2&?&?&Hk2&Hex2). exists q2, m2. split; [done|]. split; [done|]. split.
    + eapply keeps_trans; [exact Hk|]. by rewrite <-Hcw.
    + by eapply extends_trans.
Qed.

(** The source. *)
Context (ss : schema) (ws : world) (hs : handle) (batch : option nat) (careful : Prop).
Context (Hws : winv ss ws) (Hms : wf_meta ss (w_fs ws) (h_meta hs)) (Hedges : edges careful ss (w_fs ws) (h_meta hs)).
Context (Hpks : s_pks sm = s_pks ss) (Hplain : plain_keys sm) (Hkeep : keeps_keys map_fn keep_fn v (s_pks ss)).
Notation ms := (h_meta hs).

Lemma refresh_path : ∀ l groups i sni rows a b js p m q m' base mv,
  steps ms i l →
  (∀ k sn rows, k ∈ i :: l → md_snaps ms !! k = Some sn → snap_rows ss (w_fs ws) sn rows →
     unique_keys (s_pks ss) rows ∧ proper_keys (s_pks ss) rows ∧ st_rows (sn_stats sn) = Z.of_nat (length rows)) →
  Forall2 (fun i cs => ray_read_changes E n blocks hs i batch ws = (ws, Ok cs)) l groups →
  md_snaps ms !! i = Some sni → snap_rows ss (w_fs ws) sni rows →
  mv_chain (filter (fun g => g ≠ []) groups) a b js → live sm a p m → h_branch a.1 = MAIN → live sm b q m' →
  (∀ k sn rows, (md_current m ≤ k)%Z → md_snaps m' !! k = Some sn → snap_rows sm (w_fs b.2) sn rows →
     st_rows (sn_stats sn) = Z.of_nat (length rows)) →
  md_snaps m !! md_current m = Some base → snap_rows sm (w_fs a.2) base mv → mv ≡ₚ show sm <$> view_rows v rows →
  ∃ snj rows_j base' new, md_snaps ms !! default i (last l) = Some snj ∧ snap_rows ss (w_fs ws) snj rows_j
    ∧ md_snaps m' !! md_current m' = Some base' ∧ snap_rows sm (w_fs b.2) base' new
    ∧ new ≡ₚ show sm <$> view_rows v rows_j.
Proof.
  induction l as [|k l IH]; intros groups i sni rows a b js p m q m' base mv Hsteps Hsrc Hg Hsni Hrows Hch Hla Hba Hlb Hcnt Hbase Hmv Heq.
  - inversion Hg; subst. cbn in Hch. inversion Hch; subst.
    destruct (stored_fun _ _ _ _ _ (lv_stored _ _ _ _ Hla) (lv_stored _ _ _ _ Hlb)) as [_ <-].
    exists sni, rows, base, mv. done.
  - destruct Hsteps as [(sn&Hsn&Hpar) Hsteps]. apply Forall2_cons_inv_l in Hg as (cs&groups'&Hcs&Hg&->).
    pose proof (Hedges k sn Hsn) as He. rewrite Hpar in He. destruct He as (base0&Hb0&He).
    rewrite Hsni in Hb0. injection Hb0 as <-.
    assert (∃ new, snap_rows ss (w_fs ws) sn new) as [rows' Hrows'].
    { destruct He as (?&new&?&?&?&?&_&_&?&_). eauto. }
    destruct (Hsrc i sni rows) as (Hu&Hprop&Hc0); [left|done|done|].
    destruct (Hsrc k sn rows') as (Hu'&Hprop'&Hc1); [right; left|done|done|].
    destruct (source_step E ss n blocks hs ws k sn batch sni careful rows rows' cs Hn Hws Hms Hsn He Hrows Hrows' Hc0 Hc1 Hu Hcs)
      as (d&ad&->&Hstep&Hdel).
    assert (Hsrc' : ∀ k' sn rows, k' ∈ k :: l → md_snaps ms !! k' = Some sn → snap_rows ss (w_fs ws) sn rows →
     unique_keys (s_pks ss) rows ∧ proper_keys (s_pks ss) rows ∧ st_rows (sn_stats sn) = Z.of_nat (length rows)).
    { intros k' sn' rows0 Hk'. apply Hsrc. by right. }
    assert (Hview : filter (fun y => key_of (s_pks ss) y ∉ key_of (s_pks ss) <$> del_rows d) mv ++ (show sm <$> view_rows v (add_rows ad))
      ≡ₚ show sm <$> view_rows v rows').
    { rewrite <-(view_perm map_fn keep_fn v _ _ Hstep), view_app, fmap_app. f_equiv. rewrite Heq.
      rewrite (view_filter map_fn keep_fn v) by done. pose proof (wi_schema _ _ (lv_world _ _ _ _ Hla)) as Hs.
      generalize (view_rows v rows). intros t. induction t as [|x t IHt]; [done|].
      rewrite fmap_cons, !filter_cons. rewrite <-Hpks, (key_show sm x Hs), Hpks. by case_decide; rewrite ?fmap_cons, IHt. }
    rewrite last_cons.
    assert (Hlast : default i (Some (default k (last l))) = default k (last l)) by done.
    replace (default i (match last l with Some y => Some y | None => Some k end)) with (default k (last l)) by (by destruct (last l)).
    destruct (decide (dels_of k d ++ adds_of k ad = [])) as [Hnil|Hne].
    + rewrite Hnil, filter_cons_False in Hch by (intros Hx; by apply Hx).
      assert (d = None ∧ ad = None) as [-> ->] by (destruct d, ad; done). cbn [del_rows add_rows default fmap option_fmap option_map] in Hview.
      eapply (IH groups' k sn rows' a b js p m q m' base mv); try done.
      rewrite <-Hview. unfold del_rows, add_rows. cbn [default fmap option_fmap option_map]. rewrite view_nil.
      rewrite filter_no_keys. cbn. by rewrite app_nil_r.
    + rewrite filter_cons_True in Hch by done. inversion Hch as [|? gs ? b1 c ? j js' Hrun Hj Hc Hch' Heq1 Heq2 Heq3 Heq4]; subst.
      destruct a as [h w], b1 as [h' w'].
      destruct (mv_step map_fn keep_fn E O n v sm k d ad h w p m h' w' j Hn Hla Hba Hrun Hj)
        as (q1&m1&base0&base1&Hl1&Hb1&Hk1&Hex1&Hbase0&Hbase1&Heff&_).
      rewrite Hbase in Hbase0. injection Hbase0 as <-.
      assert (live sm c q1 m1 ∧ h_branch c.1 = MAIN ∧ c.2 = w') as (Hlc&Hbc&Hcw).
      { destruct Hc as [->|[x Hx]]; [done|]. destruct (begin_live _ _ _ _ _ Hl1 Hb1 Hx) as (?&?&?&_). done. }
      assert (Hshg : Forall shaped (filter (fun g => g ≠ []) groups')).
      { apply Forall_forall. intros g [_ Hgin]%elem_of_list_filter. apply elem_of_list_lookup in Hgin as [ix Hgin].
        destruct (Forall2_lookup_r _ _ _ _ _ Hg Hgin) as (k'&_&Hk'). destruct (changes_shape _ _ _ _ _ _ _ _ _ Hk') as (?&?&->).
        by eexists _, _, _. }
      destruct (chain_live _ _ _ _ Hch' q1 m1 Hshg Hlc Hbc) as (q2&m2&Hl2&_&Hk2&Hex2).
      destruct (stored_fun _ _ _ _ _ (lv_stored _ _ _ _ Hl2) (lv_stored _ _ _ _ Hlb)) as [_ ->].
      assert (Hmvprop : proper_keys (s_pks sm) mv).
      { intros r nm Hr Hnm. rewrite Heq in Hr. apply elem_of_list_fmap in Hr as (x&->&Hx).
        pose proof (wi_schema _ _ (lv_world _ _ _ _ Hla)) as Hs.
        assert (∃ r0, r0 ∈ rows ∧ key_of (s_pks ss) x = key_of (s_pks ss) r0) as (r0&Hr0&Hkx).
        { clear -Hkeep Hx. induction rows as [|r0 rows IHr]; [by rewrite view_nil in Hx; apply elem_of_nil in Hx|].
          change (x ∈ view_rows v ([r0] ++ rows)) in Hx. rewrite view_app in Hx. apply elem_of_app in Hx as [Hx|Hx].
          - exists r0. split; [left|by apply Hkeep].
          - destruct (IHr Hx) as (y&?&?). exists y. split; [by right|done]. }
        rewrite <-Hpks, <-(key_show sm x Hs) in Hkx. rewrite (key_of_look _ _ _ _ Hkx Hnm). apply Hprop; [done|by rewrite <-Hpks]. }
      destruct (Heff mv) as (out&new&Hout&Hnew&Hperm); [done|done| |done|].
      { rewrite Hpks. by eapply nonnull_keys. }
      assert (Hk2' : keeps (w_fs w') (w_fs b.2)) by (by rewrite <-Hcw).
      destruct (wm_snaps _ _ _ (lv_meta _ _ _ _ Hla) _ _ Hbase) as (_&Hwfb&_).
      destruct (wm_snaps _ _ _ (lv_meta _ _ _ _ Hl1) _ _ Hbase1) as (_&Hwfb1&_). cbn [fst snd] in *.
      assert (Hp : new ≡ₚ filter (fun y => key_of (s_pks sm) y ∉ key_of (s_pks sm) <$> del_rows d) mv ++ (show sm <$> out)).
      { apply Hperm.
        - eapply (Hcnt (md_current m)); [lia| |].
          + rewrite (ex_old _ _ Hex2) by (apply (ex_le _ _ Hex1)). rewrite (ex_old _ _ Hex1) by lia. done.
          + eapply snap_rows_keeps; [exact (keeps_trans _ _ _ Hk1 Hk2')|done|done].
        - eapply (Hcnt (md_current m1)); [apply (ex_le _ _ Hex1)| |].
          + rewrite (ex_old _ _ Hex2) by lia. done.
          + by eapply snap_rows_keeps. }
      apply process_view in Hout as ->. rewrite Hpks in Hp. rewrite Hview in Hp.
      eapply (IH groups' k sn rows' c b js' q1 m1 q m' base1 new); try done.
      * intros k' sn' rows0 Hk'. apply Hcnt. pose proof (ex_le _ _ Hex1). lia.
      * by rewrite Hcw.
Qed.
End path.
