(** One step of a refresh: the changes of a snapshot of the source, in a
    transaction on the materialized view. *)
From Verif.Model Require Import System Refresh.
From Verif.Spec Require Import Logical Pruning Keys Layout Changes Api.
From Verif.Proofs Require Import Lib World Resolve AppendSpec SchemaFacts ReadSpec Wf OpSpec
  Inv FileSet Ops Bodies Txn SysInv ReadRun Effects Observe View Prune Keys DeleteEffect Mutations Calls Diff Edge AnyOp Shards RayAppend Reads.

(** * Deletes with exact row counts lose nothing *)
Section counted.
Context (s : schema) (e : filter_expr) (w : world) (mf : option sexpr) (base : snapshot) (old : list row).
Hypothesis Hs : wf_schema s.
Hypothesis Hbase : wf_snap s (w_fs w) base.
Hypothesis Hold : snap_rows s (w_fs w) base old.
Hypothesis Hsafe : safe_filter s e.
Hypothesis Hmf : build_manifest_filter (fenv_of s) e = Ok mf.
Hypothesis Hnan : no_nan_keys (s_pks s) old.
Hypothesis Hdec : decided e old.

Lemma deleted_match pd w1 fs' sn extra xs :
  delete_out s e w (fset_at (w_fs w) mf (sn_idx base)) (Some pd) w1 →
  keeps (w_fs w) (w_fs w1) → keeps (w_fs w1) fs' →
  sn_idx sn = filter (fun x => x ∉ pa_del_idx pd) (sn_idx base) ++ pa_add_idx pd ++ extra →
  shows s fs' (man_rows fs' (extra ≫= man_at fs')) xs →
  ∃ kept del lost, old ≡ₚ kept ++ del ++ lost ∧ snap_rows s fs' sn (kept ++ xs)
    ∧ st_rows (pa_stats pd) = (- Z.of_nat (length del))%Z
    ∧ Forall (fun y => matches e y = true) del.
Proof.
  intros Hd Hk1 Hk2 Hidx Hx.
  destruct (delete_edge s e w mf base pd w1 fs' sn extra xs old Hbase Hd Hk1 Hk2 Hidx Hx Hold)
    as (kept&del&lost&bs&Hp&Hnew&Hlog&Hdel&Hst&_).
  exists kept, del, lost. split_and!; try done.
  pose proof Hd as (HT&mids&mans&lkept&_&_&_&_&_&_&_&Hlog'&_).
  rewrite Hlog in Hlog'. injection Hlog' as ->.
  set (fset := fset_at (w_fs w) mf (sn_idx base)) in *. set (T := filter (touched e w) (fset_files fset)) in *.
  assert (Hlst : Forall (listed s w) (fset_files fset)) by (by apply fset_listed, Hbase).
  assert (HlT : Forall (listed s w) T).
  { apply Forall_forall. intros df [_ Hin]%elem_of_list_filter. by eapply Forall_forall in Hlst. }
  assert (Hbs : Forall (wf_bitmap s (w_fs w)) ((fun df => build_bitmap df (kept_pos e w df)) <$> T)).
  { apply Forall_fmap. eapply Forall_impl; [exact HlT|]. intros df Hdf. by apply build_bitmap_wf. }
  assert (Hk : keeps (w_fs w) fs') by by eapply keeps_trans.
  pose proof (log_rows_keeps s (w_fs w) fs' _ Hbs Hk) as Hlr. rewrite (log_deleted s e w T HlT) in Hlr.
  assert (Hdel' : shows s fs' (dropped e (T ≫= drows w)) del) by (rewrite <-Hlr; exact Hdel).
  apply Forall_forall. intros y Hy.
  apply elem_of_list_lookup in Hy as [k Hy]. destruct (Forall2_lookup_r _ _ _ _ _ Hdel' Hy) as (r&Hr&Hv).
  assert (Hin : r ∈ dropped e (T ≫= drows w)) by by eapply elem_of_list_lookup_2.
  apply elem_of_list_filter in Hin as [Hnm Hin]. apply elem_of_list_bind in Hin as (df&Hrd&Hdf).
  assert (Hpath : df_path df ∈ df_path <$> T) by by apply elem_of_list_fmap_1.
  unfold T in Hpath. unfold fset in Hpath. rewrite (touched_paths e w mf base) in Hpath.
  apply elem_of_list_fmap in Hpath as (m&Hpm&Hm). apply elem_of_list_filter in Hm as [_ Hm].
  assert (Hinb : m ∈ snap_mrows (w_fs w) base ∧ r ∈ file_rows (w_fs w) (mr_path m)).
  { split; [done|]. unfold drows in Hrd. by rewrite <-Hpm. }
  rewrite (row_decided s e w base old Hbase Hold Hsafe Hdec m r Hinb) in Hnm.
  destruct (shown_row s (w_fs w) base old m r) as (_&Hn&_); try done; [by destruct Hinb|].
  rewrite (vrow_matches s fs' r y e Hv Hn) by apply Hsafe. by destruct (matches e r).
Qed.
Lemma delete_counted pd w1 fs' sn extra xs :
  delete_out s e w (fset_at (w_fs w) mf (sn_idx base)) (Some pd) w1 →
  keeps (w_fs w) (w_fs w1) → keeps (w_fs w1) fs' →
  sn_idx sn = filter (fun x => x ∉ pa_del_idx pd) (sn_idx base) ++ pa_add_idx pd ++ extra →
  shows s fs' (man_rows fs' (extra ≫= man_at fs')) xs →
  ∃ new, snap_rows s fs' sn (new ++ xs)
    ∧ (Z.of_nat (length new) = (Z.of_nat (length old) + st_rows (pa_stats pd))%Z → unmatched e old ≡ₚ new).
Proof.
  intros Hd Hk1 Hk2 Hidx Hx.
  destruct (deleted_match pd w1 fs' sn extra xs Hd Hk1 Hk2 Hidx Hx) as (new&del&lost&Hp&Hnew&Hst&Hdel).
  destruct (delete_exact s e w mf base old Hs Hbase Hold Hsafe Hmf Hnan Hdec pd w1 fs' sn extra xs Hd Hk1 Hk2 Hidx Hx)
    as (new'&lost'&Hnew'&Hun&_).
  pose proof (snap_rows_fun _ _ _ _ _ Hnew Hnew') as Heq. apply app_inv_tail in Heq as <-.
  exists new. split; [done|]. intros Hlen. pose proof (Permutation_length Hp) as Hpl. rewrite !app_length in Hpl.
  assert (length lost = 0) as ->%nil_length_inv by lia. rewrite app_nil_r in Hp.
  assert (Hun2 : unmatched e old ≡ₚ unmatched e new).
  { unfold unmatched. rewrite Hp, filter_app, (filter_none _ del), app_nil_r; [done|].
    intros y Hy. eapply Forall_forall in Hdel; [|exact Hy]. by rewrite Hdel. }
  assert (length lost' = 0) as Hl.
  { pose proof (Permutation_length Hun) as H1. pose proof (Permutation_length Hun2) as H2. rewrite app_length in H1.
    pose proof (filter_length (fun y => matches e y = false) new) as H3. unfold unmatched in *. lia. }
  apply nil_length_inv in Hl. by rewrite Hun, Hl, app_nil_r.
Qed.
End counted.

(** * Views, row by row *)
Section rows.
Context {F : Type} (map_fn : F → row → list row) (keep_fn : F → row → bool).
Notation process := (process map_fn keep_fn).
Notation yields v := (fun r o => process v [r] = Ok o).

Lemma tsel_one A (r r' : row) : rsel A r = Ok r' ↔ tsel A [r] = Ok [r'].
Proof. unfold tsel. cbn. destruct (rsel A r); cbn; split; intros H; congruence. Qed.
Lemma Forall2_compose {A B C} (P : A → B → Prop) (Q : B → C → Prop) l m k :
  Forall2 P l m → Forall2 Q m k → Forall2 (fun x z => ∃ y, P x y ∧ Q y z) l k.
Proof. intros HP. revert k. induction HP; intros k HQ; inversion HQ; subst; constructor; eauto. Qed.
Lemma process_rows v t out : process v t = Ok out ↔ ∃ outs, Forall2 (yields v) t outs ∧ out = concat outs.
Proof.
  revert t out. induction v as [l b s|u v IH fields|u v IH fields]; intros t out.
  - cbn. split.
    + intros [= <-]. exists ((fun r => [r]) <$> t). split.
      * induction t; constructor; done.
      * induction t as [|r t IH]; [done|]. cbn. by rewrite <-IH.
    + intros (outs&H&->). f_equal. induction H as [|r o t outs Ho _ IH]; [done|]. injection Ho as <-. cbn. by rewrite IH.
  - cbn. split.
    + intros H. destruct (process v t) as [a|] eqn:Ha; [|done]. cbn in H.
      destruct (tsel fields a) as [b|] eqn:Hb; [|done]. injection H as <-.
      apply IH in Ha as (outs&Hf&->). apply tsel_ok in Hb. revert b Hb.
      induction Hf as [|r o t outs Ho Hf IHf]; intros b Hb.
      * inversion Hb; subst. by exists [].
      * cbn in Hb. apply Forall2_app_inv_l in Hb as (b1&b2&Hb1&Hb2&->). destruct (IHf _ Hb2) as (k&Hk&Hkc).
        exists ((b1 ≫= map_fn (u_fn u)) :: k). split.
        -- constructor; [|done]. rewrite Ho. cbn. apply tsel_ok in Hb1. by rewrite Hb1.
        -- rewrite bind_app. cbn. by rewrite Hkc.
    + assert (Hnil : ∃ outs, Forall2 (yields v) [] outs ∧ [] = concat outs) by by exists [].
      intros (outs&Hf&->). induction Hf as [|r o t outs Ho Hf IHf]; [by rewrite (proj2 (IH [] []) Hnil)|].
      destruct (process v [r]) as [a1|] eqn:Ha1; [|done]. cbn in Ho.
      destruct (tsel fields a1) as [b1|] eqn:Hb1; [|done]. injection Ho as <-.
      destruct (process v t) as [a2|] eqn:Ha2; [|done]. cbn in IHf.
      destruct (tsel fields a2) as [b2|] eqn:Hb2; [|done]. injection IHf as IHf.
      apply IH in Ha2 as (k&Hk&->). rewrite (proj2 (IH (r :: t) (a1 ++ concat k))); [|exists (a1 :: k); split; [by constructor|done]].
      cbn. rewrite (proj2 (tsel_ok fields (a1 ++ concat k) (b1 ++ b2))).
      * cbn. rewrite bind_app, IHf. done.
      * apply Forall2_app; by apply tsel_ok.
  - cbn. split.
    + intros H. destruct (process v t) as [a|] eqn:Ha; [|done]. cbn in H.
      destruct (tsel fields a) as [b|] eqn:Hb; [|done]. injection H as <-.
      apply IH in Ha as (outs&Hf&->). apply tsel_ok in Hb. revert b Hb.
      induction Hf as [|r o t outs Ho Hf IHf]; intros b Hb.
      * inversion Hb; subst. by exists [].
      * cbn in Hb. apply Forall2_app_inv_l in Hb as (b1&b2&Hb1&Hb2&->). destruct (IHf _ Hb2) as (k&Hk&Hkc).
        exists (filter (fun x => keep_fn (u_fn u) x = true) b1 :: k). split.
        -- constructor; [|done]. rewrite Ho. cbn. apply tsel_ok in Hb1. by rewrite Hb1.
        -- rewrite filter_app. cbn. by rewrite Hkc.
    + assert (Hnil : ∃ outs, Forall2 (yields v) [] outs ∧ [] = concat outs) by by exists [].
      intros (outs&Hf&->). induction Hf as [|r o t outs Ho Hf IHf]; [by rewrite (proj2 (IH [] []) Hnil)|].
      destruct (process v [r]) as [a1|] eqn:Ha1; [|done]. cbn in Ho.
      destruct (tsel fields a1) as [b1|] eqn:Hb1; [|done]. injection Ho as <-.
      destruct (process v t) as [a2|] eqn:Ha2; [|done]. cbn in IHf.
      destruct (tsel fields a2) as [b2|] eqn:Hb2; [|done]. injection IHf as IHf.
      apply IH in Ha2 as (k&Hk&->). rewrite (proj2 (IH (r :: t) (a1 ++ concat k))); [|exists (a1 :: k); split; [by constructor|done]].
      cbn. rewrite (proj2 (tsel_ok fields (a1 ++ concat k) (b1 ++ b2))).
      * cbn. rewrite filter_app, IHf. done.
      * apply Forall2_app; by apply tsel_ok.
Qed.
Lemma process_app v a b oa ob : process v a = Ok oa → process v b = Ok ob → process v (a ++ b) = Ok (oa ++ ob).
Proof.
  intros (x&Hx&->)%process_rows (y&Hy&->)%process_rows. apply process_rows. exists (x ++ y).
  split; [by apply Forall2_app|]. by rewrite concat_app.
Qed.
Lemma process_app_inv v a b o : process v (a ++ b) = Ok o → ∃ oa ob, process v a = Ok oa ∧ process v b = Ok ob ∧ o = oa ++ ob.
Proof.
  intros (k&Hk&->)%process_rows. apply Forall2_app_inv_l in Hk as (x&y&Hx&Hy&->). rewrite concat_app.
  exists (concat x), (concat y). split_and!; [| |done]; apply process_rows; eauto.
Qed.
Lemma concat_perm {A} (x y : list (list A)) : x ≡ₚ y → concat x ≡ₚ concat y.
Proof.
  induction 1 as [|a x y _ IH|a b x|x y z _ IH1 _ IH2]; cbn; [done|by rewrite IH| |by rewrite IH1].
  rewrite !app_assoc. apply Permutation_app_tail, Permutation_app_comm.
Qed.
Lemma process_perm v a b oa : process v a = Ok oa → a ≡ₚ b → ∃ ob, process v b = Ok ob ∧ oa ≡ₚ ob.
Proof.
  intros (x&Hx&->)%process_rows Hp. destruct (Forall2_perm_l _ _ _ _ Hp Hx) as (y&Hy&Hxy).
  exists (concat y). split; [apply process_rows; eauto|]. by apply concat_perm.
Qed.
Lemma process_concat v ts outs : rmapM (process v) ts = Ok outs → process v (concat ts) = Ok (concat outs).
Proof.
  revert outs. induction ts as [|t ts IH]; intros outs H; cbn in H.
  - injection H as <-. apply process_rows. exists []. split; [constructor|done].
  - destruct (process v t) as [o|] eqn:Ho; [|done]. cbn in H. destruct (rmapM (process v) ts) as [os|]; [|done].
    injection H as <-. cbn. apply process_app; auto.
Qed.
(** A view that keeps primary keys commutes with removing keys. *)
Lemma process_filter v pks (K : list (list (option scalar))) t out :
  (∀ r o x, r ∈ t → process v [r] = Ok o → x ∈ o → key_of pks x = key_of pks r) →
  process v t = Ok out →
  process v (filter (fun r => key_of pks r ∉ K) t) = Ok (filter (fun r => key_of pks r ∉ K) out).
Proof.
  intros Hkeys (outs&Hf&->)%process_rows. apply process_rows.
  induction Hf as [|r o t outs Ho Hf IH]; [exists []; split; [constructor|done]|].
  destruct IH as (k&Hk&Hkc); [intros ? ? ? ?; apply Hkeys; by right|].
  assert (Hr : ∀ x, x ∈ o → key_of pks x = key_of pks r) by (intros x; eapply Hkeys; [by left|done]).
  rewrite filter_cons. cbn [concat]. rewrite filter_app, Hkc. case_decide as Hd.
  - exists (o :: k). split; [by constructor|]. cbn. f_equal. apply filter_every. intros x Hx. by rewrite (Hr x Hx).
  - exists k. split; [done|]. rewrite filter_none; [done|]. intros x Hx. rewrite (Hr x Hx). by intros Hn; apply Hn.
Qed.
End rows.

(** * The body of a transaction of a refresh *)
Section body.
Context {F : Type} (map_fn : F → row → list row) (keep_fn : F → row → bool).
Context (E : env) (O : fopts) (n : nat) (v : view F).
Notation process := (process map_fn keep_fn).
Notation process_append := (process_append map_fn keep_fn E O n v).
Notation process_change := (process_change map_fn keep_fn E O n v).

Definition deletes (s : schema) (h : handle) (w : world) (data : list row) (op : option patch) (w' : world) : Prop :=
  (primary_key_filter (s_pks s) data = Ok None ∧ op = None ∧ w' = w)
  ∨ ∃ e sn mf, primary_key_filter (s_pks s) data = Ok (Some e) ∧ get_snapshot h None = Ok sn
      ∧ build_manifest_filter (fenv_of s) e = Ok mf ∧ delete_out s e w (fset_at (w_fs w) mf (sn_idx sn)) op w'.
Lemma process_delete_run s ds h w :
  winv s w → wf_handle s w h →
  ∃ w' r, process_delete E O ds (h, w) = ((h, w'), r) ∧ wnew w w'
    ∧ match r with
      | Ok op => wf_opatch s (w_fs w') op ∧ ∃ ts, ds = [ts] ∧ deletes s h w (concat ts) op w'
      | Err _ => True
      end.
Proof.
  intros Hi Hh. pose proof Hh as (Hm&_&_). pose proof Hi as [Hb Hs _]. unfold process_delete.
  destruct ds as [|ts [|]]; [by exists w; eexists; split; [done|]; split; [apply wnew_refl|]| |
    by exists w; eexists; split; [done|]; split; [apply wnew_refl|]].
  destruct ts as [|t ts]; [by exists w; eexists; split; [done|]; split; [apply wnew_refl|]|].
  rewrite get_handle_bind, (wm_schema _ _ _ Hm). cbv zeta. rewrite lift_bind.
  destruct (primary_key_filter (s_pks s) (concat (t :: ts))) as [[e|]|] eqn:Hpk;
    [| |by exists w; eexists; split; [done|]; split; [apply wnew_refl|]].
  2:{ exists w; eexists; split; [done|]. split; [apply wnew_refl|]. split; [done|]. exists (t :: ts). split; [done|]. left. done. }
  unfold bind at 1. rewrite (data_files_run s) by done.
  destruct (get_snapshot h None) as [sn|] eqn:Hsn; [|exists w; eexists; split; [done|]; split; [apply wnew_refl|done]].
  cbn [man_filter]. destruct (build_manifest_filter (fenv_of s) e) as [mf|] eqn:Hmf;
    [|exists w; eexists; split; [done|]; split; [apply wnew_refl|done]].
  cbn [rmap]. pose proof (get_snapshot_wf _ _ _ _ _ Hm Hsn) as Hwsn.
  set (fset := fset_at (w_fs w) mf (sn_idx sn)) in *.
  assert (Hl : Forall (listed s w) (fset_files fset)) by (apply fset_listed; apply Hwsn).
  assert (Hmans : ∀ i q, fset_mans fset !! i = Some q → wf_man s (w_fs w) q).
  { intros i q. apply fset_mans_wf, Hwsn. }
  pose proof (delete_op_out E O s e fset w Hs Hb Hl Hmans) as Hd.
  destruct (delete_op E O s e fset w) as [w' r] eqn:Hdo. destruct Hd as [Hw' Hd].
  rewrite (liftM_run _ h w _ _ Hdo). exists w', r. split; [done|]. split; [done|].
  destruct r as [op|]; [|done]. split; [by eapply (delete_out_wf s e w fset)|].
  exists (t :: ts). split; [done|]. right. exists e, sn, mf. done.
Qed.
Lemma nonempty_concat (ts : list (list row)) : concat (nonempty_tables ts) = concat ts.
Proof.
  unfold nonempty_tables. induction ts as [|t ts IH]; [done|]. rewrite filter_cons. case_decide as Ht; cbn; rewrite IH; [done|].
  by rewrite Ht.
Qed.
Lemma process_sources ds sources :
  rmapM (fun ts => rmap nonempty_tables (rmapM (process v) ts)) ds = Ok sources →
  process v (concat (concat ds)) = Ok (concat (concat sources)).
Proof.
  revert sources. induction ds as [|ts ds IH]; intros sources H; cbn in H.
  - injection H as <-. apply process_rows. exists []. split; [constructor|done].
  - destruct (rmapM (process v) ts) as [os|] eqn:Hos; [|done]. cbn in H.
    destruct (rmapM (fun ts => rmap nonempty_tables (rmapM (process v) ts)) ds) as [rest|]; [|done]. injection H as <-.
    cbn. rewrite !concat_app, nonempty_concat. apply process_app; [by apply process_concat|by apply IH].
Qed.
Definition appends (s : schema) (data : list row) (op : option patch) (w' : world) : Prop :=
  ∃ out rows, process v data = Ok out ∧ rows ≡ₚ show s <$> out ∧ adds s (w_fs w') op rows.
Lemma process_append_run s ds h w :
  1 ≤ n → winv s w → wf_handle s w h →
  ∃ w' r, process_append ds (h, w) = ((h, w'), r) ∧ wnew w w'
    ∧ match r with
      | Ok op => wf_opatch s (w_fs w') op ∧ appends s (concat (concat ds)) op w'
      | Err _ => True
      end.
Proof.
  intros Hn Hi Hh. pose proof Hh as (Hm&_&_). pose proof Hi as [Hb Hs _]. unfold process_append.
  rewrite get_handle_bind, (wm_schema _ _ _ Hm), lift_bind.
  destruct (rmapM _ ds) as [sources|] eqn:Hsrc; [|by exists w; eexists; split; [done|]; split; [apply wnew_refl|]].
  pose proof (ray_append_op_run E O s n (ray_sources n sources) w Hs Hb) as Hr.
  destruct (ray_append_op E O s n (ray_sources n sources) w) as [w' r] eqn:Hrun. destruct Hr as [Hw Hr].
  exists w', r. split; [by apply liftM_run|]. split; [done|]. destruct r as [op|]; [|done].
  destruct Hr as (rows&Hsel&Ha). split; [by eapply adds_wf|].
  exists (concat (concat sources)), rows. split; [by apply process_sources|]. split; [|done].
  apply tsel_columns in Hsel. rewrite Hsel.
  change (show s <$> concat (concat sources)) with (columns (out_names s) <$> concat (concat sources)).
  destruct (ray_sources_spec n sources) as [Hc Hlt].
  apply fmap_Permutation. rewrite in_worker_order_perm; [by rewrite Hc|]. intros c Hin. by apply Hlt; [|lia].
Qed.
Lemma process_change_run s c h w :
  1 ≤ n → winv s w → wf_handle s w h →
  ∃ w' r, process_change c (h, w) = ((h, w'), r) ∧ wnew w w'
    ∧ match r with Ok op => wf_opatch s (w_fs w') op | Err _ => True end.
Proof.
  intros Hn Hi Hh. unfold process_change. destruct (rc_type c).
  - destruct (process_append_run s (rc_data c) h w Hn Hi Hh) as (w'&r&?&?&Hr). exists w', r. split_and!; try done. destruct r; [by destruct Hr|done].
  - destruct (process_delete_run s (rc_data c) h w Hi Hh) as (w'&r&?&?&Hr). exists w', r. split_and!; try done. destruct r; [by destruct Hr|done].
Qed.

(** The patches of the changes of one snapshot. *)
Definition refresh_patches (cs : list ray_change) : H (list (option patch)) := mapM_st process_change cs.
Definition refresh_body (cs : list ray_change) : H (option patch) :=
  let! ps := refresh_patches cs in ret (merge_patches ps).
Lemma refresh_patches_run s cs h w :
  1 ≤ n → winv s w → wf_handle s w h →
  ∃ w' r, refresh_patches cs (h, w) = ((h, w'), r) ∧ wnew w w'
    ∧ match r with Ok ps => Forall (wf_opatch s (w_fs w')) ps | Err _ => True end.
Proof.
  intros Hn. revert w. induction cs as [|c cs IH]; intros w Hi Hh.
  - exists w, (Ok []). split; [done|]. split; [apply wnew_refl|constructor].
  - destruct (process_change_run s c h w Hn Hi Hh) as (w1&r&Hr&Hw1&Hok).
    unfold refresh_patches in *. cbn [mapM_st]. rewrite (bind_run' _ _ _ _ _ Hr).
    destruct r as [op|er]; [|by exists w1; eexists].
    destruct (IH w1) as (w2&r&Hr2&Hw2&Hok2); [by eapply winv_wnew|eapply wf_handle_keeps; [|done]; apply wnew_keeps; [apply Hi|done]|].
    rewrite (bind_run' _ _ _ _ _ Hr2). destruct r as [ps|er]; [|exists w2; eexists; split; [done|]; split; [by eapply wnew_trans|done]].
    exists w2, (Ok (op :: ps)). split; [done|]. split; [by eapply wnew_trans|]. constructor; [|done].
    eapply wf_opatch_keeps; [|exact Hok]. apply wnew_keeps; [|done]. eapply wle_bounded; [apply Hi|exact Hw1].
Qed.
Lemma refresh_body_ok s cs w m : 1 ≤ n → winv s w → body_ok s (refresh_body cs) w m.
Proof.
  intros Hn Hi h0 Hh0 _. destruct (refresh_patches_run s cs h0 w Hn Hi Hh0) as (w'&r&Hr&Hw&Hok).
  exists w'. unfold refresh_body. rewrite (bind_run' _ _ _ _ _ Hr). destruct r as [ps|er]; eexists; split; try done.
  split; [done|]. by apply merge_patches_wf.
Qed.

(** The changes of a snapshot: rows deleted, then rows added. *)
Definition dels_of (i : Z) (d : option (list (list row))) : list ray_change :=
  match d with None => [] | Some ts => [RayChange i ChDelete [ts]] end.
Definition adds_of (i : Z) (a : option (list (list (list row)))) : list ray_change :=
  match a with None => [] | Some ds => [RayChange i ChAdd ds] end.
Definition del_rows (d : option (list (list row))) : list row := default [] ((fun ts => concat ts) <$> d).
Definition add_rows (a : option (list (list (list row)))) : list row := default [] ((fun ds => concat (concat ds)) <$> a).
Lemma refresh_body_out s i d a h w w' op :
  1 ≤ n → winv s w → wf_handle s w h →
  refresh_body (dels_of i d ++ adds_of i a) (h, w) = ((h, w'), Ok op) →
  ∃ w1 dop aop, wnew w w1 ∧ wnew w1 w' ∧ wf_opatch s (w_fs w1) dop
    ∧ (d = None ∧ dop = None ∨ is_Some d ∧ deletes s h w (del_rows d) dop w1)
    ∧ appends s (add_rows a) aop w'
    ∧ op = merge_patches [dop; aop].
Proof.
  intros Hn Hi Hh Hrun. unfold refresh_body, refresh_patches in Hrun.
  assert (Hadds : ∀ w1 dops, winv s w1 → wf_handle s w1 h →
    bind (mapM_st process_change (adds_of i a)) (fun ps => ret (merge_patches (dops ++ ps))) (h, w1) = ((h, w'), Ok op) →
    ∃ aop, wnew w1 w' ∧ appends s (add_rows a) aop w' ∧ op = merge_patches (dops ++ [aop])).
  { intros w1 dops Hi1 Hh1 H. destruct a as [ds|].
    - cbn [adds_of mapM_st] in H. destruct (process_append_run s ds h w1 Hn Hi1 Hh1) as (w2&r&Hr&Hw2&Hok).
      assert (Hr' : mapM_st process_change [RayChange i ChAdd ds] (h, w1) = ((h, w2), rmap (fun o => [o]) r)).
      { cbn [mapM_st]. unfold process_change at 1. cbn [rc_type rc_data]. rewrite (bind_run' _ _ _ _ _ Hr). by destruct r. }
      cbn [mapM_st] in Hr'. rewrite (bind_run' _ _ _ _ _ Hr') in H. destruct r as [aop|]; [|done]. cbn in H. injection H as <- <-.
      exists aop. split; [done|]. split; [apply Hok|done].
    - cbn in H. injection H as <- <-. exists None. split; [apply wnew_refl|]. split; [|unfold merge_patches; by rewrite !omap_app].
      exists [], []. split; [apply process_rows; exists []; split; [constructor|done]|]. done. }
  destruct d as [ts|].
  - cbn [dels_of app mapM_st] in Hrun.
    destruct (process_delete_run s [ts] h w Hi Hh) as (w1&r&Hr&Hw1&Hok).
    destruct r as [dop|er].
    2:{ exfalso. unfold bind at 1 2 in Hrun. unfold process_change at 1 in Hrun. cbn [rc_type rc_data] in Hrun. by rewrite Hr in Hrun. }
    assert (Hi1 : winv s w1) by by eapply winv_wnew.
    assert (Hh1 : wf_handle s w1 h) by (eapply wf_handle_keeps; [|done]; apply wnew_keeps; [apply Hi|done]).
    destruct (Hadds w1 [dop] Hi1 Hh1) as (aop&Hw'&Ha&->).
    { rewrite <-Hrun. unfold bind. unfold process_change at 2. cbn [rc_type rc_data]. rewrite Hr. 
      by destruct (mapM_st process_change (adds_of i a) (h, w1)) as [? []]. }
    destruct Hok as (Hwf&ts'&[= <-]&Hd).
    exists w1, dop, aop. split_and!; try done. right. split; [by eexists|done].
  - destruct (Hadds w [] Hi Hh) as (aop&Hw'&Ha&->); [done|].
    exists w, None, aop. split_and!; try done; [apply wnew_refl|by left].
Qed.
End body.
