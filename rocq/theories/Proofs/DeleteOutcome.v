(** What a delete does, in every case. *)
From Verif.Model Require Import System.
From Verif.Spec Require Import Logical Api Pruning Keys Typed Layout Candidates Serial Deletion.
From Verif.Proofs Require Import Lib World Resolve FalsifySound Stats Bounds SchemaFacts Keys ReadSpec
  AppendSpec Total AppendTotal Wf OpSpec Inv FileSet Ops Bodies SysInv ReadRun Effects Observe View Prune DeleteEffect
  Edge Txn Calls Evolve Durable Serial Succeeds NoOp DeleteExact DeleteTotal.

Lemma fset_mid fs mf mans df :
  df ∈ fset_files (fset_at fs mf mans) → is_Some (fset_mans (fset_at fs mf mans) !! df_mid df).
Proof.
  intros Hdf. cbn in Hdf. apply elem_of_list_bind in Hdf as (x&Hdf&Hx). apply elem_of_list_fmap in Hdf as (m&->&_).
  cbn. rewrite (picked_mans_in _ x (picked_nodup _ _ _ _) Hx). eauto.
Qed.
Lemma stored_good s fs base old m :
  wf_schema s → wf_snap s fs base → snap_rows s fs base old → proper_keys (s_pks s) old →
  m ∈ snap_mrows fs base → Forall (good s) (file_rows fs (mr_path m)).
Proof.
  intros Hs Hw Hold Hk Hm. apply Forall_forall. intros r Hr.
  destruct (shown_row s fs base old m r Hw Hold Hm Hr) as (Hwm&Hn&y&Hy&Hv). split.
  - apply wf_mrow_conforms in Hwm. by eapply Forall_forall in Hwm.
  - intros n Hn'. rewrite <-(vrow_look _ _ _ _ n Hv Hn) by by apply Hs. by apply Hk.
Qed.

(** Which candidates are touched, and how many rows go. *)
Section count.
Context (s : schema) (e : filter_expr) (w : world) (mf : option sexpr) (base : snapshot) (old : list row).
Notation fs := (w_fs w).
Hypothesis Hs : wf_schema s.
Hypothesis Hbase : wf_snap s fs base.
Hypothesis Hold : snap_rows s fs base old.
Hypothesis Hig : ignores (s_recs s) e.
Notation fset := (fset_at fs mf (sn_idx base)).
Notation cs := (df_path <$> fset_files fset).
Context (mans : list (list (path * list row))).
Hypothesis Hcut : Forall2 (fun q man => Forall2 (rep s w base) (man_at fs q) man) (sn_idx base) mans.
Lemma cut_flat : Forall2 (rep s w base) (snap_mrows fs base) (concat mans).
Proof.
  unfold snap_mrows. induction Hcut as [|q man l mans' Hq Hc IH]; [constructor|]. rewrite bind_cons. cbn [concat].
  apply Forall2_app; [exact Hq|exact (IH Hc)].
Qed.
Lemma rewritten_touched : Exists (rewritten cs e) (concat mans) ↔ filter (touched e w) (fset_files fset) ≠ [].
Proof.
  pose proof cut_flat as Hflat. rewrite Exists_exists. split.
  - intros (f&Hf&Hrw). apply elem_of_list_lookup in Hf as [i Hi].
    destruct (Forall2_lookup_r _ _ _ _ _ Hflat Hi) as (mr&Hmr&Hrep). apply elem_of_list_lookup_2 in Hmr.
    apply (rep_hit s e w mf base old Hbase Hold Hig mr f Hrep) in Hrw.
    apply (hit_iff s e w mf base Hbase mr Hmr) in Hrw. intros Hn. rewrite Hn in Hrw.
    by apply elem_of_nil in Hrw.
  - intros Hne. destruct (filter (touched e w) (fset_files fset)) as [|df T] eqn:HT; [done|].
    assert (Hin : df_path df ∈ df_path <$> filter (touched e w) (fset_files fset)) by (rewrite HT; left).
    rewrite (touched_paths e w mf base) in Hin.
    apply elem_of_list_fmap in Hin as (mr&_&[Hhit Hmr]%elem_of_list_filter).
    apply elem_of_list_lookup in Hmr as [i Hi]. destruct (Forall2_lookup_l _ _ _ _ _ Hflat Hi) as (f&Hf&Hrep).
    exists f. split; [by eapply elem_of_list_lookup_2|]. by apply (rep_hit s e w mf base old Hbase Hold Hig mr f Hrep).
Qed.
Lemma rewritten_count :
  drop_count e w (fset_files fset)
  = Z.of_nat (length (filter (fun r => ¬ stays e r) (rows_of (filter (rewritten cs e) (concat mans))))).
Proof.
  rewrite drop_count_rows. f_equal.
  assert (Hsh : shows s fs (filter (touched e w) (fset_files fset) ≫= drows w) (rows_of (filter (rewritten cs e) (concat mans)))).
  { assert (filter (touched e w) (fset_files fset) ≫= drows w = man_rows fs (filter (hit e w mf) (snap_mrows fs base))) as ->.
    { transitivity ((df_path <$> filter (touched e w) (fset_files fset)) ≫= file_rows fs).
      - generalize (filter (touched e w) (fset_files fset)). intros l.
        induction l as [|x l IH]; [done|]. by rewrite fmap_cons, !bind_cons, IH.
      - rewrite (touched_paths e w mf base), man_rows_bind.
        generalize (filter (hit e w mf) (snap_mrows fs base)). intros l.
        induction l as [|x l IH]; [done|]. by rewrite fmap_cons, !bind_cons, IH. }
    apply rep_rows with (base := base), Forall2_filter2; [apply cut_flat|]. intros mr f _ Hrep.
    by apply (rep_hit s e w mf base old). }
  eapply Forall2_length, Forall2_filter2; [exact Hsh|]. intros r y Hrr Hv. unfold stays.
  assert (matches (EUn FnNot e) y = matches (EUn FnNot e) r) as ->; [|done].
  eapply vrow_matches; [done| |by apply ignores_un].
  apply elem_of_list_bind in Hrr as (df&Hrr&[_ Hdf]%elem_of_list_filter).
  assert (Hl : Forall (listed s w) (fset_files fset)) by apply fset_listed, Hbase.
  eapply Forall_forall in Hl; [|exact Hdf].
  destruct Hl as (_&_&m'&Hm'&Hp'&_). unfold drows in Hrr. rewrite Hp' in Hrr. by eapply file_rows_conform.
Qed.
Lemma candidates_good : proper_keys (s_pks s) old → Forall (fun df => Forall (good s) (drows w df)) (fset_files fset).
Proof.
  intros Hkb. apply Forall_forall. intros df Hdf. unfold drows.
  assert (Hin : df_path df ∈ df_path <$> fset_files fset) by (by apply elem_of_list_fmap_1).
  rewrite fset_files_filter in Hin. apply elem_of_list_fmap in Hin as (mr&->&[_ Hmr]%elem_of_list_filter).
  by eapply stored_good.
Qed.
End count.

Lemma delete_decides σ hid h s m E fo e before fset :
  reachable σ → y_handles σ !! hid = Some h → schema_at σ hid = Some s →
  stored_meta (w_fs (y_world σ)) = Some m → is_branch m (h_branch h) →
  plain_keys s → records_last s → reads σ hid None before → proper_keys (s_pks s) before →
  ignores (s_recs s) e → result σ hid (candidates e) = Some (Ok fset) →
  let cs := df_path <$> fset_files fset in
  let σ' := after σ hid (run_delete E fo e) in
  ∃ mans, divides σ hid before mans ∧
    if some_candidates fset then
      if decide (Exists (rewritten cs e) (concat mans)) then
        ∃ st rows, result σ hid (run_delete E fo e) = Some (Ok (JSucceeded st))
          ∧ st_rows st = (- Z.of_nat (length (filter (fun r => ¬ stays e r) (rows_of (filter (rewritten cs e) (concat mans))))))%Z
          ∧ reads σ' hid None rows ∧ rows ≡ₚ remaining cs e mans
      else result σ hid (run_delete E fo e) = Some (Ok JSkipped) ∧ y_world σ' = y_world σ
    else result σ hid (run_delete E fo e) = Some (Ok JFailed) ∧ y_world σ' = y_world σ.
Proof.
  intros Hr Hh Hsc Hm Hbr Hp Hrl Hb Hkb Hig Hc cs σ'. destruct (handle_seen _ _ _ _ _ Hr Hh Hsc Hm) as [q Hseen].
  pose proof (seen_schema _ _ _ _ _ _ Hseen) as Hs.
  apply (reads_iff _ _ _ _ _ _ _ _ Hseen) in Hb as Hb'. destruct Hb' as (base&Hsn&Hold).
  destruct (candidates_run _ _ _ _ _ _ _ _ _ Hseen Hsn Hc) as (mf&Hmf&->).
  destruct (seen_sync _ _ _ _ _ _ Hseen) as (Hm0&Hb0&Hwf0&Hms).
  assert (Hget : get_snapshot (sync q m h) None = Ok base).
  { apply (get_snapshot_snap_of _ m); [done|]. by rewrite Hb0. }
  pose proof (get_snapshot_wf _ _ _ _ _ (proj1 Hwf0) Hget) as Hwb.
  set (fset := fset_at (w_fs (y_world σ)) mf (sn_idx base)) in *.
  destruct (cut s (y_world σ) base before Hold) as (mans&Hcut&Hrows).
  exists mans. split; [by eapply cut_divides|].
  pose proof (rewritten_touched s e (y_world σ) mf base before Hwb Hold Hig mans Hcut) as Htouch. fold fset in Htouch. fold cs in Htouch.
  destruct (some_candidates fset) eqn:Hsome.
  2:{ pose proof (delete_idle σ hid h q s m E fo e mf base Hseen Hsn Hmf) as Hidle. cbv zeta in Hidle.
      fold fset in Hidle. rewrite Hsome in Hidle. apply Hidle. done. }
  case_decide as Hrw.
  2:{ pose proof (delete_idle σ hid h q s m E fo e mf base Hseen Hsn Hmf) as Hidle. cbv zeta in Hidle.
      fold fset in Hidle. rewrite Hsome in Hidle. apply Hidle. intros _. apply Forall_forall. intros df Hdf Ht.
      apply Hrw, Htouch. intros Hn. assert (Hx : df ∈ filter (touched e (y_world σ)) (fset_files fset)) by (by apply elem_of_list_filter).
      rewrite Hn in Hx. by apply elem_of_nil in Hx. }
  apply Htouch in Hrw.
  destruct (run_op_outcome s σ hid h q m E fo (ODelete e) Hseen I Hbr) as (w1&r&Hbody&Hres).
  cbn [op_body] in Hbody. rewrite get_handle_bind in Hbody. unfold bind at 1 in Hbody.
  rewrite (data_files_run s), Hget in Hbody by apply Hwf0. cbn [man_filter] in Hbody. rewrite Hmf in Hbody. cbn [rmap] in Hbody.
  fold fset in Hbody. rewrite Hm0, Hms in Hbody.
  assert (Hl : Forall (listed s (y_world σ)) (fset_files fset)) by apply fset_listed, Hwb.
  assert (Hmw : ∀ i q, fset_mans fset !! i = Some q → wf_man s (w_fs (y_world σ)) q).
  { intros i q'. apply fset_mans_wf, Hwb. }
  destruct (delete_op_total E fo s e (y_world σ) Hs Hp Hrl (reachable_bounded _ Hr) fset) as (w2&op&Hop); try done.
  { by eapply candidates_good. }
  { apply fset_mid. }
  { unfold fset. rewrite fset_valid. exact Hsome. }
  pose proof (delete_op_out E fo s e fset (y_world σ) Hs (reachable_bounded _ Hr) Hl Hmw) as Hout. rewrite Hop in Hout.
  destruct Hout as [_ Hout]. rewrite (liftM_run _ _ _ _ _ Hop) in Hbody. injection Hbody as <- <-.
  destruct op as [p|]; [|done].
  destruct Hout as (_&mids&ms&lk&_&_&_&_&_&_&_&_&Hst).
  destruct (delete_remaining_at σ hid s E fo e (pa_stats p) before h q m mf base mans) as (rows&Hrd&Hperm); try done.
  exists (pa_stats p), rows. split_and!; try done.
  rewrite (proj1 Hst). f_equal. exact (rewritten_count s e (y_world σ) mf base before Hwb Hold Hig mans Hcut).
Qed.
