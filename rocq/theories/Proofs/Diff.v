(** What diff returns. *)
From Verif.Model Require Import System.
From Verif.Spec Require Import Logical Layout Durable Changes.
From Verif.Proofs Require Import Lib World Resolve AppendSpec SchemaFacts ReadSpec Wf OpSpec Inv FileSet Ops Bodies Txn SysInv
  ReadRun Effects Observe Calls Durable Succeeds.

(** * The walk along parents *)
Section walk.
Context (s : schema) (fs : fsys) (h : handle) (Hm : wf_meta s fs (h_meta h)).
Notation m := (h_meta h).
Lemma chain_head i l : chain m i l → ∃ l', l = i :: l'.
Proof. destruct 1; eauto. Qed.
Lemma chain_fun i l l' : chain m i l → chain m i l' → l = l'.
Proof.
  intros H. revert l'. induction H as [i sn Hi Hp|i sn j l Hi Hp _ IH]; intros l' H'; destruct H' as [i sn' Hi' Hp'|i sn' j' l' Hi' Hp' Hc'].
  - done.
  - congruence.
  - congruence.
  - f_equal. apply IH. congruence.
Qed.
Lemma chain_le i l : chain m i l → Forall (fun k => (k ≤ i)%Z) l.
Proof.
  induction 1 as [i sn Hi Hp|i sn j l Hi Hp _ IH]; [repeat constructor; lia|].
  constructor; [lia|]. destruct (wm_snaps _ _ _ Hm i sn Hi) as (_&_&Hpar). rewrite Hp in Hpar.
  eapply Forall_impl; [exact IH|]. cbn. lia.
Qed.
Lemma chain_below i l start : chain m i l → (i < start)%Z → filter (fun k => (start ≤ k)%Z) l = [].
Proof.
  intros Hc%chain_le Hlt. induction Hc as [|k l Hk _ IH]; [done|]. rewrite filter_cons, decide_False by lia. done.
Qed.
Lemma ancestors_chain start : ∀ fuel i sn l acc,
  md_snaps m !! i = Some sn → chain m i l → Z.to_nat (i - start + 1) ≤ fuel →
  ancestors fuel h start sn acc = Some (Ok (reverse (filter (fun k => (start ≤ k)%Z) l) ++ acc)).
Proof.
  induction fuel as [|fuel IH]; intros i sn l acc Hi Hc Hf;
    destruct (wm_snaps _ _ _ Hm i sn Hi) as (Hid&_&Hpar); cbn [ancestors]; rewrite Hid;
    destruct (Z.leb_spec start i) as [Hle|Hlt]; try lia.
  - rewrite (chain_below i l) by (done || lia). done.
  - destruct Hc as [i sn' Hi' Hp|i sn' j l Hi' Hp Hc]; rewrite Hi in Hi'; injection Hi' as <-; rewrite Hp in *.
    + rewrite filter_cons, decide_True, filter_nil by done. done.
    + destruct Hpar as [Hlt [snj Hj]]. unfold get_snapshot. cbn [rbind]. rewrite Hj. cbn [of_opt].
      rewrite (IH j snj l _ Hj Hc) by lia. rewrite filter_cons, decide_True by done. rewrite reverse_cons.
      by rewrite <-app_assoc.
  - rewrite (chain_below i l) by done. done.
Qed.
Lemma chain_nodup i l : chain m i l → NoDup l.
Proof.
  induction 1 as [i sn Hi Hp|i sn j l Hi Hp Hc IH]; [apply NoDup_singleton|]. apply NoDup_cons. split; [|done].
  destruct (wm_snaps _ _ _ Hm i sn Hi) as (_&_&Hpar). rewrite Hp in Hpar.
  intros Hin. apply chain_le in Hc. eapply Forall_forall in Hc; [|exact Hin]. cbn in Hc. lia.
Qed.
Lemma chain_sub i a k b : chain m i (a ++ k :: b) → chain m k (k :: b) ∧ Forall (fun x => (k < x)%Z) a.
Proof.
  revert i. induction a as [|x a IH]; intros i Hc.
  - destruct (chain_head _ _ Hc) as [l' Heq]. cbn in Heq. injection Heq as -> ->. done.
  - cbn in Hc. inversion Hc as [? ? ? ? Heq|? sn j l Hi Hp Hc']; subst.
    + by destruct a.
    + destruct (IH j Hc') as [H1 H2]. split; [done|]. constructor; [|done].
      destruct (wm_snaps _ _ _ Hm _ sn Hi) as (_&_&Hpar). rewrite Hp in Hpar.
      apply chain_le in Hc'. rewrite Forall_app, Forall_cons in Hc'. lia.
Qed.
Lemma filter_above start a b :
  Forall (fun x => (start < x)%Z) a → Forall (fun x => (x ≤ start)%Z) (start :: b) → NoDup (start :: b) →
  filter (fun k => (start ≤ k)%Z) (a ++ start :: b) = a ++ [start].
Proof.
  intros Ha Hb Hnd. rewrite filter_app. f_equal.
  - induction Ha as [|x a Hx _ IH]; [done|]. rewrite filter_cons, decide_True by lia. by rewrite IH.
  - rewrite filter_cons, decide_True by lia. f_equal. apply Forall_cons in Hb as [_ Hb]. apply NoDup_cons in Hnd as [Hn _].
    clear Ha. induction b as [|x b IH]; [done|]. apply Forall_cons in Hb as [Hx Hb].
    apply not_elem_of_cons in Hn as [Hne Hn]. rewrite filter_cons, decide_False by lia. by apply IH.
Qed.
Lemma ordered_ids_path i j l : path_to m i j l → ordered_snapshot_ids h i j = Ok l.
Proof.
  intros (a&b&Hc&Ha&->). destruct (chain_sub _ _ _ _ Hc) as [Hci Hgt].
  assert (Hij : (i < j)%Z).
  { destruct (chain_head _ _ Hc) as [l' Heq]. destruct a as [|x a]; [done|]. injection Heq as -> _.
    apply Forall_cons in Hgt as [? _]. done. }
  unfold ordered_snapshot_ids. destruct (Z.leb_spec j i); [lia|].
  assert (∃ snj, md_snaps m !! j = Some snj) as [snj Hj] by (destruct Hc; eauto).
  unfold get_snapshot. cbn [rbind]. rewrite Hj. cbn [of_opt rbind].
  rewrite (ancestors_chain i _ j snj _ [] Hj Hc) by lia. cbn [rbind].
  rewrite app_nil_r, (filter_above i a b Hgt (chain_le _ _ Hci) (chain_nodup _ _ Hci)).
  rewrite reverse_app. cbn. by rewrite Z.eqb_refl.
Qed.
Lemma ordered_ids_no_path i j :
  is_Some (md_snaps m !! j) → (∃ l, chain m j l) → (¬ ∃ l, path_to m i j l) → ordered_snapshot_ids h i j = Err (EUser UInput).
Proof.
  intros [snj Hj] [l Hc] Hno. unfold ordered_snapshot_ids. destruct (Z.leb_spec j i) as [|Hlt]; [done|].
  unfold get_snapshot. cbn [rbind]. rewrite Hj. cbn [of_opt rbind].
  rewrite (ancestors_chain i _ j snj _ [] Hj Hc) by lia. cbn [rbind]. rewrite app_nil_r.
  destruct (chain_head _ _ Hc) as [l' ->]. rewrite filter_cons, decide_True by lia. rewrite reverse_cons.
  destruct (reverse (filter (λ k, i ≤ k)%Z l') ++ [j]) as [|k rest] eqn:Heq.
  { by destruct (reverse (filter (λ k, i ≤ k)%Z l')). }
  destruct (Z.eqb_spec k i) as [->|]; [|done]. exfalso. apply Hno.
  assert (Hin : i ∈ j :: l').
  { assert (Hin : i ∈ reverse (filter (λ k, i ≤ k)%Z l') ++ [j]) by (rewrite Heq; by left).
    apply elem_of_app in Hin as [Hin|Hin]; [|apply elem_of_list_singleton in Hin; lia].
    apply elem_of_reverse, elem_of_list_filter in Hin as [_ Hin]. by right. }
  apply elem_of_list_split in Hin as (a&b&Hab). rewrite Hab in Hc. exists (reverse a), a, b. split_and!; [done| |done].
  intros ->. cbn in Hab. injection Hab as -> _. lia.
Qed.
End walk.
(** Every snapshot has a chain. *)
Lemma wf_chain s fs m i : wf_meta s fs m → is_Some (md_snaps m !! i) → ∃ l, chain m i l.
Proof.
  intros Hm. assert (Hgo : ∀ n i sn, (i < Z.of_nat n)%Z → md_snaps m !! i = Some sn → ∃ l, chain m i l).
  { induction n as [|n IH]; intros k sn Hlt Hk; destruct (wm_snaps _ _ _ Hm k sn Hk) as (_&_&Hp).
    - destruct (sn_parent sn); [destruct Hp|]; lia.
    - destruct (sn_parent sn) as [j|] eqn:Hpar.
      + destruct Hp as [Hj [snj Hsnj]]. destruct (IH j snj) as [l Hl]; [lia|done|]. exists (k :: l). by econstructor.
      + exists [k]. by eapply ChainRoot. }
  intros [sn Hi]. eapply (Hgo (S (Z.to_nat i))); [|done]. lia.
Qed.

(** * Reading a change log *)
Definition bitmap_rows (fs : fsys) (b : row_bitmap) : list row :=
  pick_rows None (bitmap_file b) (file_rows fs (rb_file b)).
Definition log_rows (fs : fsys) (bs : list row_bitmap) : list row := bs ≫= bitmap_rows fs.
Lemma log_files E s batch fields w bs :
  wf_schema s → (∀ n, n ∈ read_names s fields → n ∈ s_names s) → Forall (wf_bitmap s (w_fs w)) bs →
  ∃ ts l, read_files E s (ReadOpts None fields None false batch) (bitmap_file <$> bs) w = (w, Ok ts)
    ∧ resolve_rows (records_in (w_fs w)) (s_recs s) (log_rows (w_fs w) bs) = Some l
    ∧ tsel (read_order s (read_names s fields)) l = Ok (concat ts).
Proof.
  intros Hs Hf Hbs.
  assert (Hres : is_Some (resolve_rows (records_in (w_fs w)) (s_recs s) (log_rows (w_fs w) bs))).
  { unfold log_rows. induction Hbs as [|b bs (rows&Hr&[l Hl]&_) _ [l' IH]]; [by exists []|]. rewrite bind_cons.
    destruct (resolve_rows_sub _ _ _ _ (bitmap_rows (w_fs w) b) Hl) as [l1 Hl1].
    { intros r Hin%pick_rows_in. destruct Hr as (cols&gs&Hp&->&_). unfold file_rows in Hin. by rewrite Hp in Hin. }
    exists (l1 ++ l'). by apply resolve_rows_app. }
  destruct Hres as [l Hl].
  destruct (read_files_spec E s (ReadOpts None fields None false batch) (bitmap_file <$> bs) w
    (fun df => file_rows (w_fs w) (df_path df)) l) as (ts&Hts&Hsel&_).
  - done.
  - intros n. rewrite selected_names. apply Hf.
  - intros df (b&->&Hb)%elem_of_list_fmap. eapply Forall_forall in Hbs; [|exact Hb]. destruct Hbs as (rows&Hr&_&Hmask&_).
    assert (file_rows (w_fs w) (rb_file b) = rows) as Hfr.
    { destruct Hr as (cols&gs&Hp&->&_). unfold file_rows. by rewrite Hp. }
    cbn [df_path bitmap_file]. rewrite Hfr. split; [done|]. unfold mask_ok. cbn. destruct (rb_all b); [done|]. auto.
  - cbn [ro_filter]. rewrite <-Hl. f_equal. unfold log_rows. clear. induction bs as [|b bs IH]; [done|].
    rewrite fmap_cons, !bind_cons, IH. done.
  - exists ts, l. rewrite selected_names in Hsel. done.
Qed.
Lemma read_changes_run E s h w i sn batch :
  winv s w → wf_meta s (w_fs w) (h_meta h) → md_snaps (h_meta h) !! i = Some sn →
  match sn_log sn with
  | None => read_changes E h i batch w = (w, Err (EOther "IsADirectoryError"))
  | Some lp => ∃ c dels adds ldel ladd,
      w_fs w !! lp = Some (FChange c)
      ∧ read_changes E h i batch w = (w, Ok ((Change i ChDelete <$> dels) ++ (Change i ChAdd <$> adds)))
      ∧ resolve_rows (records_in (w_fs w)) (s_recs s) (log_rows (w_fs w) (cl_deleted c)) = Some ldel
      ∧ resolve_rows (records_in (w_fs w)) (s_recs s) (log_rows (w_fs w) (cl_added c)) = Some ladd
      ∧ tsel (read_order s (s_pks s)) ldel = Ok (concat dels) ∧ tsel (out_names s) ladd = Ok (concat adds)
  end.
Proof.
  intros Hi Hm Hsn. destruct (wm_snaps _ _ _ Hm i sn Hsn) as (_&(_&_&_&Hlog)&_). unfold read_changes. rewrite Hsn.
  pose proof (wi_schema _ _ Hi) as Hs.
  destruct (sn_log sn) as [lp|]; [|done]. destruct Hlog as (c&Hc&Hwf). unfold wf_log in Hwf. apply Forall_app in Hwf as [Hd Ha].
  rewrite (wm_schema _ _ _ Hm).
  destruct (log_files E s batch (Some (s_pks s)) w (cl_deleted c)) as (dels&ldel&Hdels&Hldel&Hsd); [done| |done|].
  { intros n Hn. by apply Hs. }
  destruct (log_files E s batch None w (cl_added c)) as (adds&ladd&Hadds&Hladd&Hsa); [done|done|done|].
  exists c, dels, adds, ldel, ladd. split_and!; try done.
  - erewrite bind_run; [|by unfold read_change, read_file, bind; cbn; rewrite Hc].
    erewrite bind_run; [|exact Hdels]. erewrite bind_run; [|exact Hadds]. done.
Qed.
Lemma read_changes_cases E s h w i sn batch :
  winv s w → wf_meta s (w_fs w) (h_meta h) → md_snaps (h_meta h) !! i = Some sn →
  ∃ r, read_changes E h i batch w = (w, r) ∧ r ≠ Err (EUser UInput) ∧ (∀ cs, r = Ok cs → Forall (fun c => ch_snap c = i) cs)
    ∧ (sn_log sn ≠ None → ∃ cs, r = Ok cs).
Proof.
  intros Hi Hm Hsn. pose proof (read_changes_run E s h w i sn batch Hi Hm Hsn) as Hc. destruct (sn_log sn) as [lp|].
  - destruct Hc as (c&dels&adds&ldel&ladd&_&->&_). eexists. split_and!; try done.
    + intros cs [= <-]. apply Forall_app. split; apply Forall_fmap, Forall_true; done.
    + eauto.
  - rewrite Hc. eexists. by split_and!.
Qed.

(** * Diff *)
Lemma mapM_all {S A B} (f : A → ST S B) (l : list A) w (g : A → res B) :
  (∀ x, x ∈ l → f x w = (w, g x)) → mapM_st f l w = (w, all_ok (g <$> l)).
Proof.
  induction l as [|x l IH]; intros Hf; [done|]. cbn [mapM_st]. unfold bind at 1. rewrite (Hf x) by (by left).
  cbn. destruct (g x) as [y|e]; [|done]. cbn. unfold bind. rewrite IH by (intros; apply Hf; by right).
  by destruct (all_ok (g <$> l)).
Qed.
Lemma diff_run E a b batch s h w p m :
  winv s w → wf_handle s w h → stored (w_fs w) p m → wf_meta s (w_fs w) m →
  run_diff E a b batch (h, w) = ((sync p m h, w),
    match named m a, named m b with
    | Some i, Some j =>
        match ordered_snapshot_ids (sync p m h) i j with
        | Ok ids => rmap (@concat change) (all_ok ((fun k => (read_changes E (sync p m h) k batch w).2) <$> ids))
        | Err e => Err e
        end
    | _, _ => Err (EUser UVersionNotFound)
    end).
Proof.
  intros Hi Hh Hst Hm. destruct (sync_spec s w p m h Hst Hm Hh) as (Hh0&Hm0&Hf0&Hb0&Hmax).
  unfold run_diff. erewrite bind_run; [|by apply reload_run]. rewrite get_handle_bind, lift_bind.
  set (h0 := sync p m h) in *.
  assert (Hv : ∀ v, version_to_snapshot_id h0 v = of_opt (EUser UVersionNotFound) (named m v)).
  { intros [i|n]; [done|]. cbn. unfold lookup_reference. rewrite Hm0. by destruct (md_refs m !! n). }
  rewrite (Hv a). destruct (named m a) as [i|]; [|done]. cbn [of_opt]. rewrite lift_bind, (Hv b).
  destruct (named m b) as [j|]; [|done]. cbn [of_opt]. rewrite lift_bind.
  destruct (ordered_snapshot_ids h0 i j) as [ids|e] eqn:Hids; [|done].
  assert (Hro : ∀ k, read_changes E h0 k batch w = (w, (read_changes E h0 k batch w).2)).
  { intros k. destruct (md_snaps m !! k) as [sn|] eqn:Hk.
    - destruct (read_changes_cases E s h0 w k sn batch Hi) as (r&->&_); [by rewrite Hm0|by rewrite Hm0|done].
    - unfold read_changes. rewrite Hm0, Hk. done. }
  pose proof (mapM_all (fun k => read_changes E h0 k batch) ids w (fun k => (read_changes E h0 k batch w).2) (fun k _ => Hro k)) as Hall.
  destruct (all_ok ((fun k => (read_changes E h0 k batch w).2) <$> ids)) as [cs|e] eqn:Hcs.
  - erewrite bind_run; [|by apply liftM_run]. done.
  - erewrite bind_run'; [|by apply liftM_run]. done.
Qed.

(** * The calls *)
Definition changes_of (σ : sys) (E : env) (h : handle) (p : path) (m : metadata) (batch : option nat) (k : Z) : res (list change) :=
  (read_changes E (sync p m h) k batch (y_world σ)).2.
Lemma diff_eq s σ hid h p m E a b batch :
  seen s σ hid h p m →
  result σ hid (run_diff E a b batch) = Some
    match named m a, named m b with
    | Some i, Some j =>
        match ordered_snapshot_ids (sync p m h) i j with
        | Ok ids => rmap (@concat change) (all_ok (changes_of σ E h p m batch <$> ids))
        | Err e => Err e
        end
    | _, _ => Err (EUser UVersionNotFound)
    end.
Proof.
  intros [Hs Hh Hwf Hst Hm Hb]. rewrite (result_eq _ _ _ _ Hh).
  by rewrite (diff_run E a b batch s h (y_world σ) p m (si_world _ _ Hs)).
Qed.
Lemma sync_meta_wf s σ hid h p m : seen s σ hid h p m → h_meta (sync p m h) = m.
Proof.
  intros [Hs Hh Hwf Hst Hm Hb]. by destruct (sync_spec s (y_world σ) p m h Hst Hm Hwf) as (_&?&_).
Qed.
Lemma diff_path s σ hid h p m E a b batch i j l :
  seen s σ hid h p m → named m a = Some i → named m b = Some j → path_to m i j l →
  result σ hid (run_diff E a b batch) = Some (rmap (@concat change) (all_ok (changes_of σ E h p m batch <$> l))).
Proof.
  intros Hseen Ha Hb Hp. rewrite (diff_eq _ _ _ _ _ _ _ _ _ _ Hseen), Ha, Hb. pose proof (sync_meta_wf _ _ _ _ _ _ Hseen) as Hm0.
  rewrite (ordered_ids_path s (w_fs (y_world σ)) (sync p m h)) with (l := l); rewrite ?Hm0; [done|apply Hseen|done].
Qed.
Lemma all_ok_single {A} (r : res (list A)) : rmap (@concat A) (all_ok [r]) = r.
Proof. destruct r as [x|e]; [|done]. cbn. by rewrite app_nil_r. Qed.
Lemma path_parent s fs m i j l :
  wf_meta s fs m → path_to m i j l → Forall (fun k => ∃ q sn, md_snaps m !! k = Some sn ∧ sn_parent sn = Some q ∧ path_to m q k [k]) l.
Proof.
  intros Hm (a&b&Hc&_&->). apply Forall_reverse.
  assert (Hgo : ∀ a k, chain m k (a ++ i :: b) →
    Forall (fun k => ∃ q sn, md_snaps m !! k = Some sn ∧ sn_parent sn = Some q ∧ path_to m q k [k]) a).
  { clear j a Hc. intros a. induction a as [|x a IH]; intros k Hc; [constructor|]. cbn in Hc.
    inversion Hc as [? ? ? ? Heq|? sn q l Hk Hp Hc']; subst; [by destruct a|]. constructor; [|by eapply IH].
    exists q, sn. split_and!; try done. assert (∃ l', a ++ i :: b = q :: l') as [l' Heq] by (destruct Hc'; eauto).
    exists [x], l'. rewrite <-Heq. done. }
  by eapply Hgo.
Qed.
Lemma diff_steps σ hid h m E a b batch i j l :
  reachable σ → y_handles σ !! hid = Some h → stored_meta (w_fs (y_world σ)) = Some m →
  named m a = Some i → named m b = Some j → path_to m i j l →
  ∃ steps,
    Forall2 (fun k r => ∃ q, parent_of m k = Some q ∧ result σ hid (run_diff E (VId q) (VId k) batch) = Some r
                             ∧ r ≠ Err (EUser UInput) ∧ ∀ cs, r = Ok cs → Forall (fun c => ch_snap c = k) cs) l steps
    ∧ result σ hid (run_diff E a b batch) = Some (rmap (@concat change) (all_ok steps)).
Proof.
  intros Hr Hh Hm Ha Hb Hp. destruct (reachable_seen _ _ _ Hr Hh) as (s&p&m'&Hseen).
  pose proof (stored_meta_eq _ _ _ (sn_stored _ _ _ _ _ _ Hseen)) as Heq. rewrite Hm in Heq. injection Heq as <-.
  pose proof (sn_meta _ _ _ _ _ _ Hseen) as Hwm. pose proof (sync_meta_wf _ _ _ _ _ _ Hseen) as Hm0.
  exists (changes_of σ E h p m batch <$> l). split; [|by eapply diff_path].
  pose proof (path_parent _ _ _ _ _ _ Hwm Hp) as Hpar. clear Hp Ha Hb. induction Hpar as [|k l (q&sn&Hk&Hq&Hkp) _ IH]; [constructor|].
  constructor; [|done]. exists q. unfold parent_of. rewrite Hk. split; [done|].
  rewrite (diff_path _ _ _ _ _ _ _ (VId q) (VId k) _ q k [k] Hseen) by done. cbn [fmap list_fmap]. rewrite all_ok_single.
  destruct (read_changes_cases E s (sync p m h) (y_world σ) k sn batch) as (r&Hrun&Hne&Hcs&_); rewrite ?Hm0; try done; [apply Hseen|].
  unfold changes_of. rewrite Hrun. done.
Qed.
Lemma diff_no_path σ hid h m E a b batch i j :
  reachable σ → y_handles σ !! hid = Some h → stored_meta (w_fs (y_world σ)) = Some m →
  named m a = Some i → named m b = Some j → is_Some (md_snaps m !! j) → (¬ ∃ l, path_to m i j l) →
  result σ hid (run_diff E a b batch) = Some (Err (EUser UInput)).
Proof.
  intros Hr Hh Hm Ha Hb Hj Hno. destruct (reachable_seen _ _ _ Hr Hh) as (s&p&m'&Hseen).
  pose proof (stored_meta_eq _ _ _ (sn_stored _ _ _ _ _ _ Hseen)) as Heq. rewrite Hm in Heq. injection Heq as <-.
  pose proof (sn_meta _ _ _ _ _ _ Hseen) as Hwm. pose proof (sync_meta_wf _ _ _ _ _ _ Hseen) as Hm0.
  rewrite (diff_eq _ _ _ _ _ _ _ _ _ _ Hseen), Ha, Hb.
  rewrite (ordered_ids_no_path s (w_fs (y_world σ)) (sync p m h)); rewrite ?Hm0; try done. by eapply wf_chain.
Qed.
Lemma all_ok_err {A} (rs : list (res A)) e : all_ok rs = Err e → Err e ∈ rs.
Proof.
  induction rs as [|r rs IH]; [done|]. cbn. destruct r as [x|e']; cbn.
  - destruct (all_ok rs); cbn; [done|]. intros [= ->]. right. auto.
  - intros [= ->]. left.
Qed.
Lemma diff_input_error σ hid h m E a b batch i j :
  reachable σ → y_handles σ !! hid = Some h → stored_meta (w_fs (y_world σ)) = Some m →
  named m a = Some i → named m b = Some j → is_Some (md_snaps m !! j) →
  result σ hid (run_diff E a b batch) = Some (Err (EUser UInput)) ↔ ¬ ∃ l, path_to m i j l.
Proof.
  intros Hr Hh Hm Ha Hb Hj. split; [|by eapply diff_no_path]. intros Hres [l Hp].
  destruct (diff_steps σ hid h m E a b batch i j l) as (steps&Hall&Hd); try done. rewrite Hd in Hres. injection Hres as Hres.
  destruct (all_ok steps) as [x|e] eqn:He; [done|]. cbn in Hres. injection Hres as ->. apply all_ok_err in He.
  apply elem_of_list_lookup in He as [n Hn]. destruct (Forall2_lookup_r _ _ _ _ _ Hall Hn) as (k&_&q&_&_&Hne&_). done.
Qed.
Lemma diff_unknown σ hid h m E a b batch :
  reachable σ → y_handles σ !! hid = Some h → stored_meta (w_fs (y_world σ)) = Some m →
  named m a = None ∨ named m b = None ∨ (∃ i j, named m a = Some i ∧ named m b = Some j ∧ (i < j)%Z ∧ md_snaps m !! j = None) →
  result σ hid (run_diff E a b batch) = Some (Err (EUser UVersionNotFound)).
Proof.
  intros Hr Hh Hm Hn. destruct (reachable_seen _ _ _ Hr Hh) as (s&p&m'&Hseen).
  pose proof (stored_meta_eq _ _ _ (sn_stored _ _ _ _ _ _ Hseen)) as Heq. rewrite Hm in Heq. injection Heq as <-.
  pose proof (sync_meta_wf _ _ _ _ _ _ Hseen) as Hm0.
  rewrite (diff_eq _ _ _ _ _ _ _ _ _ _ Hseen). destruct Hn as [->|[->|(i&j&->&->&Hlt&Hj)]]; [done|by destruct (named m a)|].
  unfold ordered_snapshot_ids. destruct (Z.leb_spec j i); [lia|]. unfold get_snapshot. cbn [rbind]. rewrite Hm0, Hj. done.
Qed.
