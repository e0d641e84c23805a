(** Properties of the storage over steps: crashes, creation, files. *)
From Verif.Model Require Import System.
From Verif.Spec Require Import Logical Api Layout Durable SchemaSpec.
From Verif.Proofs Require Import Lib World Resolve AppendSpec SchemaFacts ReadSpec Wf OpSpec Inv FileSet Ops Bodies Txn
  SchemaLaws SysInv ReadRun Effects Observe View Calls Isolation.

Lemma chain_exists σ m i :
  reachable σ → stored_meta (w_fs (y_world σ)) = Some m → is_Some (md_snaps m !! i) →
  ∃ l, chain m i l ∧ decreasing l ∧ last l = Some 0%Z.
Proof.
  intros Hr Hm [sn Hi]. pose proof (chain_decreases σ m Hr Hm) as Hd.
  assert (Hgo : ∀ n i sn, (i < Z.of_nat n)%Z → md_snaps m !! i = Some sn →
    ∃ l, chain m i l ∧ StronglySorted Z.gt l ∧ last l = Some 0%Z ∧ Forall (fun j => (j ≤ i)%Z) l).
  { clear i sn Hi. induction n as [|n IH]; intros i sn Hlt Hi; destruct (Hd i sn Hi) as [_ Hp].
    - destruct (sn_parent sn); [destruct Hp|]; lia.
    - destruct (sn_parent sn) as [j|] eqn:Hpar.
      + destruct Hp as [Hj [snj Hsj]]. destruct (IH j snj) as (l&Hl&Hs&Hlast&Hle); [lia|done|].
        exists (i :: l). split_and!.
        * by eapply ChainStep.
        * constructor; [done|]. eapply Forall_impl; [done|]. cbn. lia.
        * rewrite last_cons, Hlast. done.
        * constructor; [lia|]. eapply Forall_impl; [done|]. cbn. lia.
      + subst i. exists [0%Z]. split_and!; [by eapply ChainRoot|repeat constructor|done|repeat constructor; lia]. }
  destruct (Hgo (S (Z.to_nat i)) i sn) as (l&?&?&?&_); [lia|done|]. eauto.
Qed.

(** * What a newly opened handle reads *)
Lemma open_read_eq s σ p m E v b :
  sinv s σ → stored (w_fs (y_world σ)) p m →
  ∃ r, open_read (y_world σ) E v b = r ∧
  match snap_of m MAIN v with
  | None => r = Err (EUser UVersionNotFound)
  | Some sn => ∃ rows, r = Ok rows ∧ snap_rows s (w_fs (y_world σ)) sn rows
  end.
Proof.
  intros Hs Hst. pose proof (si_world _ _ Hs) as Hi. destruct (wi_stored _ _ Hi) as (p'&m'&Hst'&Hm).
  destruct (stored_fun _ _ _ _ _ Hst Hst') as [<- <-].
  unfold open_read. rewrite (load_run p m) by done. cbn.
  destruct (run_read_all_run E v b s (init_handle (MShort p) m MAIN) (y_world σ) p m Hi) as (r&->&Hr); try done.
  { apply init_handle_wf; [done|apply Hst]. }
  exists r. split; [done|]. exact Hr.
Qed.
Lemma same_open_read s σ σ' p m p' :
  sinv s σ → sinv s σ' → stored (w_fs (y_world σ)) p m → stored (w_fs (y_world σ')) p' m →
  keeps (w_fs (y_world σ)) (w_fs (y_world σ')) →
  ∀ E v b, open_read (y_world σ) E v b = open_read (y_world σ') E v b.
Proof.
  intros Hs Hs' Hst Hst' Hk E v b.
  destruct (open_read_eq s σ p m E v b Hs Hst) as (r&->&Hr), (open_read_eq s σ' p' m E v b Hs' Hst') as (r'&->&Hr').
  destruct (snap_of m MAIN v) as [sn|] eqn:Hsn; [|congruence].
  destruct Hr as (rows&->&Hrows), Hr' as (rows'&->&Hrows'). f_equal.
  assert (Hwf : wf_snap s (w_fs (y_world σ)) sn).
  { destruct (wi_stored _ _ (si_world _ _ Hs)) as (q&mq&Hst2&Hm). destruct (stored_fun _ _ _ _ _ Hst Hst2) as [<- <-].
    by eapply snap_of_wf. }
  pose proof (snap_rows_keeps _ _ _ _ _ Hk Hwf Hrows) as H2. by eapply snap_rows_fun.
Qed.

(** * Crashes *)
Lemma crash_world σ c k : y_world (step σ (CCrash c k)) = cut k (y_world σ) (y_world (step σ c)).
Proof. done. Qed.
Lemma open_read_none w E v b :
  w_fs w !! PEntry = None → open_read w E v b = Err (EOther "FileNotFoundError").
Proof. intros He. unfold open_read, load, read_entry, read_file, bind. cbn. by rewrite He. Qed.
Lemma stored_meta_none fs : fs !! PEntry = None → stored_meta fs = None.
Proof. intros H. unfold stored_meta. by rewrite H. Qed.
Lemma crash_atomic σ c k :
  reachable σ → env_ok σ c →
  same_storage (step σ (CCrash c k)) σ ∨ same_storage (step σ (CCrash c k)) (step σ c).
Proof.
  intros Hr Hok.
  assert (y_world (step σ (CCrash c k)) = y_world (step σ c) → same_storage (step σ (CCrash c k)) (step σ c)) as Hsame.
  { intros Heq. unfold same_storage. by rewrite Heq. }
  destruct (reachable_inv σ Hr) as [He|[s Hs]].
  - destruct (step_sempty σ c He Hok) as [_ Hg]. destruct (gstep_cut k _ _ Hg) as [Hw|Hw]; [left|right; by apply Hsame].
    rewrite <-crash_world in Hw.
    pose proof (se_entry _ He) as Hn. pose proof (wle_entry _ _ _ Hw) as Hn'. rewrite Hn in Hn'.
    split; [by rewrite !stored_meta_none|]. intros. by rewrite !open_read_none.
  - destruct (step_sinv s σ c Hs Hok) as [_ Hg]. destruct (gstep_cut k _ _ Hg) as [Hw|Hw]; [left|right; by apply Hsame].
    rewrite <-crash_world in Hw. destruct (step_keeps s σ (CCrash c k) Hs Hok) as [Hs' Hk].
    destruct (wi_stored _ _ (si_world _ _ Hs)) as (p&m&Hst&_).
    pose proof (stored_wnew s _ _ _ _ (si_world _ _ Hs) Hw Hst) as Hst'.
    split; [by rewrite (stored_meta_eq _ _ _ Hst), (stored_meta_eq _ _ _ Hst')|].
    intros. symmetry. by eapply same_open_read.
Qed.
Lemma load_succeeds σ c :
  reachable σ → env_ok σ c → is_Some (stored_meta (w_fs (y_world σ))) →
  ∃ h, (load (y_world (step σ c))).2 = Ok h.
Proof.
  intros Hr Hok Hm. destruct (reachable_inv σ Hr) as [He|[s Hs]].
  - rewrite stored_meta_none in Hm by apply He. by destruct Hm.
  - destruct (step_sinv s σ c Hs Hok) as [Hs' _]. destruct (wi_stored _ _ (si_world _ _ Hs')) as (p&m&Hst&_).
    rewrite (load_run p m) by done. eauto.
Qed.

(** * Files *)
Lemma files_kept σ c p f :
  reachable σ → env_ok σ c → w_fs (y_world σ) !! p = Some f → (∀ q, f ≠ FEntry q) →
  w_fs (y_world (step σ c)) !! p = Some f.
Proof.
  intros Hr Hok Hp Hf. destruct (reachable_inv σ Hr) as [He|[s Hs]].
  - destruct (step_sempty σ c He Hok) as [_ Hg].
    apply (gstep_keeps (y_world σ) _ (se_bounded _ He)); try done. intros g Hg'. by rewrite (se_entry _ He) in Hg'.
  - destruct (step_keeps s σ c Hs Hok) as [_ Hk]. by apply Hk.
Qed.
Lemma history_reachable σ σ' : reachable σ → history env_ok σ σ' → reachable σ'.
Proof. intros Hr. unfold reachable in *. induction 1; [done|]. constructor; auto. Qed.
Lemma history_sinv s σ σ' :
  sinv s σ → history env_ok σ σ' → sinv s σ' ∧ keeps (w_fs (y_world σ)) (w_fs (y_world σ')).
Proof.
  intros Hs. induction 1 as [|σ σ' c Hh IH Hok]; [split; [done|apply keeps_refl]|].
  destruct (IH Hs) as [Hs' Hk]. destruct (step_keeps s σ' c Hs' Hok) as [Hs2 Hk2]. split; [done|].
  by eapply keeps_trans.
Qed.
Lemma files_kept_history σ σ' p f :
  reachable σ → history env_ok σ σ' → w_fs (y_world σ) !! p = Some f → (∀ q, f ≠ FEntry q) →
  w_fs (y_world σ') !! p = Some f.
Proof.
  intros Hr. induction 1 as [|σ σ' c Hh IH Hok]; intros Hp Hf; [done|].
  apply files_kept; try done; [by eapply history_reachable|auto].
Qed.
Lemma schema_constant σ σ' hid hid' s s' :
  reachable σ → history env_ok σ σ' → schema_at σ hid = Some s → schema_at σ' hid' = Some s' → s' = s.
Proof.
  intros Hr Hh Hs Hs'. unfold schema_at in *.
  destruct (y_handles σ !! hid) as [h|] eqn:Hl; [|done]. destruct (y_handles σ' !! hid') as [h'|] eqn:Hl'; [|done].
  destruct (reachable_handle σ hid h Hr Hl) as (s0&Hi&Hwf). destruct (history_sinv s0 σ σ' Hi Hh) as [Hi' _].
  pose proof (si_handles _ _ Hi' _ _ Hl') as Hwf'. cbn in *. injection Hs as <-. injection Hs' as <-.
  rewrite (wm_schema _ _ _ (proj1 Hwf)). apply (wm_schema _ _ _ (proj1 Hwf')).
Qed.

(** * Creating a storage *)
Lemma reachable_bounded σ : reachable σ → bounded (y_world σ).
Proof. intros [He|[s Hs]]%reachable_inv; [apply He|apply (si_world _ _ Hs)]. Qed.
Lemma create_input_error σ fs pks recs :
  reachable σ → unambiguous fs (pks ++ recs) →
  (create fs pks recs (y_world σ)).2 = Err (EUser UInput) ↔ ¬ valid_schema fs pks recs.
Proof.
  intros Hr Hu. destruct (create_run fs pks recs (y_world σ) (reachable_bounded _ Hr)) as (w'&r&->&Hc). cbn.
  destruct (validate_spec fs pks recs Hu) as [[Hv Hval]|[Hv Hval]];
    destruct Hc as [e He|e He Hs|w' ns He _ _ _|w' ns u He _ _ _ _ _ _]; split; intros; try congruence.
  - exfalso. injection H as ->. unfold substrait_fields in Hs.
    assert (Hnu : ∀ fs e, substrait_list fs = Err e → e ≠ EUser UInput).
    { clear. assert (Hty : ∀ t id e, substrait_ty t id = Err e → e ≠ EUser UInput).
      { intros t. induction t as [n t i b IH|gs IH|t Hl Hs] using aty_ind'; intros id e.
        - cbn [substrait_ty]. destruct (substrait_ty t _) as [[]|] eqn:Ht; [done|]. intros [= <-]. by eapply IH.
        - rewrite substrait_ty_struct. destruct (substrait_list gs) as [[]|e'] eqn:Hg; [done|]. intros [= <-]. revert e' Hg.
          induction IH as [|[n t i b] gs Hf _ IHl]; intros e'; [done|]. cbn.
          destruct (substrait_ty t _) as [[s1 n1]|e1] eqn:Ht; cbn.
          + destruct (substrait_list gs) as [[s2 n2]|e2]; cbn; [done|]. intros [= <-]. by apply IHl.
          + intros [= <-]. by eapply Hf.
        - destruct t; try done. cbn. by intros [= <-]. }
      intros fs. induction fs as [|[n t i b] fs IH]; intros e; [done|]. cbn.
      destruct (substrait_ty t _) as [[s1 n1]|e1] eqn:Ht; cbn.
      - destruct (substrait_list fs) as [[s2 n2]|e2]; cbn; [done|]. intros [= <-]. by apply IH.
      - intros [= <-]. by eapply Hty. }
    destruct (substrait_list (assign_field_ids fs)) as [[]|e'] eqn:Hl; [done|]. injection Hs as ->. by eapply Hnu.
Qed.
Lemma storable_bare t : storable (bare_ty t) = storable t.
Proof.
  induction t as [n t i b IH|fs IH|t Hl Hs] using aty_ind'.
  - exact IH.
  - rewrite bare_ty_struct, !storable_struct. induction IH as [|f fs Hf _ IHl]; [done|].
    rewrite fmap_cons. cbn. by rewrite Hf, IHl.
  - by destruct t.
Qed.
Lemma storable_assigned fs :
  forallb (fun f => storable (f_ty f)) (assign_field_ids fs) = forallb (fun f => storable (f_ty f)) fs.
Proof.
  induction (assign_field_ids_bare fs) as [|f g l l' [_ Hb] _ IH]; [done|]. cbn. rewrite IH. f_equal.
  by rewrite <-(storable_bare (f_ty f)), Hb, storable_bare.
Qed.
Lemma create_exclusive σ fs pks recs :
  reachable σ → NoDup (names_of fs) → is_Some (stored_meta (w_fs (y_world σ))) →
  (valid_schema fs pks recs → forallb (fun f => storable (f_ty f)) fs = true →
   (create fs pks recs (y_world σ)).2 = Err (EUser UStorageExists))
  ∧ (∃ e, (create fs pks recs (y_world σ)).2 = Err e)
  ∧ ∀ hid, same_storage (step σ (CCreate hid fs pks recs)) σ.
Proof.
  intros Hr Hnd Hm. destruct (reachable_inv σ Hr) as [He|[s Hs]].
  { rewrite stored_meta_none in Hm by apply He. by destruct Hm. }
  pose proof (si_world _ _ Hs) as Hi. destruct (wi_stored _ _ Hi) as (p&m&Hst&_).
  destruct (create_run fs pks recs (y_world σ)) as (w'&r&Hc&Hcr); [apply Hi|].
  cbn [step]. rewrite Hc. cbn.
  assert (Hsame : ∀ e w, wnew (y_world σ) w → r = Err e → w' = w → ∀ hid, same_storage (new_handle σ hid (w', r)) σ).
  { intros e w Hw -> -> hid. cbn.
    assert (Hk : keeps (w_fs (y_world σ)) (w_fs w)) by (apply wnew_keeps; [apply Hi|done]).
    assert (Hs' : sinv s (Sys w (y_handles σ) (y_txns σ))) by (apply sinv_move; [done|by eapply winv_wnew|done]).
    pose proof (stored_wnew s _ _ _ _ Hi Hw Hst) as Hst'.
    split; [cbn; by rewrite (stored_meta_eq _ _ _ Hst), (stored_meta_eq _ _ _ Hst')|].
    intros. symmetry. by eapply (same_open_read s σ (Sys w (y_handles σ) (y_txns σ))). }
  destruct (validate_spec fs pks recs (nodup_unambiguous _ _ Hnd)) as [[Hv Hval]|[Hv Hval]].
  - destruct Hcr as [e He|e He Hsub|w' ns He _ _ Hw|w' ns u He _ Hno _ _ _ _]; [congruence| | |].
    + split_and!; [|by eexists|by eapply Hsame; [apply wnew_refl|done..]]. intros _ Hst2. exfalso.
      unfold substrait_fields in Hsub.
      assert (forallb (fun f => storable (f_ty f)) (assign_field_ids fs) = true) as [r Hl]%substrait_list_storable.
      { by rewrite storable_assigned. }
      by rewrite Hl in Hsub.
    + split_and!; [done|by eexists|by eapply Hsame].
    + exfalso. destruct Hst as [Hp _]. congruence.
  - destruct Hcr as [e He|e He Hsub|w' ns He _ _ Hw|w' ns u He _ Hno _ _ _ _]; try congruence.
    split_and!; [done|by eexists|by eapply Hsame; [apply wnew_refl|done..]].
Qed.

Lemma create_then_load σ hid hid' fs pks recs :
  reachable σ → NoDup (names_of fs) → stored_meta (w_fs (y_world σ)) = None →
  valid_schema fs pks recs → forallb (fun f => storable (f_ty f)) fs = true →
  (∃ h, (create fs pks recs (y_world σ)).2 = Ok h)
  ∧ ∃ s sn m, schema_at (step (step σ (CCreate hid fs pks recs)) (CLoad hid')) hid' = Some s
    ∧ Forall2 (fun f g => f_name f = f_name g ∧ bare_ty (f_ty f) = bare_ty (f_ty g)) (s_fields s) fs
    ∧ s_pks s = pks ∧ s_recs s = recs
    ∧ stored_meta (w_fs (y_world (step (step σ (CCreate hid fs pks recs)) (CLoad hid')))) = Some m
    ∧ md_current m = 0%Z ∧ md_refs m = ∅ ∧ md_snaps m = {[ 0%Z := sn ]} ∧ sn_idx sn = [] ∧ sn_rec sn = []
    ∧ reads (step (step σ (CCreate hid fs pks recs)) (CLoad hid')) hid' None [].
Proof.
  intros Hr Hnd Hm Hval Hst. destruct (reachable_inv σ Hr) as [He|[s Hs]].
  2:{ destruct (wi_stored _ _ (si_world _ _ Hs)) as (p&m&Hsto&_). by rewrite (stored_meta_eq _ _ _ Hsto) in Hm. }
  destruct (create_run fs pks recs (y_world σ)) as (w'&r&Hc&Hcr); [apply He|].
  destruct (validate_spec fs pks recs (nodup_unambiguous _ _ Hnd)) as [[Hv _]|[_ Hn]]; [|done].
  destruct Hcr as [e Hv'|e _ Hsub|w' ns _ _ [f Hf] _|w' ns u _ _ _ _ _ _ Hsto]; [congruence| | |].
  - exfalso. unfold substrait_fields in Hsub.
    assert (forallb (fun f => storable (f_ty f)) (assign_field_ids fs) = true) as [r Hl]%substrait_list_storable
      by (by rewrite storable_assigned). by rewrite Hl in Hsub.
  - exfalso. rewrite (se_entry _ He) in Hf. done.
  - split; [rewrite Hc; cbn; eauto|].
    set (m := first_meta (created_schema fs pks recs) (w_clock (y_world σ))) in *.
    assert (Hok : env_ok σ (CCreate hid fs pks recs)) by exact Hnd.
    set (σ1 := step σ (CCreate hid fs pks recs)).
    assert (Hw1 : y_world σ1 = w') by (unfold σ1; cbn [step]; by rewrite Hc).
    assert (Hsto1 : stored (w_fs (y_world σ1)) (PGen KMeta u) m) by by rewrite Hw1.
    assert (Hr2 : reachable (step σ1 (CLoad hid'))) by (by repeat constructor).
    assert (Hl : step σ1 (CLoad hid') = Sys (y_world σ1) (<[hid' := init_handle (MShort (PGen KMeta u)) m MAIN]> (y_handles σ1)) (y_txns σ1)).
    { cbn [step]. by rewrite (load_run (PGen KMeta u) m). }
    assert (Hh : y_handles (step σ1 (CLoad hid')) !! hid' = Some (init_handle (MShort (PGen KMeta u)) m MAIN)).
    { rewrite Hl. cbn. by rewrite lookup_insert. }
    exists (created_schema fs pks recs), (Snapshot 0 None (w_clock (y_world σ)) [] [] stats0 None), m.
    split_and!; try done.
    + unfold schema_at. by rewrite Hh.
    + apply assign_field_ids_bare.
    + rewrite Hl. cbn. by apply stored_meta_eq in Hsto1.
    + destruct (reachable_seen _ _ _ Hr2 Hh) as (s&p'&m'&Hseen). apply (reads_iff _ _ _ _ _ _ _ _ Hseen).
      assert (Hsto2 : stored (w_fs (y_world (step σ1 (CLoad hid')))) (PGen KMeta u) m) by by rewrite Hl.
      destruct (stored_fun _ _ _ _ _ Hsto2 (sn_stored _ _ _ _ _ _ Hseen)) as [<- <-].
      eexists. split; [done|]. apply snap_rows_shows. cbn. constructor.
Qed.

(** * The stored schema *)
Lemma stored_schema fs recs :
  forallb (fun f => storable (f_ty f)) fs = true →
  ∃ ns loaded, substrait_fields (assign_field_ids fs) = Ok ns ∧ arrow_schema ns recs false = Ok loaded
    ∧ Forall2 (fun f g => f_name f = f_name g ∧ field_id f = field_id g ∧ f_ty f = bare_ty (f_ty g))
        loaded (assign_field_ids fs).
Proof.
  intros Hst. rewrite <-storable_assigned in Hst.
  destruct (schema_round false recs (assign_field_ids fs) Hst) as (ns&Hns&Ha); [done|].
  exists ns. eexists. split_and!; [done|exact Ha|]. apply Forall2_fmap_l, Forall_Forall2_diag, Forall_forall.
  intros f _. cbn. done.
Qed.
Lemma stored_physical fs recs ns loaded :
  substrait_fields (assign_field_ids fs) = Ok ns → arrow_schema ns recs false = Ok loaded →
  (∀ f, f ∈ fs → f_name f ∈ recs → record_type (f_ty f)) →
  (∀ f, f ∈ fs → f_name f ∉ recs → file_free (f_ty f) = true) →
  arrow_schema ns recs true = Ok (logical_to_physical_schema loaded recs).
Proof.
  intros Hns Hl Hrec Hfree.
  assert (Hst : forallb (fun f => storable (f_ty f)) (assign_field_ids fs) = true).
  { apply substrait_list_storable. unfold substrait_fields in Hns.
    destruct (substrait_list (assign_field_ids fs)); [eauto|done]. }
  assert (Hbare : ∀ f, f ∈ assign_field_ids fs → ∃ g, g ∈ fs ∧ f_name f = f_name g ∧ bare_ty (f_ty f) = bare_ty (f_ty g)).
  { intros f Hf. pose proof (assign_field_ids_bare fs) as H. apply elem_of_list_lookup in Hf as [i Hi].
    destruct (Forall2_lookup_l _ _ _ _ _ H Hi) as (g&Hg&?&?). exists g. split_and!; try done. by eapply elem_of_list_lookup_2. }
  destruct (schema_round false recs (assign_field_ids fs) Hst) as (ns1&Hns1&Ha); [done|].
  rewrite Hns in Hns1. injection Hns1 as <-. rewrite Hl in Ha. injection Ha as ->.
  destruct (schema_round true recs (assign_field_ids fs) Hst) as (ns1&Hns1&Ha).
  { intros _ f Hf Hn. destruct (Hbare f Hf) as (g&Hg&Hng&Hb). rewrite Hng in Hn. specialize (Hrec g Hg Hn).
    destruct (f_ty g) as [| | | | | | |[]| | | |], (f_ty f) as [| | | | | | |[]| | | |]; done. }
  - rewrite Hns in Hns1. injection Hns1 as <-. rewrite Ha. f_equal. unfold logical_to_physical_schema. rewrite <-list_fmap_compose.
    apply list_fmap_ext. intros i f Hf%elem_of_list_lookup_2. cbn. case_decide as Hn.
    + by rewrite bool_decide_true.
    + rewrite bool_decide_false by done. f_equal. destruct (Hbare f Hf) as (g&Hg&Hng&Hb).
      rewrite Hb. apply file_free_id. rewrite file_free_bare. apply Hfree; [done|]. by rewrite <-Hng.
Qed.
