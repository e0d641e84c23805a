(** Change logs, row counts and byte statistics in every history. *)
From Verif.Model Require Import System.
From Verif.Spec Require Import Logical Layout Changes Orderly Free.
From Verif.Proofs Require Import Shards RayAppend RayInsert RayDelete RayEffects NewPaths Fits.
From Verif.Proofs Require Import Lib World Resolve AppendSpec SchemaFacts ReadSpec Wf OpSpec
  Inv FileSet Ops Bodies Txn SysInv ReadRun Effects Observe View Mutations DeleteEffect Calls Reads Adds Durable Evolve History Serial Orderly Edge Replay Bytes Patches Diff.

Lemma ops_within (P : op → Prop) σ c : ops_in P c → within (fun _ _ _ o => P o) σ c.
Proof. induction c; cbn; auto. Qed.
Lemma limited_within (P : op → Prop) σ : limited P init σ → history (fun σ c => env_ok σ c ∧ within (fun _ _ _ o => P o) σ c) init σ.
Proof. apply history_weaken. intros ? ? [? ?]. split; [done|]. by apply ops_within. Qed.
Lemma limited_reachable (P : op → Prop) σ : limited P init σ → reachable σ.
Proof. apply history_weaken. by intros ? ? (?&_). Qed.
Definition at_head (P : schema → fsys → snapshot → op → Prop) (s : schema) (fs : fsys) (b : option snapshot) (o : op) : Prop :=
  match b with Some sn => P s fs sn o | None => True end.
Lemma runs_within P σ c : runs_only P σ c → within (at_head P) σ c.
Proof.
  induction c; cbn; auto.
  - intros H s Hs. destruct (current σ hid) eqn:Hc; cbn; auto.
  - intros H x h Hx Hh. destruct (head_snapshot (h_meta h) (h_branch h)) eqn:Hc; cbn; eauto.
Qed.
Lemma free_within P σ : free P init σ → history (fun σ c => env_ok σ c ∧ within (at_head P) σ c) init σ.
Proof. apply history_weaken. intros ? ? [? ?]. split; [done|]. by apply runs_within. Qed.
Lemma free_reachable P σ : free P init σ → reachable σ.
Proof. apply history_weaken. by intros ? ? (?&_). Qed.
Lemma undisturbed_free P σ : undisturbed P init σ → free P init σ.
Proof. apply history_weaken. by intros ? ? (?&_&_&?). Qed.

(** * Change logs *)
Lemma logged_snap s σ m i sn :
  limited not_parquet init σ → sinv s σ → mof σ m → md_snaps m !! i = Some sn → sn_parent sn ≠ None → sn_log sn ≠ None.
Proof.
  intros Ho Hs Hm Hi.
  refine (history_snap (fun _ _ _ o => not_parquet o) (fun _ _ p => pa_log p ≠ None) (fun _ _ sn => sn_parent sn ≠ None → sn_log sn ≠ None)
    _ _ _ _ _ _ σ s m i sn (limited_within _ _ Ho) Hs Hm Hi); try done.
  - intros E s0 o b m1 w w' base sn0 p w1 Hop Hs0 Hb Hok Heff Hn.
    destruct (op_logged E s0 o b m1 w w' base sn0 p w1 Hs0 Hb Hok Heff Hn) as [paths ->]. done.
  - intros s0 fs p base i0 t sn0 _ _ _ Hp (_&_&_&_&_&Hl) _ Hn. rewrite Hn in Hl. by destruct (pa_log p).
Qed.
Lemma diff_logged_free σ hid h m E a b batch i j l :
  limited not_parquet init σ → y_handles σ !! hid = Some h → stored_meta (w_fs (y_world σ)) = Some m →
  named m a = Some i → named m b = Some j → path_to m i j l →
  ∃ cs, result σ hid (run_diff E a b batch) = Some (Ok cs).
Proof.
  intros Ho Hh Hm Ha Hb Hp. pose proof (limited_reachable _ _ Ho) as Hr.
  destruct (reachable_seen _ _ _ Hr Hh) as (s&p&m'&Hseen).
  pose proof (stored_meta_eq _ _ _ (sn_stored _ _ _ _ _ _ Hseen)) as Heq. rewrite Hm in Heq. injection Heq as <-.
  eapply diff_available; try done. intros k sn Hk Hsn.
  pose proof (path_parent _ _ _ _ _ _ (sn_meta _ _ _ _ _ _ Hseen) Hp) as Hpar. eapply Forall_forall in Hpar; [|exact Hk].
  destruct Hpar as (q&sn'&Hsn'&Hq&_). rewrite Hsn in Hsn'. injection Hsn' as <-.
  eapply (logged_snap s σ m k sn); [done|apply Hseen| |done|by rewrite Hq]. exists p. apply Hseen.
Qed.

(** * Row counts *)
Definition cnt (fs : fsys) (q : path) : Z := Z.of_nat (length (man_rows fs (man_at fs q))).
Lemma cnt_bind fs l : Z.of_nat (length (man_rows fs (l ≫= man_at fs))) = Zsum (cnt fs <$> l).
Proof.
  induction l as [|q l IH]; [done|]. rewrite bind_cons, man_rows_app, app_length, Nat2Z.inj_add, IH. done.
Qed.
Lemma snap_rows_cnt s fs sn rows : snap_rows s fs sn rows → Z.of_nat (length rows) = Zsum (cnt fs <$> sn_idx sn).
Proof. intros Hr%snap_rows_shows. rewrite <-cnt_bind, <-(Forall2_length _ _ _ Hr). done. Qed.
Lemma cnt_keeps s fs fs' q : keeps fs fs' → wf_man s fs q → cnt fs' q = cnt fs q.
Proof.
  intros Hk Hw. destruct (snap_rows_some s fs (Snapshot 0 None 0 [q] [] stats0 None)) as [rows Hr].
  { split; [apply NoDup_singleton|]. split; [by constructor|]. split; [|done]. split; constructor. }
  assert (Hr' : snap_rows s fs' (Snapshot 0 None 0 [q] [] stats0 None) rows).
  { eapply snap_rows_keeps; [exact Hk| |done]. split; [apply NoDup_singleton|]. split; [by constructor|]. split; [|done]. split; constructor. }
  apply snap_rows_cnt in Hr, Hr'. cbn in Hr, Hr'. unfold Zsum in *. cbn in *. lia.
Qed.
Lemma cnts_keeps s fs fs' l : keeps fs fs' → Forall (wf_man s fs) l → cnt fs' <$> l = cnt fs <$> l.
Proof. intros Hk. induction 1 as [|q l Hq _ IH]; [done|]. cbn. by rewrite (cnt_keeps s fs fs'), IH. Qed.
Lemma Zsum_perm l l' : l ≡ₚ l' → Zsum l = Zsum l'.
Proof. unfold Zsum. induction 1; cbn; lia. Qed.
(** Taking manifests away from a snapshot that has them. *)
Lemma cnt_remove fs (idx del : list path) :
  NoDup idx → (∀ x, x ∈ del → x ∈ idx) →
  Zsum (cnt fs <$> idx) = (Zsum (cnt fs <$> filter (fun x => x ∉ del) idx) + Zsum (cnt fs <$> remove_dups del))%Z.
Proof.
  intros Hnd Hin. rewrite <-Zsum_app, <-fmap_app. apply Zsum_perm, fmap_Permutation, NoDup_Permutation; [done| |].
  - apply NoDup_app. split_and!; [by apply NoDup_filter| |apply NoDup_remove_dups].
    intros x [Hx _]%elem_of_list_filter. by rewrite elem_of_remove_dups.
  - intros x. rewrite elem_of_app, elem_of_list_filter, elem_of_remove_dups. destruct (decide (x ∈ del)); naive_solver.
Qed.

Section counts.
Context (P : schema → fsys → snapshot → op → Prop) (careful : Prop).
Context (Hcareful : ∀ s fs sn o, careful → P s fs sn o → careful_op s fs sn o).
Context (Hseparate : ∀ s fs sn o, P s fs sn o → separate_op s fs sn o).
Context (Hblind : ∀ s fs sn o, blind_op o → P s fs sn o).

Definition counted (s : schema) (fs : fsys) (p : patch) : Prop :=
  Forall (wf_man s fs) (pa_del_idx p)
  ∧ (Zsum (cnt fs <$> pa_add_idx p) ≤ st_rows (pa_stats p) + Zsum (cnt fs <$> remove_dups (pa_del_idx p)))%Z
  ∧ (careful → Zsum (cnt fs <$> pa_add_idx p) = st_rows (pa_stats p) + Zsum (cnt fs <$> remove_dups (pa_del_idx p)))%Z.
Definition counts (fs : fsys) (sn : snapshot) : Prop :=
  (Zsum (cnt fs <$> sn_idx sn) ≤ st_rows (sn_stats sn))%Z ∧ (careful → st_rows (sn_stats sn) = Zsum (cnt fs <$> sn_idx sn)).
Lemma dups_wf s fs l : Forall (wf_man s fs) l → Forall (wf_man s fs) (remove_dups l).
Proof. rewrite !Forall_forall. intros H x. rewrite elem_of_remove_dups. apply H. Qed.
Lemma counts_snap s σ m i sn :
  free P init σ → sinv s σ → mof σ m → md_snaps m !! i = Some sn → counts (w_fs (y_world σ)) sn.
Proof.
  intros Ho Hs Hm Hi.
  refine (history_snap (at_head P) counted (fun _ => counts) _ _ _ _ _ _ σ s m i sn (free_within _ _ Ho) Hs Hm Hi).
  - intros s0 fs fs' sn0 (_&Hw&_) Hk. unfold counts. by rewrite (cnts_keeps s0 fs fs').
  - intros s0 fs fs' p (Hw&_) Hk (Hd&Hc). unfold counted. rewrite (cnts_keeps s0 fs fs' (pa_add_idx p)) by done.
    rewrite (cnts_keeps s0 fs fs' (remove_dups (pa_del_idx p))) by (try done; by apply dups_wf). split; [|done].
    eapply Forall_impl; [exact Hd|]. intros q Hq. by eapply wf_man_keeps.
  - intros s0 fs t. split; [|intros _]; cbn; unfold Zsum; cbn; lia.
  - intros s0 fs o _ Hb. by apply Hblind.
  - intros E s0 o b m1 w w' base sn0 p w1 Hop Hs0 Hb Hok Heff. cbn in Hop.
    pose proof (oe_wf_base _ _ _ _ _ _ _ _ _ _ _ Heff) as Hwb. destruct (snap_rows_some _ _ _ Hwb) as [old Hold].
    assert (Hsw : splits_well s0 (snap_layout (w_fs w) base) old o) by (apply separate_splits; try done; by apply Hseparate).
    destruct (op_edge E s0 o b m1 w w' base sn0 p w1 old Hs0 Hb Hok Heff Hold Hsw) as (kept&del&lost&add&Hp&Hnew&_&_&Hst&Hc).
    pose proof Heff as [_ [Hwa _] _ _ _ (k&t&Hnext) Hk1 Hk2]. pose proof (keeps_trans _ _ _ Hk1 Hk2) as Hk.
    destruct Hwb as (Hnd&Hwi&Hwr). destruct (next_idx p base _ _ _ sn0 Hnd Hnext) as (Hidx&Hsub&_).
    pose proof (snap_rows_cnt _ _ _ _ Hold) as Hlo. pose proof (snap_rows_cnt _ _ _ _ Hnew) as Hln.
    assert (Hwd : Forall (wf_man s0 (w_fs w)) (pa_del_idx p)).
    { apply Forall_forall. intros q Hq. eapply Forall_forall; [exact Hwi|]. by apply Hsub. }
    rewrite (cnt_remove (w_fs w) _ _ Hnd Hsub) in Hlo. rewrite Hidx, fmap_app, Zsum_app in Hln.
    rewrite (cnts_keeps s0 (w_fs w) (w_fs w') (filter _ _)) in Hln.
    2: done. 2: { apply Forall_forall. intros q [_ Hq]%elem_of_list_filter. eapply Forall_forall; [exact Hwi|done]. }
    rewrite (cnts_keeps s0 (w_fs w1) (w_fs w') (pa_add_idx p)) in Hln by done.
    rewrite app_length in Hln. apply Permutation_length in Hp. rewrite !app_length in Hp.
    unfold counted. rewrite (cnts_keeps s0 (w_fs w) (w_fs w1) (remove_dups _)) by (try done; by apply dups_wf).
    split; [|split].
    + eapply Forall_impl; [exact Hwd|]. intros q Hq. by eapply wf_man_keeps.
    + lia.
    + intros Hcf. rewrite Hc in Hp; [cbn in Hp; lia|]. apply careful_keeps; try done. by apply Hcareful.
  - intros s0 fs p base k t sn0 (Hnd&_) _ [Hb1 Hb2] (_&Hp1&Hp2) Hnext.
    destruct (next_idx p base _ _ _ sn0 Hnd Hnext) as (Hidx&Hsub&_).
    pose proof (cnt_remove fs _ _ Hnd Hsub) as Hrm. destruct Hnext as (_&_&_&_&Hst&_).
    unfold counts. rewrite Hidx, fmap_app, Zsum_app, Hst. cbn. split; [lia|].
    intros Hcf. specialize (Hb2 Hcf). specialize (Hp2 Hcf). lia.
Qed.
Lemma counts_read σ hid h m i sn rows :
  free P init σ → y_handles σ !! hid = Some h → stored_meta (w_fs (y_world σ)) = Some m → md_snaps m !! i = Some sn →
  reads σ hid (Some (VId i)) rows →
  (Z.of_nat (length rows) ≤ st_rows (sn_stats sn))%Z ∧ (careful → st_rows (sn_stats sn) = Z.of_nat (length rows)).
Proof.
  intros Ho Hh Hm Hi Hrd. pose proof (free_reachable _ _ Ho) as Hr.
  destruct (reachable_seen σ hid h Hr Hh) as (s&p&m'&Hseen).
  pose proof (stored_meta_eq _ _ _ (sn_stored _ _ _ _ _ _ Hseen)) as Heq. rewrite Hm in Heq. injection Heq as <-.
  apply (reads_iff _ _ _ _ _ _ _ _ Hseen) in Hrd as (sn'&Hi'&Hrd). change (md_snaps m !! i = Some sn') in Hi'.
  rewrite Hi in Hi'. injection Hi' as <-. rewrite (snap_rows_cnt _ _ _ _ Hrd).
  eapply (counts_snap s σ m i sn); [done|apply Hseen| |done]. exists p. apply Hseen.
Qed.
End counts.
Lemma count_at_least_free σ hid h m i sn rows :
  free separate_op init σ → y_handles σ !! hid = Some h → stored_meta (w_fs (y_world σ)) = Some m → md_snaps m !! i = Some sn →
  reads σ hid (Some (VId i)) rows → (Z.of_nat (length rows) ≤ st_rows (sn_stats sn))%Z.
Proof. intros. eapply (counts_read separate_op False); try done. by intros ??? []. Qed.
Lemma count_exact_free σ hid h m i sn rows :
  free careful_op init σ → y_handles σ !! hid = Some h → stored_meta (w_fs (y_world σ)) = Some m → md_snaps m !! i = Some sn →
  reads σ hid (Some (VId i)) rows → st_rows (sn_stats sn) = Z.of_nat (length rows).
Proof.
  intros. eapply (counts_read careful_op True); try done; [by intros; apply careful_separate|]. by intros ??? [].
Qed.

(** * Byte statistics *)
Lemma bytes_snap s σ m i sn :
  limited adds_only init σ → sinv s σ → mof σ m → md_snaps m !! i = Some sn →
  st_cb (sn_stats sn) = Zsum (mr_cb <$> snap_mrows (w_fs (y_world σ)) sn)
  ∧ st_ub (sn_stats sn) = Zsum (mr_ub <$> snap_mrows (w_fs (y_world σ)) sn).
Proof.
  intros Ho Hs Hm Hi.
  refine (history_snap (fun _ _ _ o => adds_only o)
    (fun _ fs p => pa_del_idx p = [] ∧ st_cb (pa_stats p) = Zsum (mr_cb <$> (pa_add_idx p ≫= man_at fs))
      ∧ st_ub (pa_stats p) = Zsum (mr_ub <$> (pa_add_idx p ≫= man_at fs)))
    (fun _ fs sn => st_cb (sn_stats sn) = Zsum (mr_cb <$> snap_mrows fs sn) ∧ st_ub (sn_stats sn) = Zsum (mr_ub <$> snap_mrows fs sn))
    _ _ _ _ _ _ σ s m i sn (limited_within _ _ Ho) Hs Hm Hi); try done.
  - intros s0 fs fs' sn0 (_&Hw&_) Hk He. unfold snap_mrows. by rewrite (bind_man_keeps s0 fs fs').
  - intros s0 fs fs' p (Hw&_) Hk He. by rewrite (bind_man_keeps s0 fs fs').
  - intros E s0 o b m1 w w' base sn0 p w1 Hop Hs0 Hb Hok Heff. by eapply op_bytes.
  - intros s0 fs p base k t sn0 (Hnd&_) _ [Hb1 Hb2] (Hd&Hc&Hu) Hnext.
    destruct (next_idx p base _ _ _ sn0 Hnd Hnext) as (Hidx&_&_). rewrite Hd, filter_notin_nil in Hidx.
    destruct Hnext as (_&_&_&_&Hst&_). unfold snap_mrows in *. rewrite Hidx, bind_app, !fmap_app, !Zsum_app, Hst. cbn.
    by rewrite Hc, Hu, Hb1, Hb2.
Qed.
Lemma bytes_exact_free σ m i sn :
  limited adds_only init σ → stored_meta (w_fs (y_world σ)) = Some m → md_snaps m !! i = Some sn →
  st_cb (sn_stats sn) = sum_of (mr_cb <$> files_of (w_fs (y_world σ)) sn)
  ∧ st_ub (sn_stats sn) = sum_of (mr_ub <$> files_of (w_fs (y_world σ)) sn).
Proof.
  intros Ho Hm Hi. pose proof (limited_reachable _ _ Ho) as Hr.
  destruct (reachable_sinv σ m Hr Hm) as (s&Hs&Hmof). by eapply bytes_snap.
Qed.
