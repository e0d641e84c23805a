(** How the stored metadata changes from call to call. *)
From Verif.Model Require Import System.
From Verif.Spec Require Import Logical Api Layout Durable Evolution.
From Verif.Proofs Require Import Lib World Resolve AppendSpec SchemaFacts ReadSpec Wf OpSpec Inv FileSet Ops Bodies Txn
  SchemaLaws SysInv ReadRun Effects Observe View Calls Reads Adds Isolation Durable.

(** The call commits on branch [b]. *)
Definition commits_on (σ : sys) (c : call) (b : string) : Prop :=
  match c with
  | CRun hid _ _ _ => ∃ h, y_handles σ !! hid = Some h ∧ h_branch h = b
  | CCommit tid => ∃ x, y_txns σ !! tid = Some x ∧ x_branch (pe_txn x) = b
  | _ => False
  end.
Definition edit_adds (d : edit) (m : metadata) (n : string) (r : sref) : Prop :=
  match d with
  | EdAddTag n' sid => n' = n ∧ r = SRef (default (md_current m) sid) RTag
  | EdAddBranch n' => n' = n ∧ r = SRef (md_current m) RBranch
  | _ => False
  end.
Definition edit_removes (d : edit) (n : string) (k : ref_kind) : Prop :=
  match d with
  | EdRemoveTag n' => n' = n ∧ k = RTag
  | EdRemoveBranch n' => n' = n ∧ k = RBranch
  | _ => False
  end.
Inductive meta_change (σ : sys) (m : metadata) : call → metadata → Prop :=
| McSame c : meta_change σ m c m
| McAdd hid h d n r :
    y_handles σ !! hid = Some h → edit_adds d (h_meta h) n r →
    is_Some (md_snaps (h_meta h) !! rf_id r) → n ≠ "" → n ≠ MAIN → md_refs (h_meta h) !! n = None →
    meta_change σ m (CEdit hid d) (with_refs (h_meta h) (<[n := r]> (md_refs (h_meta h))))
| McRemove hid h d n r :
    y_handles σ !! hid = Some h → edit_removes d n (rf_kind r) → md_refs (h_meta h) !! n = Some r →
    meta_change σ m (CEdit hid d) (with_refs (h_meta h) (delete n (md_refs (h_meta h))))
| McCommit c b base sn :
    commits_on σ c b → head_of m b = Some (sn_id base) → md_snaps m !! sn_id base = Some base →
    (b ≠ MAIN → ∃ r, md_refs m !! b = Some r ∧ rf_kind r = RBranch) →
    sn_parent sn = Some (sn_id base) → (max_snapshot_id m < sn_id sn)%Z →
    meta_change σ m c (with_snap m b sn)
| McCrash c k m' : meta_change σ m c m' → meta_change σ m (CCrash c k) m'.

Lemma committed_meta s p b h w h' w' m :
  committed s p b h w h' w' → wf_meta s (w_fs w) (h_meta h) → h_meta h = m → (max_snapshot_id m ≤ h_max h)%Z →
  ∃ q base sn, stored (w_fs w') q (with_snap m b sn)
    ∧ head_of m b = Some (sn_id base) ∧ md_snaps m !! sn_id base = Some base
    ∧ (b ≠ MAIN → ∃ r, md_refs m !! b = Some r ∧ rf_kind r = RBranch)
    ∧ sn_parent sn = Some (sn_id base) ∧ (max_snapshot_id m < sn_id sn)%Z.
Proof.
  intros [(j&base&sn&u&Hj&Hb&Hk&(Hid&Hp&_)&_&Hst&_) _ _ _] Hm <- Hmax.
  destruct (wm_snaps _ _ _ Hm _ _ Hb) as [Hbi _]. exists (PGen KMeta u), base, sn.
  rewrite Hbi. split_and!; try done; [by rewrite Hp, Hbi|lia].
Qed.

Lemma step_meta s σ c p m :
  sinv s σ → env_ok σ c → stored (w_fs (y_world σ)) p m →
  ∃ p' m', stored (w_fs (y_world (step σ c))) p' m' ∧ meta_change σ m c m'.
Proof.
  intros Hs. revert p m. pose proof (si_world _ _ Hs) as Hi.
  assert (Hwfm : ∀ p m, stored (w_fs (y_world σ)) p m → wf_meta s (w_fs (y_world σ)) m).
  { intros p m Hst. destruct (wi_stored _ _ Hi) as (q&m'&Hst'&Hm). by destruct (stored_fun _ _ _ _ _ Hst Hst') as [_ <-]. }
  assert (Hsame : ∀ p m c w', stored (w_fs (y_world σ)) p m → wnew (y_world σ) w' →
    ∃ p' m', stored (w_fs w') p' m' ∧ meta_change σ m c m').
  { intros p m c' w' Hst Hw. exists p, m. split; [by eapply stored_wnew|constructor]. }
  induction c as [hid fs pks recs|hid|hid|hid d|hid E fo o|hid tid|tid E fo o|tid|dt|name f|c IH k]; cbn [step env_ok];
    intros p m Hok Hst; pose proof (Hwfm p m Hst) as Hm.
  - destruct (create_run fs pks recs (y_world σ)) as (w'&r&->&Hc); [apply Hi|].
    destruct Hc as [e _|e _ _|w' ns _ _ _ Hw|w' ns u _ _ He]; cbn; try (exists p, m; split; [done|constructor]).
    + by eapply Hsame.
    + exfalso. destruct Hst. congruence.
  - rewrite (load_run p m) by done. cbn. exists p, m. split; [done|constructor].
  - unfold with_handle. destruct (y_handles σ !! hid) as [h|] eqn:Hh; [|by exists p, m; split; [done|constructor]].
    rewrite (reload_run p m) by done. cbn. exists p, m. split; [done|constructor].
  - unfold with_handle. destruct (y_handles σ !! hid) as [h|] eqn:Hh; [|by exists p, m; split; [done|constructor]].
    pose proof (si_handles _ _ Hs _ _ Hh) as Hwf.
    assert (Hadd : ∀ n k sid, edit_adds d (h_meta h) n (SRef (default (md_current (h_meta h)) sid) k) →
      ∃ p' m', stored (w_fs (y_world (let '(h', w', r) := add_reference n k sid (h, y_world σ) in
        (Sys w' (<[hid:=h']> (y_handles σ)) (y_txns σ), Some r)).1)) p' m' ∧ meta_change σ m (CEdit hid d) m').
    { intros n k sid Hd. destruct (add_reference_run s h (y_world σ) n k sid Hi Hwf) as [(e&->&_)|(Hs1&Hn1&Hn2&Hn3&u&w'&->&_&_&Hst'&_)].
      - exists p, m. split; [done|constructor].
      - eexists _, _. split; [exact Hst'|]. by eapply McAdd. }
    assert (Hrem : ∀ n k, edit_removes d n k →
      ∃ p' m', stored (w_fs (y_world (let '(h', w', r) := remove_reference n k (h, y_world σ) in
        (Sys w' (<[hid:=h']> (y_handles σ)) (y_txns σ), Some r)).1)) p' m' ∧ meta_change σ m (CEdit hid d) m').
    { intros n k Hd. destruct (remove_reference_run s h (y_world σ) n k Hi Hwf) as [(e&->&_)|(r&Hr&Hk&u&w'&->&_&_&Hst'&_)].
      - exists p, m. split; [done|constructor].
      - eexists _, _. split; [exact Hst'|]. eapply McRemove; try done. by rewrite Hk. }
    destruct d as [b|n sid|n|n|n]; cbn [run_edit].
    + unfold set_current_branch. rewrite get_handle_bind, lift_bind. destruct (if decide _ then _ else _); cbn;
        exists p, m; (split; [done|constructor]).
    + by apply Hadd.
    + by apply (Hadd n RBranch None).
    + by apply Hrem.
    + unfold remove_branch. rewrite get_handle_bind. case_decide; [|by apply Hrem].
      cbn. exists p, m. split; [done|constructor].
  - unfold with_handle. destruct (y_handles σ !! hid) as [h|] eqn:Hh; [|by exists p, m; split; [done|constructor]].
    pose proof (si_handles _ _ Hs _ _ Hh) as Hwf.
    assert (Hok' : op_ok s (w_fs (y_world σ)) o).
    { rewrite <-(wm_schema _ _ _ (proj1 Hwf)). by apply Hok. }
    destruct (run_op_run E fo s o h (y_world σ) p m Hi Hwf Hok' Hst Hm) as (h'&w'&r&->&Ht). cbn.
    destruct (sync_spec s (y_world σ) p m h Hst Hm Hwf) as (Hwf0&Hm0&_&Hb0&Hmax0).
    destruct Ht as [Hn|w' e _ _ Hw|w' _ _ Hw|q w1 w' _ _ Hw|q w1 h' w' _ Hw1 Hc];
      try (eapply Hsame; [done|by (done || apply wnew_refl)]).
    destruct (committed_meta _ _ _ _ _ _ _ m Hc) as (q'&base&sn&?&?&?&?&?&?); try done.
    { eapply wf_meta_keeps; [|by rewrite Hm0]. apply wnew_keeps; [apply Hi|done]. }
    eexists _, _. split; [done|]. eapply McCommit; try done. exists h. by rewrite Hb0.
  - assert (∀ X : sys, y_world X = y_world σ → ∃ p' m', stored (w_fs (y_world X)) p' m' ∧ meta_change σ m (CBegin hid tid) m') as HX.
    { intros X ->. exists p, m. split; [done|constructor]. }
    unfold with_handle. destruct (y_handles σ !! hid) as [h|] eqn:Hh; [|by apply HX].
    destruct (sync_spec s (y_world σ) p m h Hst Hm (si_handles _ _ Hs _ _ Hh)) as (_&Hm0&_).
    rewrite (txn_begin_run p m) by done. destruct (head_of m (h_branch h)); by apply HX.
  - destruct (y_txns σ !! tid) as [[hid x [pp|]]|] eqn:Htid; try (by exists p, m; split; [done|constructor]).
    unfold with_handle. destruct (y_handles σ !! hid) as [h|] eqn:Hh; [|by exists p, m; split; [done|constructor]].
    pose proof (si_handles _ _ Hs _ _ Hh) as Hwf.
    assert (Hok' : op_ok s (w_fs (y_world σ)) o).
    { rewrite <-(wm_schema _ _ _ (proj1 Hwf)). by eapply Hok. }
    destruct (op_body_run E fo s o h (y_world σ) Hi Hwf Hok') as (w'&r&->&Hw&_). cbn.
    destruct r; cbn; by eapply Hsame.
  - destruct (y_txns σ !! tid) as [[hid x [pp|]]|] eqn:Htid; try (by exists p, m; split; [done|constructor]).
    unfold with_handle. destruct (y_handles σ !! hid) as [h|] eqn:Hh; [|by exists p, m; split; [done|constructor]].
    pose proof (si_handles _ _ Hs _ _ Hh) as Hwf.
    destruct (sync_spec s (y_world σ) p m h Hst Hm Hwf) as (Hwf0&Hm0&_&Hb0&Hmax0).
    destruct (txn_commit_run s x pp h (y_world σ) p m Hi Hwf) as (h'&w'&r&Hr&Hc); try done.
    { by eapply (si_txns _ _ Hs). }
    rewrite (catch_job_run _ _ _ _ Hr). cbn.
    destruct Hc as [Hn|j Hj Hne|Hj ->|q w' e Hj -> Hw' He|q h' w' Hj -> Hc]; try (by exists p, m; split; [done|constructor]).
    + by eapply Hsame.
    + destruct (committed_meta _ _ _ _ _ _ _ m Hc) as (q'&base&sn&?&?&?&?&?&?); try done; [by rewrite Hm0|].
      eexists _, _. split; [done|]. eapply McCommit; try done. eexists. split; [done|done].
  - exists p, m. split; [done|constructor].
  - assert (∀ X : sys, (∃ f, w_fs (y_world X) = <[PExt name := f]> (w_fs (y_world σ))) → w_fs (y_world σ) !! PExt name = None →
      ∃ p' m', stored (w_fs (y_world X)) p' m' ∧ meta_change σ m (CExternal name f) m') as HX.
    { intros X [g Hg] Hn. exists p, m. split; [|constructor]. destruct Hst as [He Hp]. split; rewrite Hg; rewrite lookup_insert_ne; try done.
      intros <-. congruence. }
    destruct (w_fs (y_world σ) !! PExt name) eqn:Hn; [by exists p, m; split; [done|constructor]|].
    destruct f; try (by exists p, m; split; [done|constructor]); (apply HX; [by eexists|done]).
  - destruct (step_sinv s σ c Hs Hok) as [_ Hg]. fold (cut k (y_world σ) (y_world (step σ c))).
    destruct (gstep_cut k _ _ Hg) as [Hw| Hw].
    + exact (Hsame p m (CCrash c k) _ Hst Hw).
    + destruct (IH p m Hok Hst) as (p'&m'&Hst'&Hc). exists p', m'.
      cbn [y_world]. rewrite Hw. split; [done|by constructor].
Qed.
