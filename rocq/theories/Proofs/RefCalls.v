(** Calls that edit tags and branches. *)
From Verif.Model Require Import System.
From Verif.Spec Require Import Api Layout Changes Evolution References.
From Verif.Proofs Require Import Lib World Wf Inv Txn SysInv ReadRun Observe Durable Evolve History Serial Calls Starts.

Lemma with_handle_ok {A} σ hid h (m : H A) h' w' r : y_handles σ !! hid = Some h → m (h, y_world σ) = ((h', w'), r) →
  result σ hid m = Some r ∧ after σ hid m = Sys w' (<[hid := h']> (y_handles σ)) (y_txns σ).
Proof. intros Hl Hm. unfold result, after, with_handle. by rewrite Hl, Hm. Qed.

Lemma add_cases σ hid h m n k sid s p :
  y_handles σ !! hid = Some h → h_meta h = m → seen s σ hid h p m →
  let i := match sid with Some i => i | None => md_current m end in
  (can_add m n i ∧ ∃ u w', add_reference n k sid (h, y_world σ)
      = ((Handle (with_refs m (<[n := SRef i k]> (md_refs m))) (MFull (PGen KMeta u)) (h_branch h) (h_max h), w'), Ok tt)
      ∧ stored (w_fs w') (PGen KMeta u) (with_refs m (<[n := SRef i k]> (md_refs m))))
  ∨ (¬ can_add m n i ∧ ∃ e, add_reference n k sid (h, y_world σ) = ((h, y_world σ), Err (EUser e))
      ∧ match e with
        | UVersionNotFound => md_snaps m !! i = None
        | UInput => n = "" ∨ n = MAIN
        | UVersionExists => is_Some (md_refs m !! n)
        | _ => False
        end).
Proof.
  intros Hl <- Hs i. assert (Hi : default (md_current (h_meta h)) sid = i) by (by destruct sid).
  destruct (add_reference_run s h (y_world σ) n k sid) as [(e&He&Hwhy)|(H1&H2&H3&H4&u&w'&He&_&_&Hst&_)]; [apply Hs|apply Hs| |].
  - right. rewrite Hi in Hwhy. split.
    { intros (Hsn&?&?&Hn). rewrite Hn in Hwhy. destruct Hsn as [? Hsn]. rewrite Hsn in Hwhy. destruct Hwhy as [?|[?|[?|[? ?]]]]; done. }
    clear He. unfold add_reference. rewrite get_handle_bind. rewrite Hi.
    case_decide as Hsn; [|eexists; split; [done|]; by apply eq_None_not_Some].
    case_decide; [eexists; split; [done|]; by left|]. case_decide; [eexists; split; [done|]; by right|].
    case_decide as Hr; [eexists; split; [done|]; done|].
    exfalso. apply eq_None_not_Some in Hr. rewrite Hr in Hwhy. destruct Hsn as [? Hsn]. rewrite Hsn in Hwhy.
    destruct Hwhy as [?|[?|[?|[? ?]]]]; done.
  - left. rewrite Hi in *. split; [done|]. by exists u, w'.
Qed.
Lemma remove_cases σ hid h m n k s p :
  y_handles σ !! hid = Some h → h_meta h = m → seen s σ hid h p m →
  (is_ref m n k ∧ ∃ u w', remove_reference n k (h, y_world σ)
      = ((Handle (with_refs m (delete n (md_refs m))) (MFull (PGen KMeta u)) (h_branch h) (h_max h), w'), Ok tt)
      ∧ stored (w_fs w') (PGen KMeta u) (with_refs m (delete n (md_refs m))))
  ∨ (¬ is_ref m n k ∧ remove_reference n k (h, y_world σ) = ((h, y_world σ), Err (EUser UVersionNotFound))).
Proof.
  intros Hl <- Hs. destruct (remove_reference_run s h (y_world σ) n k) as [(e&He&Hwhy)|(r&H1&H2&u&w'&He&_&_&Hst&_)]; [apply Hs|apply Hs| |].
  - right. split; [by intros [i Hn]; apply (Hwhy _ Hn)|]. unfold remove_reference in *. rewrite get_handle_bind in *.
    destruct (md_refs (h_meta h) !! n) as [r|] eqn:Hr; [|done]. case_decide as Hk; [|done]. by destruct (Hwhy r).
  - left. split; [|by exists u, w']. exists (rf_id r). rewrite H1. by destruct r; cbn in *; subst.
Qed.
Lemma branch_cases h m w n :
  h_meta h = m →
  ((n = MAIN ∨ is_ref m n RBranch) ∧ set_current_branch n (h, w) = ((Handle (h_meta h) (h_file h) n (h_max h), w), Ok tt))
  ∨ (n ≠ MAIN ∧ ¬ is_ref m n RBranch ∧ ∃ e, set_current_branch n (h, w) = ((h, w), Err (EUser e))
      ∧ match e with UVersionNotFound => md_refs m !! n = None | UInput => is_ref m n RTag | _ => False end).
Proof.
  intros <-. unfold set_current_branch. rewrite get_handle_bind, lift_bind. case_decide as Hn; [left; split; [by left|done]|].
  unfold lookup_reference. destruct (md_refs (h_meta h) !! n) as [[i k]|] eqn:Hr; cbn [of_opt rbind].
  - cbn [rf_kind]. case_decide as Hk.
    + left. split; [right; exists i; by rewrite Hr, Hk|done].
    + right. split_and!; [done|intros [j Hj]; congruence|]. exists UInput. split; [done|].
      exists i. rewrite Hr. by destruct k.
  - right. split_and!; [done|intros [j Hj]; congruence|]. by exists UVersionNotFound.
Qed.
Lemma insert_same (σ : sys) hid h : y_handles σ !! hid = Some h → Sys (y_world σ) (<[hid := h]> (y_handles σ)) (y_txns σ) = σ.
Proof. intros. rewrite insert_id by done. by destruct σ. Qed.

Lemma edit_outcome σ hid h m d :
  reachable σ → y_handles σ !! hid = Some h → stored_meta (w_fs (y_world σ)) = Some m → up_to_date σ hid →
  let σ' := after σ hid (run_edit d) in
  (allowed m (h_branch h) d ∧ result σ hid (run_edit d) = Some (Ok tt)
   ∧ stored_meta (w_fs (y_world σ')) = Some (Metadata (md_schema m) (md_current m) (md_snaps m) (refs_after m d))
   ∧ up_to_date σ' hid
   ∧ ∃ h', y_handles σ' = <[hid := h']> (y_handles σ)
       ∧ h_branch h' = (match d with EdSetBranch n => n | _ => h_branch h end))
  ∨ (¬ allowed m (h_branch h) d ∧ σ' = σ ∧ ∃ e, result σ hid (run_edit d) = Some (Err (EUser e)) ∧ refusal m (h_branch h) d e).
Proof.
  intros Hr Hl Hm Hup. cbn zeta. destruct (reachable_seen _ _ _ Hr Hl) as (s&p&m0&Hs).
  pose proof (stored_meta_eq _ _ _ (sn_stored _ _ _ _ _ _ Hs)) as Hm0. assert (m0 = m) as -> by congruence.
  assert (Hhm : h_meta h = m) by (specialize (Hup h Hl); congruence).
  assert (Hadd : ∀ n k sid, run_edit d = add_reference n k sid →
     (allowed m (h_branch h) d ↔ can_add m n (match sid with Some i => i | None => md_current m end)) →
     refs_after m d = <[n := SRef (match sid with Some i => i | None => md_current m end) k]> (md_refs m) →
     (∀ b, d ≠ EdSetBranch b) →
     (∀ e, match e with
        | UVersionNotFound => md_snaps m !! (match sid with Some i => i | None => md_current m end) = None
        | UInput => n = "" ∨ n = MAIN
        | UVersionExists => is_Some (md_refs m !! n)
        | _ => False
        end → refusal m (h_branch h) d e) →
     (allowed m (h_branch h) d ∧ result σ hid (run_edit d) = Some (Ok tt)
     ∧ stored_meta (w_fs (y_world (after σ hid (run_edit d)))) = Some (Metadata (md_schema m) (md_current m) (md_snaps m) (refs_after m d))
     ∧ up_to_date (after σ hid (run_edit d)) hid
     ∧ ∃ h', y_handles (after σ hid (run_edit d)) = <[hid := h']> (y_handles σ)
         ∧ h_branch h' = (match d with EdSetBranch n => n | _ => h_branch h end))
    ∨ (¬ allowed m (h_branch h) d ∧ after σ hid (run_edit d) = σ ∧ ∃ e, result σ hid (run_edit d) = Some (Err (EUser e)) ∧ refusal m (h_branch h) d e)).
  { intros n k sid Hrun Hall Href Hns Hre. rewrite Hrun, Hall, Href.
    destruct (add_cases σ hid h m n k sid s p Hl Hhm Hs) as [(Hc&u&w'&He&Hst)|(Hc&e&He&Hwhy)];
      destruct (with_handle_ok _ _ _ _ _ _ _ Hl He) as [-> ->].
    - left. split_and!; [done|done|by apply stored_meta_eq in Hst|..].
      + intros h0. cbn. rewrite lookup_insert. intros [= <-]. by apply stored_meta_eq in Hst.
      + eexists. split; [done|]. destruct d; try done. by destruct (Hns b).
    - right. split_and!; [done|by apply insert_same|]. eexists. split; [done|]. by apply Hre. }
  assert (Hrem : ∀ n k, run_edit d (h, y_world σ) = remove_reference n k (h, y_world σ) →
     (allowed m (h_branch h) d ↔ is_ref m n k) → refs_after m d = delete n (md_refs m) → (∀ b, d ≠ EdSetBranch b) →
     (¬ is_ref m n k → refusal m (h_branch h) d UVersionNotFound) →
     (allowed m (h_branch h) d ∧ result σ hid (run_edit d) = Some (Ok tt)
     ∧ stored_meta (w_fs (y_world (after σ hid (run_edit d)))) = Some (Metadata (md_schema m) (md_current m) (md_snaps m) (refs_after m d))
     ∧ up_to_date (after σ hid (run_edit d)) hid
     ∧ ∃ h', y_handles (after σ hid (run_edit d)) = <[hid := h']> (y_handles σ)
         ∧ h_branch h' = (match d with EdSetBranch n => n | _ => h_branch h end))
    ∨ (¬ allowed m (h_branch h) d ∧ after σ hid (run_edit d) = σ ∧ ∃ e, result σ hid (run_edit d) = Some (Err (EUser e)) ∧ refusal m (h_branch h) d e)).
  { intros n k Hrun Hall Href Hns Hre. rewrite Hall, Href.
    destruct (remove_cases σ hid h m n k s p Hl Hhm Hs) as [(Hc&u&w'&He&Hst)|(Hc&He)]; rewrite <-Hrun in He;
      destruct (with_handle_ok _ _ _ _ _ _ _ Hl He) as [-> ->].
    - left. split_and!; [done|done|by apply stored_meta_eq in Hst|..].
      + intros h0. cbn. rewrite lookup_insert. intros [= <-]. by apply stored_meta_eq in Hst.
      + eexists. split; [done|]. destruct d; try done. by destruct (Hns b).
    - right. split_and!; [done|by apply insert_same|]. eexists. split; [done|]. by apply Hre. }
  destruct d as [b|n sid|n|n|n].
  - destruct (branch_cases h m (y_world σ) b Hhm) as [(Hc&He)|(Hc1&Hc2&e&He&Hwhy)]; change (set_current_branch b) with (run_edit (EdSetBranch b)) in He;
      destruct (with_handle_ok _ _ _ _ _ _ _ Hl He) as [-> ->].
    + left. split_and!; [done|done|cbn; rewrite Hm; by destruct m| |by eexists].
      intros h0. cbn. rewrite lookup_insert. intros [= <-]. cbn. by rewrite Hhm.
    + right. split_and!; [cbn; tauto|by apply insert_same|]. eexists. split; [done|]. done.
  - apply (Hadd n RTag sid); try done; [|by destruct sid]; by destruct sid.
  - apply (Hadd n RBranch None); try done. intros [] Hw; try done. 
    exfalso. destruct (wm_current _ _ _ (sn_meta _ _ _ _ _ _ Hs)) as [? Hcur]. congruence.
  - apply (Hrem n RTag); try done.
  - destruct (decide (n = h_branch h)) as [Hn|Hn].
    + right. assert (He : run_edit (EdRemoveBranch n) (h, y_world σ) = ((h, y_world σ), Err (EUser UInput))).
      { cbn [run_edit]. unfold remove_branch. rewrite get_handle_bind. by rewrite decide_True. }
      destruct (with_handle_ok _ _ _ _ _ _ _ Hl He) as [-> ->]. split_and!; [by intros [_ ?]|by apply insert_same|]. by eexists.
    + apply (Hrem n RBranch); try done.
      * cbn [run_edit]. unfold remove_branch. rewrite get_handle_bind. by rewrite decide_False.
      * cbn. tauto.
Qed.
