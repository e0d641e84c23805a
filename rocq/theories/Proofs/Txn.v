(** Transactions. *)
From Verif.Model Require Import System.
From Verif.Spec Require Import Logical.
From Verif.Proofs Require Import Lib World Resolve AppendSpec SchemaFacts ReadSpec Wf OpSpec Inv FileSet Ops Bodies.

Lemma bind_run' {S A B} (m : ST S A) (k : A → ST S B) s s1 r :
  m s = (s1, r) → bind m k s = match r with Ok a => k a s1 | Err e => (s1, Err e) end.
Proof. unfold bind. by intros ->. Qed.
Lemma txn_begin_run p m h w :
  stored (w_fs w) p m → h_meta (sync p m h) = m →
  txn_begin (h, w) = ((sync p m h, w),
    match head_of m (h_branch h) with
    | Some i => Ok (Txn (h_branch h) i) | None => Err (EUser UVersionNotFound) end).
Proof.
  intros Hst Hm. unfold txn_begin. rewrite get_handle_bind. erewrite bind_run; [|by apply reload_run].
  rewrite get_handle_bind, lift_bind, current_snapshot_id_head, Hm. by destruct (head_of m (h_branch h)).
Qed.
(** Transaction.commit up to the write, on the state it reloads. *)
Lemma txn_check_run p m x op h w :
  stored (w_fs w) p m → h_meta (sync p m h) = m →
  txn_check x op (h, w) = ((sync p m h, w),
    match head_of m (x_branch x) with
    | None => Err (EUser UVersionNotFound)
    | Some i => Ok (if (x_snap x =? i)%Z then match op with None => Some JSkipped | Some _ => None end
                    else Some JFailed)
    end).
Proof.
  intros Hst Hm. unfold txn_check. erewrite bind_run; [|by apply reload_run].
  rewrite get_handle_bind, lift_bind, current_snapshot_id_head, Hm. destruct (head_of m (x_branch x)); [|done].
  cbn. case_match; [|done]. by destruct op.
Qed.

(** What Transaction.commit does. *)
Inductive commit_result (s : schema) (x : txn) (op : option patch) (m : metadata) (h0 : handle) (w : world)
  : handle → world → res job → Prop :=
| CrNoBranch : head_of m (x_branch x) = None → commit_result s x op m h0 w h0 w (Err (EUser UVersionNotFound))
| CrStale i : head_of m (x_branch x) = Some i → i ≠ x_snap x → commit_result s x op m h0 w h0 w (Ok JFailed)
| CrSkip : head_of m (x_branch x) = Some (x_snap x) → op = None →
    commit_result s x op m h0 w h0 w (Ok JSkipped)
| CrFail p w' e : head_of m (x_branch x) = Some (x_snap x) → op = Some p → wnew w w' →
    match e with EOther _ => False | _ => True end → ¬ commit_ready p (x_branch x) m →
    commit_result s x op m h0 w (bump_max h0) w' (Err e)
| CrDone p h' w' : head_of m (x_branch x) = Some (x_snap x) → op = Some p →
    committed s p (x_branch x) h0 w h' w' →
    commit_result s x op m h0 w h' w' (Ok (JSucceeded (pa_stats p))).
Lemma txn_commit_run s x op h w p m :
  winv s w → wf_handle s w h → wf_opatch s (w_fs w) op →
  stored (w_fs w) p m → wf_meta s (w_fs w) m →
  ∃ h' w' r, txn_commit x op (h, w) = ((h', w'), r) ∧ commit_result s x op m (sync p m h) w h' w' r.
Proof.
  intros Hi Hh Hop Hst Hm. destruct (sync_spec s w p m h Hst Hm Hh) as (Hh0&Hm0&Hf0&Hb0&Hmax).
  unfold txn_commit. erewrite bind_run'; [|by apply txn_check_run].
  destruct (head_of m (x_branch x)) as [i|] eqn:Hhead.
  2:{ do 3 eexists. split; [done|]. by constructor. }
  destruct (Z.eqb_spec (x_snap x) i) as [Heq|Hne].
  2:{ do 3 eexists. split; [done|]. by eapply CrStale. }
  subst i. destruct op as [q|].
  2:{ do 3 eexists. split; [done|]. by constructor. }
  destruct (commit_run s q (x_branch x) (sync p m h) w w) as [(w'&e&Hr&Hw'&He&Hnr)|(h'&w'&Hr&Hc)]; try done.
  { apply wnew_refl. } { by rewrite Hm0. }
  - do 3 eexists. split; [erewrite bind_run'; [|exact Hr]; done|]. rewrite Hm0 in Hnr. by eapply CrFail.
  - do 3 eexists. split; [erewrite bind_run'; [|exact Hr]; done|]. by eapply CrDone.
Qed.

Definition catch (r : res job) : res job :=
  match r with Err (EUser _) | Err (ERuntime _) => Ok JFailed | _ => r end.
Lemma catch_job_run m hw hw' r : m hw = (hw', r) → catch_job m hw = (hw', catch r).
Proof. unfold catch_job, catch. intros ->. by destruct r as [|[]]. Qed.

(** What an uninterrupted mutating method does. *)
Inductive txn_result (s : schema) (fn : H (option patch)) (m : metadata) (h0 : handle) (w : world)
  : handle → world → res job → Prop :=
| TrNoBranch : head_of m (h_branch h0) = None → txn_result s fn m h0 w h0 w (Ok JFailed)
| TrError w' e : is_Some (head_of m (h_branch h0)) → fn (h0, w) = ((h0, w'), Err e) → wnew w w' →
    txn_result s fn m h0 w h0 w' (catch (Err e))
| TrSkip w' : is_Some (head_of m (h_branch h0)) → fn (h0, w) = ((h0, w'), Ok None) → wnew w w' →
    txn_result s fn m h0 w h0 w' (Ok JSkipped)
| TrFail p w1 w' : fn (h0, w) = ((h0, w1), Ok (Some p)) → wnew w w1 → wnew w w' →
    ¬ commit_ready p (h_branch h0) m →
    txn_result s fn m h0 w (bump_max h0) w' (Ok JFailed)
| TrDone p w1 h' w' : fn (h0, w) = ((h0, w1), Ok (Some p)) → wnew w w1 →
    committed s p (h_branch h0) h0 w1 h' w' →
    txn_result s fn m h0 w h' w' (Ok (JSucceeded (pa_stats p))).
Lemma transactional_run s fn h w p m :
  winv s w → wf_handle s w h → stored (w_fs w) p m → wf_meta s (w_fs w) m →
  (∀ h0, wf_handle s w h0 → h_meta h0 = m →
    ∃ w' r, fn (h0, w) = ((h0, w'), r) ∧ wnew w w' ∧ match r with Ok op => wf_opatch s (w_fs w') op | _ => True end) →
  ∃ h' w' r, transactional fn (h, w) = ((h', w'), r) ∧ txn_result s fn m (sync p m h) w h' w' r.
Proof.
  intros Hi Hh Hst Hm Hfn. destruct (sync_spec s w p m h Hst Hm Hh) as (Hh0&Hm0&Hf0&Hb0&Hmax).
  set (h0 := sync p m h) in *. unfold transactional.
  destruct (head_of m (h_branch h)) as [i|] eqn:Hhead.
  2:{ eexists h0, w, _. split; [|apply TrNoBranch; congruence]. erewrite catch_job_run; [|].
      2:{ erewrite bind_run'; [|apply (txn_begin_run p m); done]. rewrite Hhead. done. } done. }
  destruct (Hfn h0) as (w1&r&Hr&Hw1&Hok); [done..|].
  pose proof (stored_wnew _ _ _ _ _ Hi Hw1 Hst) as Hst1.
  assert (Hbegin : ∀ {A} (k : txn → H A), bind txn_begin k (h, w) = k (Txn (h_branch h) i) (h0, w)).
  { intros. erewrite bind_run'; [|apply (txn_begin_run p m); done]. by rewrite Hhead. }
  destruct r as [op|e].
  2:{ eexists h0, w1, _. split; [|apply TrError; [rewrite Hb0, Hhead; eauto|done..]].
      erewrite catch_job_run; [done|]. rewrite Hbegin. erewrite bind_run'; [|exact Hr]. done. }
  destruct (txn_commit_run s (Txn (h_branch h) i) op h0 w1 p m) as (h'&w'&r&Hr2&Hc); try done.
  { by eapply winv_wnew. } { eapply wf_handle_keeps; [|done]. apply wnew_keeps; [apply Hi|done]. }
  { eapply wf_meta_keeps; [|done]. apply wnew_keeps; [apply Hi|done]. }
  rewrite (sync_synced p m h0) in Hc by done.
  assert (Hrun : catch_job (let! x := txn_begin in let! p0 := fn in txn_commit x p0)%st (h, w) = ((h', w'), catch r)).
  { apply catch_job_run. rewrite Hbegin. erewrite bind_run'; [|exact Hr]. done. }
  exists h', w', (catch r). split; [exact Hrun|]. clear Hrun Hr2.
  destruct Hc as [Hn|j Hj Hne|Hj ->|q w' e Hj -> Hw' He Hnr|q h' w' Hj -> Hcm]; cbn in *.
  - congruence.
  - congruence.
  - apply TrSkip; [rewrite Hb0, Hhead; eauto|done..].
  - destruct e; try done; (eapply TrFail; eauto; [by eapply wnew_trans|by rewrite Hb0]).
  - rewrite <-Hb0 in Hcm. by eapply TrDone.
Qed.

Lemma committed_step_from s p b h w0 w h' w' :
  wnew w0 w → committed s p b h w h' w' → wstep w0 w'.
Proof. intros Hw Hc. eapply wnew_wstep; [done|]. apply Hc. Qed.
Lemma txn_result_step s fn m h0 w h' w' r :
  winv s w → wf_handle s w h0 → txn_result s fn m h0 w h' w' r →
  wstep w w' ∧ winv s w' ∧ wf_handle s w' h'.
Proof.
  intros Hi Hh [Hn|w1 e _ _ Hw|w1 _ _ Hw|p w1 w2 _ Hw1 Hw|p w1 h1 w2 _ Hw1 Hc].
  - split_and!; try done. constructor. apply wnew_refl.
  - assert (wstep w w1) by by constructor. split_and!; [done|by eapply winv_wnew|by eapply wf_handle_wstep].
  - assert (wstep w w1) by by constructor. split_and!; [done|by eapply winv_wnew|by eapply wf_handle_wstep].
  - assert (wstep w w2) by by constructor. split_and!; [done|by eapply winv_wnew|].
    apply bump_max_wf. by eapply wf_handle_wstep.
  - split_and!; [by eapply committed_step_from|apply Hc|apply Hc].
Qed.
Lemma run_op_run E fo s o h w p m :
  winv s w → wf_handle s w h → op_ok s (w_fs w) o → stored (w_fs w) p m → wf_meta s (w_fs w) m →
  ∃ h' w' r, run_op E fo o (h, w) = ((h', w'), r) ∧ txn_result s (op_body E fo o) m (sync p m h) w h' w' r.
Proof.
  intros Hi Hh Hok Hst Hm. apply transactional_run; try done.
  intros h0 Hh0 _. destruct (op_body_run E fo s o h0 w Hi Hh0 Hok) as (w'&r&?&?&Hr). exists w', r.
  split_and!; try done. destruct r; [|done]. apply Hr.
Qed.

(** Editing references. *)
Lemma run_edit_step s d h w :
  winv s w → wf_handle s w h →
  ∃ h' w' r, run_edit d (h, w) = ((h', w'), r) ∧ wstep w w' ∧ winv s w' ∧ wf_handle s w' h'.
Proof.
  intros Hi Hh. assert (Hrefl : wstep w w) by (constructor; apply wnew_refl).
  assert (Hadd : ∀ n k sid, ∃ h' w' r, add_reference n k sid (h, w) = ((h', w'), r) ∧ wstep w w' ∧ winv s w' ∧ wf_handle s w' h').
  { intros. destruct (add_reference_run s h w n k sid Hi Hh) as [(e&Hr&_)|(_&_&_&_&u&w'&Hr&Hs&Hi'&Hst&_&Hh')].
    - by eexists h, w, _. - do 3 eexists. by split_and!. }
  assert (Hrem : ∀ n k, ∃ h' w' r, remove_reference n k (h, w) = ((h', w'), r) ∧ wstep w w' ∧ winv s w' ∧ wf_handle s w' h').
  { intros. destruct (remove_reference_run s h w n k Hi Hh) as [(e&Hr&_)|(r&_&_&u&w'&Hr&Hs&Hi'&Hst&_&Hh')].
    - by eexists h, w, _. - do 3 eexists. by split_and!. }
  destruct d; cbn [run_edit]; unfold add_tag, add_branch, remove_tag, remove_branch; auto.
  - unfold set_current_branch. rewrite get_handle_bind, lift_bind. case_match; [|by do 3 eexists; split].
    do 3 eexists. split; [done|]. split_and!; try done; apply Hh.
  - rewrite get_handle_bind. case_decide; [by do 3 eexists; split|auto].
Qed.
