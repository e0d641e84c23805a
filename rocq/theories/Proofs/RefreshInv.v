(** A refresh keeps the invariants of both storages. *)
From Verif.Model Require Import System Refresh.
From Verif.Spec Require Import Logical Pruning Keys Layout Changes Api Refreshing.
From Verif.Proofs Require Import Lib World Resolve AppendSpec SchemaFacts ReadSpec Wf OpSpec
  Inv FileSet Ops Bodies Txn SysInv ReadRun Effects Observe View Prune Keys DeleteEffect Mutations Calls Diff Edge Replay AnyOp RayDiff Reads
  RefreshStep RefreshLoop RefreshSource.

Record moves (s : schema) (a b : handle * world) : Prop := {
  mo_world : winv s b.2;
  mo_handle : wf_handle s b.2 b.1;
  mo_keeps : keeps (w_fs a.2) (w_fs b.2) }.
Definition fine (s : schema) (a : handle * world) : Prop := winv s a.2 ∧ wf_handle s a.2 a.1.
Lemma moves_fine s a b : moves s a b → fine s b.
Proof. by intros [? ? ?]. Qed.
Lemma moves_trans s a b c : moves s a b → moves s b c → moves s a c.
Proof. intros [? ? ?] [? ? ?]. constructor; try done. by eapply keeps_trans. Qed.
Lemma moves_refl s a : fine s a → moves s a a.
Proof. intros [? ?]. constructor; try done. by intros ? ?. Qed.
Lemma wstep_moves s h w h' w' : winv s w → wstep w w' → winv s w' → wf_handle s w' h' → moves s (h, w) (h', w').
Proof.
  intros Hi Hw Hi' Hh'. constructor; try done. apply wstep_keeps; [apply Hi|by eapply winv_fine|done].
Qed.
Lemma begin_moves s a b r : fine s a → txn_begin a = (b, r) → moves s a b.
Proof.
  destruct a as [h w]. intros [Hi Hh] H. cbn [fst snd] in *. destruct (wi_stored _ _ Hi) as (p&m&Hst&Hm).
  destruct (sync_spec s w p m h Hst Hm Hh) as (Hh0&Hm0&_). rewrite (txn_begin_run p m) in H by done.
  injection H as <- _. constructor; try done. by intros ? ?.
Qed.
Lemma commit_moves s x op a b r :
  fine s a → wf_opatch s (w_fs a.2) op → txn_commit x op a = (b, r) → moves s a b.
Proof.
  destruct a as [h w]. intros [Hi Hh] Hop H. cbn [fst snd] in *. destruct (wi_stored _ _ Hi) as (p&m&Hst&Hm).
  destruct (sync_spec s w p m h Hst Hm Hh) as (Hh0&Hm0&_).
  destruct (txn_commit_run s x op h w p m Hi Hh Hop Hst Hm) as (h'&w'&r'&Hr&Hc). rewrite Hr in H. injection H as <- <-.
  destruct Hc as [?|? ? ?|? ?|pa w' e ? ? Hw ? ?|pa h' w' ? ? [? Hs Hi' Hh']].
  - constructor; try done. by intros ? ?.
  - constructor; try done. by intros ? ?.
  - constructor; try done. by intros ? ?.
  - apply wstep_moves; [done|by constructor|by eapply winv_wnew|].
    apply bump_max_wf. eapply wf_handle_keeps; [|done]. apply wnew_keeps; [apply Hi|done].
  - by apply wstep_moves.
Qed.

Section inv.
Context {F : Type} (map_fn : F → row → list row) (keep_fn : F → row → bool).
Context (E : env) (O : fopts) (n : nat) (blocks : bool) (v : view F).
Context (sm ss : schema) (Hn : 1 ≤ n).
Notation try_change := (try_change map_fn keep_fn E O n v).
Notation refresh_change := (refresh_change map_fn keep_fn E O n v).
Notation refresh_snapshot := (refresh_snapshot map_fn keep_fn E O n blocks v).

Definition pending_ok (st : res progress) (b : handle * world) : Prop :=
  match st with Ok (Going _ ps _ _) => Forall (wf_opatch sm (w_fs b.2)) ps | _ => True end.

Lemma try_moves c x ps jobs a b r :
  fine sm a → Forall (wf_opatch sm (w_fs a.2)) ps → try_change c x ps jobs a = (b, r) → moves sm a b ∧ pending_ok r b.
Proof.
  destruct a as [h w]. intros [Hi Hh] Hps H. cbn [fst snd] in *. unfold Refresh.try_change in H.
  destruct (process_change_run map_fn keep_fn E O n v sm c h w Hn Hi Hh) as (w'&r'&Hr&Hw&Hok). rewrite Hr in H.
  assert (Hk : keeps (w_fs w) (w_fs w')) by (apply wnew_keeps; [apply Hi|done]).
  assert (Hmv : moves sm (h, w) (h, w')).
  { constructor; cbn; [by eapply winv_wnew|by eapply wf_handle_keeps|done]. }
  destruct r' as [op|e].
  - injection H as <- <-. split; [done|]. cbn. apply Forall_app. split; [|by constructor].
    eapply Forall_impl; [exact Hps|]. intros q Hq. by eapply wf_opatch_keeps.
  - destruct e; injection H as <- <-; by split.
Qed.
Lemma change_moves st c a b r :
  fine sm a → pending_ok (Ok st) a → refresh_change st c a = (b, r) → moves sm a b ∧ pending_ok r b.
Proof.
  intros Ha Hp H. destruct st as [jobs|x ps prev jobs]; cbn [Refresh.refresh_change] in H.
  { injection H as <- <-. split; [by apply moves_refl|done]. }
  cbn [pending_ok] in Hp. destruct prev as [i|]; [|by eapply try_moves]. destruct (i =? rc_snap c)%Z; [by eapply try_moves|].
  destruct (txn_commit x (merge_patches ps) a) as [b1 r1] eqn:Hc.
  assert (Hm1 : moves sm a b1) by (eapply commit_moves; [done|by apply merge_patches_wf|exact Hc]).
  rewrite (bind_run' _ _ _ _ _ Hc) in H. destruct r1 as [j|e]; [|by injection H as <- <-].
  assert (Hcont : bind txn_begin (fun x' => try_change c x' [] (jobs ++ [j])) b1 = (b, r) → moves sm a b ∧ pending_ok r b).
  { intros H'. destruct (txn_begin b1) as [b2 r2] eqn:Hb. pose proof (begin_moves _ _ _ _ (moves_fine _ _ _ Hm1) Hb) as Hm2.
    rewrite (bind_run' _ _ _ _ _ Hb) in H'. destruct r2 as [x'|e].
    - apply try_moves in H' as [Hm3 ?]; [|by eapply moves_fine|constructor]. split; [|done].
      eapply moves_trans; [exact Hm1|]. by eapply moves_trans.
    - injection H' as <- <-. split; [|done]. by eapply moves_trans. }
  destruct j; [by apply Hcont|by injection H as <- <-|by apply Hcont].
Qed.
Lemma changes_moves cs st a b r :
  fine sm a → pending_ok (Ok st) a → foldM_st refresh_change st cs a = (b, r) → moves sm a b ∧ pending_ok r b.
Proof.
  revert st a. induction cs as [|c cs IH]; intros st a Ha Hp H; cbn [foldM_st] in H.
  { injection H as <- <-. split; [by apply moves_refl|done]. }
  destruct (refresh_change st c a) as [a1 r1] eqn:H1. destruct (change_moves _ _ _ _ _ Ha Hp H1) as [Hm Hp1].
  rewrite (bind_run' _ _ _ _ _ H1) in H. destruct r1 as [st1|e]; [|by injection H as <- <-].
  destruct (IH st1 a1 (moves_fine _ _ _ Hm) Hp1 H) as [? ?]. split; [by eapply moves_trans|done].
Qed.
Lemma snapshots_move hs ws hl batch ids st a lb b r :
  winv ss ws → wf_meta ss (w_fs ws) (h_meta hs) → fine sm a → pending_ok (Ok st) a →
  foldM_st (refresh_snapshot hs batch) st ids ((hl, ws), a) = ((lb, b), r) →
  lb = (hl, ws) ∧ moves sm a b ∧ pending_ok r b.
Proof.
  intros Hi Hm. revert st a. induction ids as [|i ids IH]; intros st a Ha Hp H; cbn [foldM_st] in H.
  { injection H as <- <- <-. split; [done|]. split; [by apply moves_refl|done]. }
  destruct (refresh_snapshot hs batch st i ((hl, ws), a)) as [[l1 a1] r1] eqn:H1.
  assert (l1 = (hl, ws) ∧ moves sm a a1 ∧ pending_ok r1 a1) as (->&Hm1&Hp1).
  { destruct st as [jobs|x ps prev jobs]; cbn [Refresh.refresh_snapshot] in H1.
    { injection H1 as <- <- <-. split; [done|]. split; [by apply moves_refl|done]. }
    destruct (ray_changes_run E E ss n blocks hs ws i batch batch Hn Hi Hm) as (?&rc&_&Hrc&_).
    rewrite (bind_run' _ _ _ _ _ (on_left_ret _ _ a _ _ (liftM_run _ hl _ _ _ Hrc))) in H1.
    destruct rc as [cs|e]; [|injection H1 as <- <- <-; split; [done|]; split; [by apply moves_refl|done]].
    apply on_right_inv in H1 as [-> H1]. split; [done|]. by eapply changes_moves. }
  rewrite (bind_run' _ _ _ _ _ H1) in H. destruct r1 as [st1|e]; [|by injection H as <- <- <-].
  destruct (IH st1 a1 (moves_fine _ _ _ Hm1) Hp1 H) as (->&?&?). split; [done|]. split; [by eapply moves_trans|done].
Qed.

Lemma run_moves target batch hs ws ps ms a la b r :
  winv ss ws → wf_handle ss ws hs → stored (w_fs ws) ps ms → wf_meta ss (w_fs ws) ms → fine sm a →
  run_refresh map_fn keep_fn E O n blocks v target batch ((hs, ws), a) = ((la, b), r) →
  (la = (hs, ws) ∨ la = (sync ps ms hs, ws)) ∧ moves sm a b.
Proof.
  intros Hi Hh Hst Hm Ha H. destruct (sync_spec ss ws ps ms hs Hst Hm Hh) as (Hh0&Hm0&_).
  unfold run_refresh in H.
  change (bind (on_left get_handle) ?k ((hs, ws), a)) with (k hs ((hs, ws), a)) in H. cbv beta zeta in H.
  rewrite lift_bind in H. destruct (match target with None => _ | Some _ => _ end) as [stop|e].
  2:{ injection H as <- <- <-. split; [by left|by apply moves_refl]. }
  destruct a as [h w]. change (bind (on_right get_handle) ?k ((hs, ws), (h, w))) with (k h ((hs, ws), (h, w))) in H. cbv beta zeta in H.
  destruct (txn_begin (h, w)) as [b1 r1] eqn:Hb. pose proof (begin_moves _ _ _ _ Ha Hb) as Hm1.
  assert (Hb' : on_right txn_begin ((hs, ws), (h, w)) = (((hs, ws), b1), r1)) by (unfold on_right; by rewrite Hb).
  rewrite (bind_run' _ _ _ _ _ Hb') in H. destruct r1 as [x|e]; [|injection H as <- <- <-; split; [by left|done]].
  rewrite (bind_run' _ _ _ _ _ (on_left_ret _ _ b1 _ _ (reload_run ps ms hs ws Hst))) in H.
  change (bind (on_left get_handle) ?k ((sync ps ms hs, ws), b1)) with (k (sync ps ms hs) ((sync ps ms hs, ws), b1)) in H. cbv beta in H.
  rewrite lift_bind in H. destruct (ordered_snapshot_ids _ _ _) as [ids|e]; [|injection H as <- <- <-; split; [by right|done]].
  change (bind (foldM_st (refresh_snapshot (sync ps ms hs) batch) (Going x [] None []) ids) finish ((sync ps ms hs, ws), b1) = ((la, b), r)) in H.
  destruct (foldM_st (refresh_snapshot (sync ps ms hs) batch) (Going x [] None []) ids ((sync ps ms hs, ws), b1)) as [[l2 b2] r2] eqn:Hf.
  rewrite (bind_run' _ _ _ _ _ Hf) in H.
  apply snapshots_move in Hf as (->&Hm2&Hp2); [|done|by rewrite Hm0|by eapply moves_fine|constructor].
  pose proof (moves_trans _ _ _ _ Hm1 Hm2) as Hm12.
  destruct r2 as [[jobs|x' [|p0 pts] prev jobs]|e]; cbn [finish] in H;
    try (injection H as <- <- <-; split; [by right|done]).
  destruct (txn_commit x' (merge_patches (p0 :: pts)) b2) as [b3 r3] eqn:Hc.
  assert (Hm3 : moves sm b2 b3) by (eapply commit_moves; [by eapply moves_fine|by apply merge_patches_wf|exact Hc]).
  assert (Hc' : on_right (txn_commit x' (merge_patches (p0 :: pts))) ((sync ps ms hs, ws), b2) = (((sync ps ms hs, ws), b3), r3))
    by (unfold on_right; by rewrite Hc).
  rewrite (bind_run' _ _ _ _ _ Hc') in H. pose proof (moves_trans _ _ _ _ Hm12 Hm3).
  destruct r3; injection H as <- <- <-; (split; [by right|done]).
Qed.

(** A successful refresh is the transactions of the changed snapshots. *)
Lemma run_chain target batch hs ws ps ms h w p m la b jobs i j l :
  winv ss ws → wf_handle ss ws hs → stored (w_fs ws) ps ms → wf_meta ss (w_fs ws) ms →
  winv sm w → wf_handle sm w h → stored (w_fs w) p m → wf_meta sm (w_fs w) m →
  run_refresh map_fn keep_fn E O n blocks v target batch ((hs, ws), (h, w)) = ((la, b), Ok jobs) → JFailed ∉ jobs →
  md_current (h_meta h) = i → match target with None => Some (md_current (h_meta hs)) | Some t => named (h_meta hs) t end = Some j →
  path_to ms i j l →
  ∃ groups, Forall2 (fun i cs => ray_read_changes E n blocks (sync ps ms hs) i batch ws = (ws, Ok cs)) l groups
    ∧ mv_chain map_fn keep_fn E O n v (filter (fun g => g ≠ []) groups) (sync p m h, w) b jobs.
Proof.
  intros Hi Hh Hst Hm Hi' Hh' Hst' Hm' H Hj Hcur Htgt Hpath.
  destruct (sync_spec ss ws ps ms hs Hst Hm Hh) as (Hh0&Hm0&_).
  unfold run_refresh in H.
  change (bind (on_left get_handle) ?k ((hs, ws), (h, w))) with (k hs ((hs, ws), (h, w))) in H. cbv beta zeta in H.
  rewrite lift_bind in H. destruct (match target with None => Ok _ | Some _ => _ end) as [stop|e] eqn:Hstop; [|by injection H].
  assert (stop = j) as ->.
  { destruct target as [t|]; [|congruence]. apply rbind_ok in Hstop as (e&He&Hstop). destruct (_ <? e)%Z; [done|].
    injection Hstop as ->. destruct t as [z|nm]; cbn in He, Htgt; [congruence|].
    unfold lookup_reference in He. destruct (md_refs (h_meta hs) !! nm) as [r|]; cbn in *; [|done]. congruence. }
  change (bind (on_right get_handle) ?k ((hs, ws), (h, w))) with (k h ((hs, ws), (h, w))) in H. cbv beta zeta in H.
  destruct (txn_begin (h, w)) as [b1 r1] eqn:Hb.
  assert (Hb' : on_right txn_begin ((hs, ws), (h, w)) = (((hs, ws), b1), r1)) by (unfold on_right; by rewrite Hb).
  rewrite (bind_run' _ _ _ _ _ Hb') in H. destruct r1 as [x|e]; [|by injection H].
  assert (b1 = (sync p m h, w)) as ->.
  { destruct (sync_spec sm w p m h Hst' Hm' Hh') as (_&Hm1&_). rewrite (txn_begin_run p m) in Hb by done. by injection Hb as <- _. }
  rewrite (bind_run' _ _ _ _ _ (on_left_ret _ _ _ _ _ (reload_run ps ms hs ws Hst))) in H.
  change (bind (on_left get_handle) ?k ((sync ps ms hs, ws), ?z)) with (k (sync ps ms hs) ((sync ps ms hs, ws), z)) in H. cbv beta in H.
  rewrite lift_bind, Hcur in H.
  assert (Hpath' : path_to (h_meta (sync ps ms hs)) i j l) by (by rewrite Hm0).
  rewrite (ordered_ids_path ss (w_fs ws) (sync ps ms hs) ltac:(by rewrite Hm0) i j l Hpath') in H.
  change (bind (foldM_st (refresh_snapshot (sync ps ms hs) batch) (Going x [] None []) l) finish ((sync ps ms hs, ws), (sync p m h, w))
    = ((la, b), Ok jobs)) in H.
  eapply (refresh_loop map_fn keep_fn E O n blocks v (sync ps ms hs) batch (sync ps ms hs) ws l x [] None [] (sync p m h, w) b jobs [] (sync p m h, w))
    in H as (_&groups&js&Hg&->&Hch); try done.
  - exists groups. split; [done|]. by rewrite filter_cons_False in Hch by (intros Hx; by apply Hx).
  - destruct Hpath as (above&below&Hc&_&->). rewrite <-Hm0 in Hc.
    apply (chain_nodup ss (w_fs ws) (sync ps ms hs) ltac:(by rewrite Hm0)) in Hc. apply NoDup_app in Hc as [Hc _]. by rewrite reverse_Permutation.
  - intros k _. destruct (ray_changes_run E E ss n blocks (sync ps ms hs) ws k batch batch Hn Hi) as (?&rc&_&Hrc&_); [by rewrite Hm0|].
    exists rc. split; [done|]. intros cs ->. destruct (changes_shape _ _ _ _ _ _ _ _ _ Hrc) as (?&?&->). apply shape_snap.
  - by eapply begin_again.
Qed.
End inv.
