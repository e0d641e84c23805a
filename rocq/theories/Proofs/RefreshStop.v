(** A refresh that stops early. *)
From Verif.Model Require Import System Refresh.
From Verif.Spec Require Import Logical Pruning Keys Layout Changes Api Orderly Refreshing.
From Verif.Proofs Require Import Lib World Resolve AppendSpec SchemaFacts ReadSpec Wf OpSpec
  Inv FileSet Ops Bodies Txn SysInv ReadRun Effects Observe View Prune Keys DeleteEffect Mutations Calls Diff Edge Replay AnyOp RayDiff Reads History
  RefreshStep RefreshEffect RefreshLoop RefreshSource RefreshRun RefreshPath RefreshInv Refreshed.

Section stop.
Context {F : Type} (map_fn : F → row → list row) (keep_fn : F → row → bool).
Context (E : env) (O : fopts) (n : nat) (blocks : bool) (v : view F).
Notation body := (refresh_body map_fn keep_fn E O n v).
Notation patches_of := (refresh_patches map_fn keep_fn E O n v).
Notation try_change := (try_change map_fn keep_fn E O n v).
Notation refresh_change := (refresh_change map_fn keep_fn E O n v).
Notation refresh_snapshot := (refresh_snapshot map_fn keep_fn E O n blocks v).
Notation mv_chain := (mv_chain map_fn keep_fn E O n v).
Context (sm : schema) (Hn : 1 ≤ n).

(** From [a] to [b] nothing is committed. *)
Definition rests (a b : handle * world) : Prop :=
  ∃ p m, live sm a p m ∧ live sm b p m ∧ h_branch b.1 = MAIN ∧ keeps (w_fs a.2) (w_fs b.2).

Lemma keeps_refl fs : keeps fs fs.
Proof. by intros ? ?. Qed.
Lemma begin_rests a b r p m : live sm a p m → h_branch a.1 = MAIN → txn_begin a = (b, r) → rests a b.
Proof.
  destruct a as [h w]. intros [Hi Hh Hst Hm] Hb H. cbn [fst snd] in *.
  destruct (sync_spec sm w p m h Hst Hm Hh) as (Hh0&Hm0&Hf0&Hb0&Hmax).
  rewrite (txn_begin_run p m) in H by done. injection H as <- _. exists p, m.
  split; [by constructor|]. split; [by constructor|]. split; [cbn; congruence|apply keeps_refl].
Qed.
Lemma patches_rest cs a b r p m : live sm a p m → h_branch a.1 = MAIN → patches_of cs a = (b, r) → rests a b.
Proof.
  destruct a as [h w]. intros [Hi Hh Hst Hm] Hb H. cbn [fst snd] in *.
  destruct (refresh_patches_run map_fn keep_fn E O n v sm cs h w Hn Hi Hh) as (w'&r'&Hr&Hw&_). rewrite Hr in H. injection H as <- <-.
  pose proof (wnew_keeps _ _ (wi_bounded _ _ Hi) Hw) as Hk. exists p, m. split; [by constructor|]. split; [|split; [done|done]].
  constructor; cbn [fst snd]; [by eapply winv_wnew|exact (wf_handle_keeps _ _ _ _ Hk Hh)|exact (stored_wnew _ _ _ _ _ Hi Hw Hst)|exact (wf_meta_keeps _ _ _ _ Hk Hm)].
Qed.
Lemma tried_rests cs a b r p m : live sm a p m → h_branch a.1 = MAIN → transactional (body cs) a = (b, r) →
  (∀ st, r ≠ Ok (JSucceeded st)) → rests a b.
Proof.
  destruct a as [h w], b as [h' w']. intros [Hi Hh Hst Hm] Hb H Hno. cbn [fst snd] in *.
  pose proof (refresh_body_ok map_fn keep_fn E O n v sm cs w m Hn Hi) as Hok.
  destruct (fn_inv sm (body cs) h w p m Hi Hh Hst Hm Hok) as (h2&w2&r2&Hr&Ht&Hstep&Hi'&Hh').
  rewrite H in Hr. injection Hr as <- <- <-.
  destruct (sync_spec sm w p m h Hst Hm Hh) as (Hh0&Hm0&Hf0&Hb0&Hmax).
  assert (Hw : wnew w w' ∧ h_branch h' = MAIN).
  { inversion Ht; subst; cbn; try (split; [done|congruence]); [split; [by apply wnew_refl|congruence]|]. by exfalso; eapply Hno. }
  destruct Hw as [Hw Hb']. pose proof (wnew_keeps _ _ (wi_bounded _ _ Hi) Hw) as Hk.
  exists p, m. split; [by constructor|]. split; [|split; [done|done]].
  constructor; cbn [fst snd]; [done|done|exact (stored_wnew _ _ _ _ _ Hi Hw Hst)|exact (wf_meta_keeps _ _ _ _ Hk Hm)].
Qed.
Lemma rests_trans a b c : rests a b → rests b c → rests a c.
Proof.
  intros (p&m&Ha&Hb&_&Hk) (q&m'&Hb'&Hc&Hbr&Hk').
  destruct (stored_fun _ _ _ _ _ (lv_stored _ _ _ _ Hb) (lv_stored _ _ _ _ Hb')) as [<- <-].
  exists p, m. split; [done|]. split; [done|]. split; [done|]. by eapply keeps_trans.
Qed.

Lemma committed_any x cs a b ps c r :
  txn_begin a = (a, Ok x) → patches_of cs a = (b, Ok ps) → txn_commit x (merge_patches ps) b = (c, r) →
  ∃ r', transactional (body cs) a = (c, r') ∧ match r with Ok j => r' = Ok j | Err _ => ∀ st, r' ≠ Ok (JSucceeded st) end.
Proof.
  intros H1 H2 H3. unfold transactional, catch_job. rewrite (bind_run' _ _ _ _ _ H1).
  assert (body cs a = (b, Ok (merge_patches ps))) as Hb by (unfold body; by rewrite (bind_run' _ _ _ _ _ H2)).
  rewrite (bind_run' _ _ _ _ _ Hb), H3. destruct r as [j|[]]; eexists; (split; [done|]); done.
Qed.

Lemma same_snapshot_any i cs x ps prev jobs a b r :
  Forall (fun c => rc_snap c = i) cs → (prev = None ∨ prev = Some i) →
  foldM_st refresh_change (Going x ps prev jobs) cs a = (b, r) →
  ∃ rp, patches_of cs a = (b, rp)
    ∧ match rp with
      | Ok ps' => r = Ok (Going x (ps ++ ps') (if decide (cs = []) then prev else Some i) jobs)
      | Err e => r = Ok (Done (jobs ++ [JFailed])) ∨ r = Err e
      end.
Proof.
  intros Hcs. revert ps prev a. induction Hcs as [|c cs Hc Hcs IH]; intros ps prev a Hprev H.
  - cbn in H. injection H as <- <-. exists (Ok []). by rewrite app_nil_r.
  - cbn [foldM_st] in H.
    assert (Ht : refresh_change (Going x ps prev jobs) c a = try_change c x ps jobs a).
    { destruct Hprev as [->| ->]; [done|]. cbn. by rewrite Hc, Z.eqb_refl. }
    unfold bind in H. rewrite Ht in H. unfold try_change in H.
    destruct (process_change map_fn keep_fn E O n v c a) as [a2 [p|e]] eqn:Hp.
    2:{ assert (b = a2 ∧ (r = Ok (Done (jobs ++ [JFailed])) ∨ r = Err e)) as [-> Hr].
        { destruct e; try (injection H as <- <-; split; [done|by right]); rewrite done_change in H; injection H as <- <-; (split; [done|by left]). }
        exists (Err e). split; [|done]. cbn. unfold bind. by rewrite Hp. }
    destruct (IH (ps ++ [p]) (Some (rc_snap c)) a2) as (rp&Hrp&Hr); [rewrite Hc; by right|done|].
    destruct rp as [ps'|e].
    + exists (Ok (p :: ps')). split; [cbn; rewrite (bind_run' _ _ _ _ _ Hp); by rewrite (bind_run' _ _ _ _ _ Hrp)|].
      rewrite Hr, <-app_assoc. rewrite (decide_False (P := c :: cs = [])) by done. by case_decide; rewrite ?Hc.
    + exists (Err e). split; [|done]. cbn. rewrite (bind_run' _ _ _ _ _ Hp). unfold bind.
      unfold patches_of, refresh_patches in Hrp. by rewrite Hrp.
Qed.

Lemma bind_both {S A B C} (m : ST S A) (k : A → ST S B) (f : B → ST S C) s :
  bind (bind m k) f s = match m s with (s', Ok x) => bind (k x) f s' | (s', Err e) => (s', Err e) end.
Proof. unfold bind. by destruct (m s) as [s' [x|e]]. Qed.
Lemma failed_or_not j : j = JFailed ∨ j ≠ JFailed.
Proof. destruct j; [by right|by left|by right]. Qed.
Definition stopped (hs : handle) (batch : option nat) (wl : world) (ids : list Z) (jobs : list job)
    (a d : handle * world) (r : res (list job)) : Prop :=
  ∃ k groups js e,
    Forall2 (fun i cs => ray_read_changes E n blocks hs i batch wl = (wl, Ok cs)) (take k ids) groups
    ∧ mv_chain (filter (fun g => g ≠ []) groups) a e js ∧ rests e d
    ∧ match r with
      | Ok jobs' => (jobs' = jobs ++ js ∧ length ids ≤ k) ∨ jobs' = jobs ++ js ++ [JFailed]
      | Err _ => True
      end.
Lemma stopped_now hs batch wl ids jobs a d r :
  rests a d → (r = Ok (jobs ++ [JFailed]) ∨ ∃ e, r = Err e) → stopped hs batch wl ids jobs a d r.
Proof.
  intros Hrest Hr. exists 0, [], [], a. split; [constructor|]. split; [constructor|]. split; [done|].
  destruct Hr as [->|[e ->]]; [by right|done].
Qed.
Lemma refresh_stops hs batch hl wl : ∀ ids x ps prev jobs a d r cs0 a0 lw' p m,
  NoDup ids →
  (∀ i, i ∈ ids → ∃ r, ray_read_changes E n blocks hs i batch wl = (wl, r) ∧ ∀ cs, r = Ok cs → Forall (fun c => rc_snap c = i) cs) →
  txn_begin a0 = (a0, Ok x) → patches_of cs0 a0 = (a, Ok ps) →
  match prev with
  | None => cs0 = []
  | Some i => cs0 ≠ [] ∧ i ∉ ids ∧ ray_read_changes E n blocks hs i batch wl = (wl, Ok cs0)
  end →
  live sm a0 p m → h_branch a0.1 = MAIN →
  bind (foldM_st (refresh_snapshot hs batch) (Going x ps prev jobs) ids) finish ((hl, wl), a) = ((lw', d), r) →
  stopped hs batch wl (option_list prev ++ ids) jobs a0 d r.
Proof.
  induction ids as [|i ids IH]; intros x ps prev jobs a d r cs0 a0 lw' p m Hnd Hread Hx Hps Hprev Hl Hb H.
  - cbn [foldM_st] in H. unfold bind in H at 1. cbn in H.
    pose proof (patches_rest _ _ _ _ _ _ Hl Hb Hps) as Hra. pose proof (patches_length map_fn keep_fn E O n v _ _ _ _ Hps) as Hlen.
    destruct ps as [|p0 ps].
    + cbn in H. injection H as <- <- <-. destruct cs0; [|done].
      destruct prev as [i0|]; [by destruct Hprev|]. exists 0, [], [], a0.
      split; [constructor|]. split; [constructor|]. split; [done|]. left. rewrite app_nil_r. split; [done|cbn; lia].
    + cbn [finish] in H. destruct (txn_commit x (merge_patches (p0 :: ps)) a) as [c rj] eqn:Hc.
      assert (Hc' : on_right (txn_commit x (merge_patches (p0 :: ps))) ((hl, wl), a) = (((hl, wl), c), rj))
        by (unfold on_right; cbn [fst snd]; by rewrite Hc).
      rewrite (bind_run' _ _ _ _ _ Hc') in H. destruct (committed_any _ _ _ _ _ _ _ Hx Hps Hc) as (r'&Htr&Hr').
      destruct rj as [j|e].
      2:{ injection H as <- <- <-. apply stopped_now; [|eauto]. by eapply tried_rests. }
      cbn in H. injection H as <- <- <-. subst r'. destruct (failed_or_not j) as [->|Hj].
      { apply stopped_now; [|by left]. by eapply tried_rests. }
      destruct cs0 as [|c0 cs0]; [done|]. destruct prev as [i0|]; [|done]. destruct Hprev as (_&_&Hrd).
      assert (Hsh : shaped (c0 :: cs0)) by (destruct (changes_shape _ _ _ _ _ _ _ _ _ Hrd) as (?&?&->); by eexists _, _, _).
      assert (Hch : mv_chain [c0 :: cs0] a0 c [j]) by (econstructor; [done|done|by left|constructor]).
      exists 1, [c0 :: cs0], [j], c. split; [by repeat constructor|]. split; [by rewrite filter_cons_True by done|].
      destruct (chain_live map_fn keep_fn E O n v sm Hn _ _ _ _ Hch p m) as (q&m'&Hlc&Hbc&_); [by constructor|done|done|].
      split; [exists q, m'; split; [done|split; [done|split; [done|apply keeps_refl]]]|]. left. split; [done|cbn; lia].
  - cbn [foldM_st] in H. apply NoDup_cons in Hnd as [Hi Hnd]. destruct (Hread i) as (rr&Hr&Hsnap); [left|].
    assert (Hread' : ∀ i, i ∈ ids → ∃ r, ray_read_changes E n blocks hs i batch wl = (wl, r) ∧ ∀ cs, r = Ok cs → Forall (fun c => rc_snap c = i) cs)
      by (intros; apply Hread; by right).
    pose proof (patches_rest _ _ _ _ _ _ Hl Hb Hps) as Hra.
    assert (Hl' : on_left (liftM (ray_read_changes E n blocks hs i batch)) ((hl, wl), a) = (((hl, wl), a), rr)).
    { apply on_left_ret. unfold liftM. by rewrite Hr. }
    assert (Hsn : refresh_snapshot hs batch (Going x ps prev jobs) i ((hl, wl), a)
      = match rr with
        | Ok cs => let '(b, r0) := foldM_st refresh_change (Going x ps prev jobs) cs a in (((hl, wl), b), r0)
        | Err e => (((hl, wl), a), Err e)
        end).
    { cbn [refresh_snapshot Refresh.refresh_snapshot]. rewrite (bind_run' _ _ _ _ _ Hl'). destruct rr as [cs|e]; [|done].
      unfold on_right. cbn [fst snd]. by destruct (foldM_st _ _ cs a). }
    rewrite bind_both, Hsn in H. destruct rr as [cs|e].
    2:{ injection H as <- <- <-. apply stopped_now; [done|eauto]. }
    specialize (Hsnap cs eq_refl).
    destruct (foldM_st refresh_change (Going x ps prev jobs) cs a) as [b r0] eqn:H0.
    assert (Hdone : ∀ js, r0 = Ok (Done js) → d = b ∧ r = Ok js).
    { intros js ->. unfold bind in H. rewrite done_snapshot in H. cbn in H. by injection H as _ -> ->. }
    assert (Herr : ∀ e, r0 = Err e → d = b ∧ r = Err e).
    { intros e ->. unfold bind in H. by injection H as _ -> ->. }
    assert (Hrest : ∀ st, r0 = Ok st → bind (foldM_st (refresh_snapshot hs batch) st ids) finish ((hl, wl), b) = ((lw', d), r)).
    { intros st ->. exact H. }
    clear H. destruct (decide (cs = [])) as [->|Hne].
    { cbn in H0. injection H0 as <- <-. specialize (Hrest _ eq_refl).
      destruct (IH x ps prev jobs a d r cs0 a0 lw' p m) as (k&groups&js&e&Hg&Hch&He&Hj); try done.
      { destruct prev; [|done]. destruct Hprev as (?&?&?). split; [done|]. split; [|done]. set_solver. }
      destruct prev as [i0|].
      - destruct k as [|k].
        + exists 0, groups, js, e. split; [done|]. split; [done|]. split; [done|]. destruct r; [|done].
          destruct Hj as [[_ Hj]|Hj]; [cbn in Hj; lia|by right].
        + cbn in Hg. apply Forall2_cons_inv_l in Hg as (g0&groups'&Hg0&Hg&->).
          exists (S (S k)), (g0 :: [] :: groups'), js, e. split; [cbn; by repeat constructor|]. split.
          { rewrite filter_cons in Hch |- *. rewrite (filter_cons_False _ []) by (intros Hc; by apply Hc). done. }
          split; [done|]. destruct r; [|done]. destruct Hj as [[? Hj]|Hj]; [left|by right]. split; [done|]. cbn in Hj |- *. lia.
      - exists (S k), ([] :: groups), js, e. split; [cbn; by constructor|]. split; [by rewrite filter_cons_False by (intros Hc; by apply Hc)|].
        split; [done|]. destruct r; [|done]. destruct Hj as [[? Hj]|Hj]; [left|by right]. split; [done|]. cbn in Hj |- *. lia. }
    destruct prev as [k0|].
    + destruct Hprev as (Hc0&Hk&Hrd). apply not_elem_of_cons in Hk as [Hki Hk].
      destruct cs as [|c cs]; [done|]. pose proof (Forall_inv Hsnap) as Hci.
      destruct (txn_commit x (merge_patches ps) a) as [a2 rj] eqn:Hc. destruct (committed_any _ _ _ _ _ _ _ Hx Hps Hc) as (r'&Htr&Hr').
      assert (Hstep : refresh_change (Going x ps (Some k0) jobs) c a
        = (let! j := txn_commit x (merge_patches ps) in
           match j with
           | JFailed => ret (Done (jobs ++ [j]))
           | _ => let! x' := txn_begin in try_change c x' [] (jobs ++ [j])
           end) a).
      { cbn [refresh_change Refresh.refresh_change]. by rewrite Hci, (proj2 (Z.eqb_neq k0 i) Hki). }
      rewrite (bind_run' _ _ _ _ _ Hc) in Hstep.
      cbn [foldM_st] in H0. unfold bind in H0 at 1. rewrite Hstep in H0. destruct rj as [j|e].
      2:{ injection H0 as <- <-. destruct (Herr _ eq_refl) as [-> ->]. apply stopped_now; [|eauto]. by eapply tried_rests. }
      subst r'. destruct (failed_or_not j) as [->|Hj].
      { cbn in H0. rewrite done_change in H0. injection H0 as <- <-. destruct (Hdone _ eq_refl) as [-> ->].
        apply stopped_now; [|by left]. by eapply tried_rests. }
      assert (Hsh : shaped cs0) by (destruct (changes_shape _ _ _ _ _ _ _ _ _ Hrd) as (?&?&->); by eexists _, _, _).
      assert (Hch0 : mv_chain [cs0] a0 a2 [j]) by (econstructor; [done|done|by left|constructor]).
      destruct (chain_live map_fn keep_fn E O n v sm Hn _ _ _ _ Hch0 p m) as (q&m'&Hl2&Hb2&_); [by constructor|done|done|].
      destruct (txn_begin a2) as [a3 rx] eqn:Hx'. pose proof (begin_rests _ _ _ _ _ Hl2 Hb2 Hx') as Hr23.
      assert (Hone : rests a2 d → (r = Ok ((jobs ++ [j]) ++ [JFailed]) ∨ ∃ e, r = Err e) → stopped hs batch wl (option_list (Some k0) ++ i :: ids) jobs a0 d r).
      { intros Hrd' Hre. exists 1, [cs0], [j], a2. split; [cbn; by repeat constructor|]. split; [by rewrite filter_cons_True by done|].
        split; [done|]. destruct Hre as [->|[e ->]]; [right; by rewrite <-app_assoc|done]. }
      assert (Hgo : foldM_st refresh_change (Going x [] None (jobs ++ [j])) [] a2 = (a2, Ok (Going x [] None (jobs ++ [j])))) by done. clear Hgo.
      destruct rx as [x'|e].
      2:{ assert (b = a3 ∧ r0 = Err e) as [-> ->].
          { destruct j; try done; unfold bind in H0; rewrite Hx' in H0; by injection H0 as -> <-. }
          destruct (Herr _ eq_refl) as [-> ->]. apply Hone; [done|eauto]. }
      assert (Hf : foldM_st refresh_change (Going x' [] None (jobs ++ [j])) (c :: cs) a3 = (b, r0)).
      { cbn [foldM_st]. unfold bind at 1. cbn [refresh_change Refresh.refresh_change].
        destruct j; try done; unfold bind in H0 at 1; rewrite Hx' in H0; done. }
      destruct (same_snapshot_any i _ _ _ _ _ _ _ _ Hsnap (or_introl eq_refl) Hf) as (rp&Hrp&Hr0).
      destruct Hr23 as (q2&m2&Hl2'&Hl3&Hb3&Hk23). assert (Hr23 : rests a2 a3) by (exists q2, m2; done).
      pose proof (patches_rest _ _ _ _ _ _ Hl3 Hb3 Hrp) as Hr3.
      destruct rp as [ps'|e].
      2:{ destruct Hr0 as [->| ->].
          - destruct (Hdone _ eq_refl) as [-> ->]. apply Hone; [by eapply rests_trans|by left].
          - destruct (Herr _ eq_refl) as [-> ->]. apply Hone; [by eapply rests_trans|eauto]. }
      rewrite decide_False in Hr0 by done. specialize (Hrest _ Hr0).
      destruct (IH x' ps' (Some i) (jobs ++ [j]) b d r (c :: cs) a3 lw' q2 m2) as (k&groups&js&e&Hg&Hch&He&Hjs); try done.
      { by eapply begin_again. }
      exists (S k), (cs0 :: groups), (j :: js), e. split; [cbn; by constructor|]. split.
      { rewrite filter_cons_True by done. econstructor; [done|done|right; eauto|done]. }
      split; [done|]. destruct r as [jobs'|]; [|done]. destruct Hjs as [[-> Hjs]| ->]; [left|right].
      * split; [by rewrite <-app_assoc|]. cbn in Hjs |- *. lia.
      * by rewrite <-!app_assoc.
    + subst cs0. cbn in Hps. injection Hps as <- <-.
      destruct (same_snapshot_any i _ _ _ _ _ _ _ _ Hsnap (or_introl eq_refl) H0) as (rp&Hrp&Hr0).
      pose proof (patches_rest _ _ _ _ _ _ Hl Hb Hrp) as Hr3. destruct rp as [ps'|e].
      2:{ destruct Hr0 as [->| ->].
          - destruct (Hdone _ eq_refl) as [-> ->]. apply stopped_now; [done|by left].
          - destruct (Herr _ eq_refl) as [-> ->]. apply stopped_now; [done|eauto]. }
      rewrite decide_False in Hr0 by done. specialize (Hrest _ Hr0).
      by destruct (IH x ps' (Some i) jobs b d r cs a0 lw' p m) as (k&groups&js&e&Hg&Hch&He&Hjs); try done; exists k, groups, js, e.
Qed.
End stop.
