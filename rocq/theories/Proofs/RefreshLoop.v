(** A refresh runs one transaction per changed snapshot of the source. *)
From Verif.Model Require Import System Refresh.
From Verif.Proofs Require Import Lib World Inv Txn RefreshStep.

Lemma on_left_ret {A} (m : ST (handle * world) A) s t s' (r : res A) : m s = (s', r) → on_left m (s, t) = ((s', t), r).
Proof. intros H. unfold on_left. by rewrite H. Qed.
Lemma on_right_inv {A} (m : ST (handle * world) A) (a b a' b' : handle * world) (r : res A) :
  on_right m (a, b) = ((a', b'), r) → a' = a ∧ m b = (b', r).
Proof. unfold on_right. cbn. destruct (m b) as [? ?] eqn:H. by intros [= -> -> ->]. Qed.
Lemma bind_inv {S A B} (m : ST S A) (k : A → ST S B) s s' y :
  bind m k s = (s', Ok y) → ∃ s1 x, m s = (s1, Ok x) ∧ k x s1 = (s', Ok y).
Proof. unfold bind. destruct (m s) as [s1 [x|e]] eqn:H; [eauto|done]. Qed.

Section loop.
Context {F : Type} (map_fn : F → row → list row) (keep_fn : F → row → bool).
Context (E : env) (O : fopts) (n : nat) (blocks : bool) (v : view F).
Notation body := (refresh_body map_fn keep_fn E O n v).
Notation patches_of := (refresh_patches map_fn keep_fn E O n v).
Notation try_change := (try_change map_fn keep_fn E O n v).
Notation refresh_change := (refresh_change map_fn keep_fn E O n v).
Notation refresh_snapshot := (refresh_snapshot map_fn keep_fn E O n blocks v).
Notation two := ((handle * world) * (handle * world))%type.

(** The transactions of a refresh. *)
Inductive mv_chain : list (list ray_change) → handle * world → handle * world → list job → Prop :=
| McNil a : mv_chain [] a a []
| McCons cs gs a b c d j js :
    transactional (body cs) a = (b, Ok j) → j ≠ JFailed → (c = b ∨ ∃ x, txn_begin b = (c, Ok x)) →
    mv_chain gs c d js → mv_chain (cs :: gs) a d (j :: js).

Lemma patches_app cs cs' a b c ps ps' :
  patches_of cs a = (b, Ok ps) → patches_of cs' b = (c, Ok ps') → patches_of (cs ++ cs') a = (c, Ok (ps ++ ps')).
Proof.
  revert a ps. induction cs as [|x cs IH]; intros a ps H H'.
  - cbn in H. injection H as -> <-. done.
  - cbn in H |- *. apply bind_inv in H as (s1&p&Hp&H). apply bind_inv in H as (s2&q&Hq&H).
    cbn in H. injection H as -> <-. rewrite (bind_run' _ _ _ _ _ Hp). by rewrite (bind_run' _ _ _ _ _ (IH _ _ Hq H')).
Qed.
Lemma committed_step x cs a b ps c j :
  txn_begin a = (a, Ok x) → patches_of cs a = (b, Ok ps) → txn_commit x (merge_patches ps) b = (c, Ok j) →
  transactional (body cs) a = (c, Ok j).
Proof.
  intros H1 H2 H3. unfold transactional, catch_job.
  rewrite (bind_run' _ _ _ _ _ H1). unfold body. 
  assert (body cs a = (b, Ok (merge_patches ps))) as Hb by (unfold body; by rewrite (bind_run' _ _ _ _ _ H2)).
  rewrite (bind_run' _ _ _ _ _ Hb), H3. done.
Qed.

Lemma done_change jobs cs a : foldM_st refresh_change (Done jobs) cs a = (a, Ok (Done jobs)).
Proof. induction cs as [|c cs IH]; [done|]. cbn. by unfold bind. Qed.
Lemma done_snapshot hs batch jobs ids a : foldM_st (refresh_snapshot hs batch) (Done jobs) ids a = (a, Ok (Done jobs)).
Proof. induction ids as [|c cs IH]; [done|]. cbn. by unfold bind. Qed.

(** The remaining changes of a snapshot. *)
Lemma same_snapshot i cs x ps prev jobs a b st :
  Forall (fun c => rc_snap c = i) cs → (prev = None ∨ prev = Some i) →
  foldM_st refresh_change (Going x ps prev jobs) cs a = (b, Ok st) →
  (∃ ps', patches_of cs a = (b, Ok ps') ∧ st = Going x (ps ++ ps') (if decide (cs = []) then prev else Some i) jobs)
  ∨ st = Done (jobs ++ [JFailed]).
Proof.
  intros Hcs. revert ps prev a. induction Hcs as [|c cs Hc Hcs IH]; intros ps prev a Hprev H.
  - cbn in H. injection H as <- <-. left. exists []. by rewrite app_nil_r.
  - cbn [foldM_st] in H. apply bind_inv in H as (a1&st1&H1&H2).
    assert (Ht : try_change c x ps jobs a = (a1, Ok st1)).
    { destruct Hprev as [->| ->]; [done|]. cbn in H1. by rewrite Hc, Z.eqb_refl in H1. }
    unfold try_change in Ht. destruct (process_change map_fn keep_fn E O n v c a) as [a2 [p|e]] eqn:Hp.
    2:{ destruct e; try done; injection Ht as <- <-; rewrite done_change in H2; injection H2 as <- <-; by right. }
    injection Ht as <- <-. apply IH in H2; [|rewrite Hc; by right].
    destruct H2 as [(ps'&Hps'&->)| ->]; [left|by right].
    exists (p :: ps'). rewrite <-app_assoc. cbn [app]. split.
    + cbn. rewrite (bind_run' _ _ _ _ _ Hp). by rewrite (bind_run' _ _ _ _ _ Hps').
    + rewrite (decide_False (P := c :: cs = [])) by done. by case_decide; rewrite ?Hc.
Qed.

Lemma entry_still w w' r : read_entry w = (w', r) → w' = w.
Proof.
  unfold read_entry, read_file, bind, gets. cbn. destruct (w_fs w !! PEntry) as [f|]; cbn; [|by intros [= ->]].
  destruct f; cbn; by intros [= ->].
Qed.
Lemma meta_still p w w' r : read_meta p w = (w', r) → w' = w.
Proof.
  unfold read_meta, read_file, bind, gets. cbn. destruct (w_fs w !! p) as [f|]; cbn; [|by intros [= ->]].
  destruct f; cbn; by intros [= ->].
Qed.
Lemma reload_inv h w a z : reload (h, w) = (a, Ok z) →
  ∃ p h', a = (h', w) ∧ read_entry w = (w, Ok p) ∧ h_file h' = MShort p ∧ h_branch h' = h_branch h.
Proof.
  unfold reload. rewrite get_handle_bind. intros H. apply bind_inv in H as ([h1 w1]&p&Hp&H).
  unfold liftM in Hp. destruct (read_entry w) as [w2 r] eqn:Hr. injection Hp as -> -> ->.
  pose proof (entry_still _ _ _ Hr) as ->. exists p. case_decide as Hf.
  - injection H as <- <-. by exists h1.
  - apply bind_inv in H as ([h2 w2]&m&Hm&H). unfold liftM in Hm. destruct (read_meta p w) as [w3 r] eqn:Hr3. injection Hm as -> -> ->.
    pose proof (meta_still _ _ _ _ Hr3) as ->. injection H as <- <-. by eexists.
Qed.
Lemma reload_same h w p : read_entry w = (w, Ok p) → h_file h = MShort p → reload (h, w) = ((h, w), Ok false).
Proof.
  intros Hp Hf. unfold reload. rewrite get_handle_bind. rewrite (bind_run' _ _ _ _ _ (liftM_run _ h _ _ _ Hp)).
  by rewrite decide_True.
Qed.
Lemma begin_again a b x : txn_begin a = (b, Ok x) → txn_begin b = (b, Ok x).
Proof.
  destruct a as [h w]. unfold txn_begin. rewrite get_handle_bind. intros H.
  apply bind_inv in H as (a1&z&Hr&H). destruct (reload_inv _ _ _ _ Hr) as (p&h'&->&Hp&Hf&Hb).
  rewrite get_handle_bind, lift_bind in H. destruct (current_snapshot_id h' (h_branch h)) as [i|] eqn:Hi; [|by injection H].
  injection H as <- <-. rewrite get_handle_bind, (bind_run' _ _ _ _ _ (reload_same _ _ _ Hp Hf)), get_handle_bind, lift_bind.
  by rewrite Hb, Hi.
Qed.
Definition finish (st : progress) : ST two (list job) :=
  match st with
  | Done jobs => ret jobs
  | Going _ [] _ jobs => ret jobs
  | Going x ps _ jobs => let! j := on_right (txn_commit x (merge_patches ps)) in ret (jobs ++ [j])
  end.
Lemma patches_length cs a b ps : patches_of cs a = (b, Ok ps) → length ps = length cs.
Proof.
  revert a ps. induction cs as [|c cs IH]; intros a ps H.
  - cbn in H. by injection H as _ <-.
  - cbn in H. apply bind_inv in H as (s1&p&Hp&H). apply bind_inv in H as (s2&q&Hq&H).
    cbn in H. injection H as -> <-. cbn. by rewrite (IH _ _ Hq).
Qed.
Lemma refresh_loop hs batch hl wl : ∀ ids x ps prev jobs a d jobs' cs0 a0 lw',
  NoDup ids →
  (∀ i, i ∈ ids → ∃ r, ray_read_changes E n blocks hs i batch wl = (wl, r) ∧ ∀ cs, r = Ok cs → Forall (fun c => rc_snap c = i) cs) →
  txn_begin a0 = (a0, Ok x) → patches_of cs0 a0 = (a, Ok ps) →
  match prev with None => cs0 = [] | Some i => cs0 ≠ [] ∧ i ∉ ids end →
  bind (foldM_st (refresh_snapshot hs batch) (Going x ps prev jobs) ids) finish ((hl, wl), a) = ((lw', d), Ok jobs') →
  JFailed ∉ jobs' →
  lw' = (hl, wl) ∧ ∃ groups js,
    Forall2 (fun i cs => ray_read_changes E n blocks hs i batch wl = (wl, Ok cs)) ids groups ∧ jobs' = jobs ++ js
    ∧ mv_chain (filter (fun g => g ≠ []) (cs0 :: groups)) a0 d js.
Proof.
  induction ids as [|i ids IH]; intros x ps prev jobs a d jobs' cs0 a0 lw' Hnd Hread Hx Hps Hprev H Hjobs.
  - cbn [foldM_st] in H. apply bind_inv in H as (s1&st&H1&H2). cbn in H1. injection H1 as <- <-.
    pose proof (patches_length _ _ _ _ Hps) as Hlen. destruct ps as [|p0 ps].
    + cbn in H2. injection H2 as <- <- <-. destruct cs0; [|done]. cbn in Hps. injection Hps as ->.
      split; [done|]. exists [], []. split; [constructor|]. rewrite app_nil_r. split; [done|]. constructor.
    + cbn [finish] in H2. apply bind_inv in H2 as ([l1 b]&j&H3&H4). apply on_right_inv in H3 as [-> H3].
      cbn in H4. injection H4 as <- <- <-. split; [done|]. exists [], [j]. split; [constructor|]. split; [done|].
      destruct cs0 as [|c0 cs0]; [done|]. rewrite filter_cons_True by done.
      econstructor; [by eapply committed_step| |by left|constructor]. intros ->. apply Hjobs. set_solver.
  - cbn [foldM_st] in H. apply bind_inv in H as (s1&st&H1&H2). apply bind_inv in H1 as (s0&st0&H0&H1).
    apply NoDup_cons in Hnd as [Hi Hnd]. destruct (Hread i) as (r&Hr&Hsnap); [left|].
    assert (Hread' : ∀ i, i ∈ ids → ∃ r, ray_read_changes E n blocks hs i batch wl = (wl, r) ∧ ∀ cs, r = Ok cs → Forall (fun c => rc_snap c = i) cs)
      by (intros; apply Hread; by right).
    cbn [refresh_snapshot Refresh.refresh_snapshot] in H0. apply bind_inv in H0 as (s2&cs&Hcs&H0).
    assert (Hl : on_left (liftM (ray_read_changes E n blocks hs i batch)) ((hl, wl), a) = (((hl, wl), a), r)).
    { apply on_left_ret. unfold liftM. by rewrite Hr. }
    rewrite Hl in Hcs. injection Hcs as <- ->. destruct s0 as [l0 b]. apply on_right_inv in H0 as [-> H0].
    specialize (Hsnap cs eq_refl).
    assert (Hdone : ∀ js b', st0 = Done js → JFailed ∈ js → b' = b → False).
    { intros js b' -> Hin _. rewrite done_snapshot in H1. injection H1 as <- <-. cbn in H2. injection H2 as <- <- <-. done. }
    assert (Hrest : bind (foldM_st (refresh_snapshot hs batch) st0 ids) finish ((hl, wl), b) = ((lw', d), Ok jobs')).
    { by rewrite (bind_run' _ _ _ _ _ H1). }
    destruct (decide (cs = [])) as [->|Hne].
    { cbn in H0. injection H0 as <- <-.
      destruct (IH x ps prev jobs a d jobs' cs0 a0 lw') as (->&groups&js&Hg&->&Hch); try done.
      { destruct prev; [|done]. destruct Hprev. split; [done|]. set_solver. }
      split; [done|]. exists ([] :: groups), js. split; [by constructor|]. split; [done|].
      destruct (decide (cs0 = [])) as [->|Hc0].
      - rewrite !filter_cons_False in Hch |- * by (intros Hc; by apply Hc). by rewrite filter_cons_False by (intros Hc; by apply Hc).
      - rewrite filter_cons_True in Hch |- * by done. by rewrite filter_cons_False by (intros Hc; by apply Hc). }
    destruct prev as [k|].
    + destruct Hprev as [Hc0 Hk]. apply not_elem_of_cons in Hk as [Hki Hk].
      destruct cs as [|c cs]; [done|]. pose proof (Forall_inv Hsnap) as Hci.
      cbn [foldM_st] in H0. apply bind_inv in H0 as (a1&st1&Hc&H0). cbn [refresh_change Refresh.refresh_change] in Hc.
      rewrite Hci, (proj2 (Z.eqb_neq k i) Hki) in Hc. apply bind_inv in Hc as (a2&j&Hj&Hc).
      assert (Hj' : j ≠ JFailed).
      { intros ->. cbn in Hc. injection Hc as <- <-. rewrite done_change in H0. injection H0 as -> <-.
        eapply Hdone; [done| |done]. set_solver. }
      assert (Hc' : bind txn_begin (fun x' => try_change c x' [] (jobs ++ [j])) a2 = (a1, Ok st1)) by (destruct j; done).
      clear Hc. apply bind_inv in Hc' as (a3&x'&Hx'&Hc).
      assert (Hf : foldM_st refresh_change (Going x' [] None (jobs ++ [j])) (c :: cs) a3 = (b, Ok st0)).
      { cbn [foldM_st]. assert (refresh_change (Going x' [] None (jobs ++ [j])) c a3 = (a1, Ok st1)) as Hq by done.
        by rewrite (bind_run' _ _ _ _ _ Hq). }
      apply (same_snapshot i) in Hf as [(ps'&Hps'&->)| ->]; [|by exfalso; eapply Hdone; [done| |done]; set_solver|done|by left].
      rewrite decide_False in Hrest by done.
      destruct (IH x' ps' (Some i) (jobs ++ [j]) b d jobs' (c :: cs) a3 lw') as (->&groups&js&Hg&->&Hch); try done.
      { by eapply begin_again. }
      split; [done|]. exists ((c :: cs) :: groups), (j :: js). split; [by constructor|].
      split; [by rewrite <-app_assoc|]. rewrite filter_cons_True by done.
      econstructor; [by eapply committed_step|done|right; eauto|done].
    + subst cs0. cbn in Hps. injection Hps as <- <-.
      apply (same_snapshot i) in H0 as [(ps'&Hps'&->)| ->]; [|by exfalso; eapply Hdone; [done| |done]; set_solver|done|by left].
      rewrite decide_False in Hrest by done.
      destruct (IH x ps' (Some i) jobs b d jobs' cs a0 lw') as (->&groups&js&Hg&->&Hch); try done.
      split; [done|]. exists (cs :: groups), js. split; [by constructor|]. split; [done|].
      by rewrite (filter_cons_False _ []) by (intros Hc; by apply Hc).
Qed.
End loop.
