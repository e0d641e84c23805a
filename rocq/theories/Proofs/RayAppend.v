(** The distributed append. *)
From Verif.Model Require Import System RayOps.
From Verif.Spec Require Import Logical Api Layout.
From Verif.Proofs Require Import Lib World Resolve AppendSpec SchemaFacts ReadSpec Wf OpSpec Inv FileSet Ops Bodies Txn
  SysInv ReadRun Effects Observe View Calls Reads AnyOp Shards.
From Verif.Proofs Require Import Merge.

(** A patch that adds [rows] and removes nothing. *)
Definition adds (s : schema) (fs : fsys) (op : option patch) (rows : list row) : Prop :=
  match op with
  | None => rows = []
  | Some p => wf_patch s fs p ∧ pa_del_idx p = []
      ∧ resolve_rows (records_in fs) (s_recs s) (man_rows fs (pa_add_idx p ≫= man_at fs)) = Some rows
      ∧ st_rows (pa_stats p) = Z.of_nat (length rows) ∧ tsel (out_names s) rows = Ok rows
  end.
Lemma adds_keeps s fs fs' op rows : keeps fs fs' → adds s fs op rows → adds s fs' op rows.
Proof.
  intros Hk. destruct op as [p|]; cbn; [|done]. intros (Hp&?&Hr&?&?). split_and!; try done.
  - by eapply wf_patch_keeps.
  - eapply resolve_man_keeps; [done| |done]. apply Hp.
Qed.
Lemma adds_merge_two s fs p q a b :
  adds s fs (Some p) a → adds s fs (Some q) b → adds s fs (Some (merge_two p q)) (a ++ b).
Proof.
  intros (Hp&Hdp&Hrp&Hsp&Htp) (Hq&Hdq&Hrq&Hsq&Htq). cbn [adds]. split_and!.
  - by apply merge_two_wf.
  - cbn. by rewrite Hdp, Hdq.
  - cbn [merge_two pa_add_idx]. rewrite bind_app. unfold man_rows in *. rewrite bind_app. by apply resolve_rows_app.
  - cbn. rewrite app_length. rewrite Hsp, Hsq. lia.
  - apply rmapM_app. eauto.
Qed.
Lemma adds_merge s fs ps rows :
  Forall2 (adds s fs) ps rows → adds s fs (merge_patches ps) (concat rows).
Proof.
  intros Hf. unfold merge_patches.
  assert (Hall : ∃ rs, Forall2 (fun p => adds s fs (Some p)) (omap id ps) rs ∧ concat rs = concat rows).
  { induction Hf as [|[p|] r ps rows Hp _ (rs&Hrs&Hc)]; cbn.
    - by exists [].
    - exists (r :: rs). split; [by constructor|]. cbn. by rewrite Hc.
    - cbn in Hp. subst r. by exists rs. }
  destruct Hall as (rs&Hrs&<-). clear Hf. destruct (omap id ps) as [|p l].
  { by inversion Hrs. }
  assert (H0 : adds s fs (Some patch0) []).
  { cbn. split_and!; try done. split_and!; done || constructor. }
  revert Hrs. generalize (p :: l). intros k Hk.
  assert (Hg : ∀ a ra, adds s fs (Some a) ra → adds s fs (Some (foldl merge_two a k)) (ra ++ concat rs)).
  { clear H0. induction Hk as [|q r k rs Hq _ IH]; intros a ra Ha; cbn [foldl concat]; [by rewrite app_nil_r|].
    rewrite app_assoc. apply IH. by apply adds_merge_two. }
  exact (Hg _ _ H0).
Qed.

Section append.
Context (E : env) (O : fopts) (s : schema) (Hs : wf_schema s).
Lemma append_op_adds batches w w' op :
  bounded w → append_op E O s batches w = (w', Ok op) →
  ∃ rows, tsel (out_names s) (concat batches) = Ok rows ∧ adds s (w_fs w') op rows.
Proof.
  intros Hb Hrun. pose proof (append_op_out E O s batches w Hb) as Hout. rewrite Hrun in Hout.
  destruct Hout as (_&_&rows&Hr&Hp). exists rows. split; [done|]. destruct op as [p|]; [|done].
  destruct (patch_adds_rows s _ _ _ _ Hs Hp) as (?&?&?&?). cbn. split_and!; try done.
  by destruct Hp as (?&?&?&?&?&?&?&?&?&?&?&?&?&?&?&?&?&?&?).
Qed.
Lemma workers_run (B : nat → list (list row)) l w :
  bounded w →
  let '(w', r) := mapM_st (fun i => append_op E O s (B i)) l w in
  wnew w w' ∧ bounded w' ∧
  match r with
  | Ok ps => ∃ rows, tsel (out_names s) (concat ((fun i => concat (B i)) <$> l)) = Ok (concat rows)
      ∧ Forall2 (adds s (w_fs w')) ps rows
  | Err _ => True
  end.
Proof.
  revert w. induction l as [|i l IH]; intros w Hb; cbn [mapM_st].
  { split_and!; [apply wnew_refl|done|]. exists []. split; [done|constructor]. }
  pose proof (append_op_out E O s (B i) w Hb) as Hout.
  pose proof (append_op_adds (B i) w) as Hadds.
  destruct (append_op E O s (B i) w) as [w1 [op|e]] eqn:H1; destruct Hout as (Hn1&Hb1&_).
  2:{ erewrite bind_run'; [|exact H1]. done. }
  destruct (Hadds _ _ Hb eq_refl) as (r1&Hr1&Ha1).
  erewrite bind_run'; [|exact H1]. cbn beta. specialize (IH w1 Hb1).
  destruct (mapM_st (fun i => append_op E O s (B i)) l w1) as [w2 [ps|e]] eqn:H2; destruct IH as (Hn2&Hb2&Hr);
    (erewrite bind_run'; [|exact H2]).
  2:{ split_and!; [by eapply wnew_trans|done..]. }
  destruct Hr as (rows&Hr2&Hf). cbn. split_and!; [by eapply wnew_trans|done|].
  exists (r1 :: rows). split.
  - cbn [fmap list_fmap concat]. apply rmapM_app. eauto.
  - constructor; [|done]. eapply adds_keeps; [|done]. by apply wnew_keeps.
Qed.
End append.

(** The rows of the calls, worker by worker. *)
Definition in_worker_order (n : nat) (calls : list (nat * list (list row))) : list row :=
  concat ((fun i => concat (concat (filter (fun c => c.1 = i) calls).*2)) <$> seq 0 n).
Lemma in_worker_order_perm n calls :
  (∀ c, c ∈ calls → c.1 < n) → in_worker_order n calls ≡ₚ concat (concat calls.*2).
Proof.
  intros Hc. unfold in_worker_order. rewrite <-(by_worker calls n Hc).
  generalize (seq 0 n). intros l. induction l as [|i l IH]; [done|].
  cbn [fmap list_fmap concat]. rewrite concat_app. by rewrite IH.
Qed.
Lemma ray_append_op_run E O s n calls w :
  wf_schema s → bounded w →
  let '(w', r) := ray_append_op E O s n calls w in
  wnew w w' ∧
  match r with
  | Ok op => ∃ rows, tsel (out_names s) (in_worker_order n calls) = Ok rows ∧ adds s (w_fs w') op rows
  | Err _ => True
  end.
Proof.
  intros Hs Hb. unfold ray_append_op.
  pose proof (workers_run E O s Hs (fun i => concat (filter (fun c => c.1 = i) calls).*2) (seq 0 n) w Hb) as Hw.
  destruct (mapM_st _ (seq 0 n) w) as [w' [ps|e]] eqn:Hm; destruct Hw as (Hn&_&Hr); (erewrite bind_run'; [|exact Hm]).
  2:{ done. }
  cbn. split; [done|]. destruct Hr as (rows&Hr&Hf). exists (concat rows). split; [done|]. by apply adds_merge.
Qed.
Lemma adds_wf s fs op rows : adds s fs op rows → wf_opatch s fs op.
Proof. destruct op; [|done]. by intros (?&_). Qed.

Definition ray_append_body (E : env) (O : fopts) (n : nat) (calls : list (nat * list (list row))) : H (option patch) :=
  let! h := get_handle in liftM (ray_append_op E O (md_schema (h_meta h)) n calls).
Lemma ray_append_body_run E O s n calls h w :
  winv s w → wf_handle s w h →
  ∃ w' r, ray_append_body E O n calls (h, w) = ((h, w'), r) ∧ wnew w w'
    ∧ match r with
      | Ok op => ∃ rows, tsel (out_names s) (in_worker_order n calls) = Ok rows ∧ adds s (w_fs w') op rows
      | Err _ => True
      end.
Proof.
  intros Hi Hh. unfold ray_append_body. rewrite get_handle_bind, (wm_schema _ _ _ (proj1 Hh)).
  pose proof (ray_append_op_run E O s n calls w (wi_schema _ _ Hi) ltac:(apply Hi)) as Hr.
  destruct (ray_append_op E O s n calls w) as [w' r] eqn:Hrun. exists w', r. destruct Hr as [??].
  split_and!; try done. by apply liftM_run.
Qed.
Lemma ray_append_shows E O n calls σ hid s st before :
  reachable σ → schema_at σ hid = Some s → reads σ hid None before →
  result σ hid (transactional (ray_append_body E O n calls)) = Some (Ok (JSucceeded st)) →
  reads (after σ hid (transactional (ray_append_body E O n calls))) hid None
    (before ++ (show s <$> in_worker_order n calls))
  ∧ st_rows st = Z.of_nat (length (in_worker_order n calls)).
Proof.
  intros Hr Hsch Hb Hres. destruct (result_handle _ _ _ _ Hres) as [h Hh].
  destruct (reachable_seen _ _ _ Hr Hh) as (s'&p&m&Hseen).
  assert (s' = s) as -> by (rewrite (sn_schema _ _ _ _ _ _ Hseen) in Hsch; congruence).
  pose proof (si_world _ _ (sn_inv _ _ _ _ _ _ Hseen)) as Hi.
  assert (Hok : body_ok s (ray_append_body E O n calls) (y_world σ) m).
  { intros h0 Hh0 _. destruct (ray_append_body_run E O s n calls h0 _ Hi Hh0) as (w'&r&?&?&Hm).
    exists w', r. split_and!; try done. destruct r as [op|]; [|done]. destruct Hm as (rows&_&Ha). by eapply adds_wf. }
  destruct (fn_succeeded s σ hid h p m _ st Hseen Hok Hres) as (h'&q&base&sn&pa&w1&Hseen'&Hd).
  pose proof Hd as [(h0&Hh0&Hb0&Hm0&Hfn) _ _ -> Hbase _ _ _ _ _].
  destruct (ray_append_body_run E O s n calls h0 _ Hi Hh0) as (w'&r&Hrun&_&Hrows).
  rewrite Hfn in Hrun. injection Hrun as <- <-. destruct Hrows as (rows&Hsel&_&Hdel&Hres2&Hst&Htr).
  pose proof Hsel as Heq. apply tsel_columns in Heq.
  split.
  - eapply fn_done_reads; [exact Hseen|exact Hseen'|exact Hd|exact Hb|]. intros Hold.
    change (show s <$> in_worker_order n calls) with (columns (out_names s) <$> in_worker_order n calls). rewrite <-Heq.
    exact (fn_done_adds _ _ _ _ _ _ _ _ _ _ _ _ before rows rows Hd Hdel Hold Hres2 Htr).
  - rewrite Hst, Heq, fmap_length. done.
Qed.
Lemma ray_append_skips E O n calls σ hid :
  reachable σ →
  result σ hid (transactional (ray_append_body E O n calls)) = Some (Ok JSkipped) →
  in_worker_order n calls = [].
Proof.
  intros Hr Hres. destruct (result_handle _ _ _ _ Hres) as [h Hh].
  destruct (reachable_seen _ _ _ Hr Hh) as (s&p&m&Hseen). pose proof Hseen as [Hsi _ Hwf Hst Hm _].
  pose proof (si_world _ _ Hsi) as Hi.
  assert (Hok : body_ok s (ray_append_body E O n calls) (y_world σ) m).
  { intros h0 Hh0 _. destruct (ray_append_body_run E O s n calls h0 _ Hi Hh0) as (w'&r&?&?&Hrr).
    exists w', r. split_and!; try done. destruct r as [op|]; [|done]. destruct Hrr as (rows&_&Ha). by eapply adds_wf. }
  destruct (fn_inv s _ h (y_world σ) p m Hi Hwf Hst Hm Hok) as (h'&w'&r&Hrun&Ht&_).
  rewrite (result_eq _ _ _ _ Hh), Hrun in Hres. injection Hres as Hres. cbn in Hres. subst r.
  destruct (sync_spec s (y_world σ) p m h Hst Hm Hwf) as (Hh0&_).
  destruct (ray_append_body_run E O s n calls _ _ Hi Hh0) as (w2&r2&Hr2&_&Hrows).
  inversion Ht as [|w1 e _ He _ Hx1 Hx2 Hc|w1 Hx1 Hfn Hx2| |]; try done.
  - destruct e; done.
  - rewrite Hfn in Hr2. injection Hr2 as <- <-. destruct Hrows as (rows&Hsel&->).
    apply tsel_columns in Hsel. by destruct (in_worker_order n calls).
Qed.

Lemma ray_append_once σ hid s E fo n data st before :
  reachable σ → schema_at σ hid = Some s → reads σ hid None before → 1 ≤ n →
  result σ hid (run_ray_append E fo n data) = Some (Ok (JSucceeded st)) →
  st_rows st = Z.of_nat (length data)
  ∧ ∃ written, written ≡ₚ data
    ∧ reads (after σ hid (run_ray_append E fo n data)) hid None (before ++ (show s <$> written)).
Proof.
  intros Hr Hs Hb Hn Hres. destruct (ray_shards_spec n data Hn) as [Hc Hlt].
  destruct (ray_append_shows E fo n ((fun c => (c.1, [c.2])) <$> ray_shards n data) σ hid s st before Hr Hs Hb Hres) as [Hrd Hst].
  assert (Hp : in_worker_order n ((fun c => (c.1, [c.2])) <$> ray_shards n data) ≡ₚ data).
  { rewrite in_worker_order_perm.
    - rewrite <-Hc at 2. generalize (ray_shards n data). intros l. induction l as [|c l IH]; [done|].
      cbn in *. by rewrite IH.
    - intros c (c0&->&Hc0)%elem_of_list_fmap. cbn. by apply Hlt. }
  split; [by rewrite Hst, Hp|]. eexists. split; [exact Hp|]. exact Hrd.
Qed.
Lemma ray_append_from_once σ hid s E fo n sources st before :
  reachable σ → schema_at σ hid = Some s → reads σ hid None before → 1 ≤ n →
  result σ hid (run_ray_append_from E fo n sources) = Some (Ok (JSucceeded st)) →
  st_rows st = Z.of_nat (length (concat (concat sources)))
  ∧ ∃ written, written ≡ₚ concat (concat sources)
    ∧ reads (after σ hid (run_ray_append_from E fo n sources)) hid None (before ++ (show s <$> written)).
Proof.
  intros Hr Hs Hb Hn Hres. set (k := length sources `min` n) in *.
  destruct (ray_sources_spec k sources) as [Hc Hlt].
  destruct (ray_append_shows E fo k (ray_sources k sources) σ hid s st before Hr Hs Hb Hres) as [Hrd Hst].
  assert (Hp : in_worker_order k (ray_sources k sources) ≡ₚ concat (concat sources)).
  { rewrite in_worker_order_perm; [by rewrite Hc|]. intros c Hin. apply Hlt; [done|].
    unfold k. destruct sources; [by apply elem_of_nil in Hin|]. cbn [length]. lia. }
  split; [by rewrite Hst, Hp|]. eexists. split; [exact Hp|]. exact Hrd.
Qed.
Lemma ray_append_skipped σ hid E fo n data :
  reachable σ → 1 ≤ n → result σ hid (run_ray_append E fo n data) = Some (Ok JSkipped) → data = [].
Proof.
  intros Hr Hn Hres. destruct (ray_shards_spec n data Hn) as [Hc Hlt].
  apply (ray_append_skips E fo n ((fun c => (c.1, [c.2])) <$> ray_shards n data) σ hid Hr) in Hres.
  assert (Hp : in_worker_order n ((fun c => (c.1, [c.2])) <$> ray_shards n data) ≡ₚ data).
  { rewrite in_worker_order_perm.
    - rewrite <-Hc at 2. generalize (ray_shards n data). intros l. induction l as [|c l IH]; [done|].
      cbn in *. by rewrite IH.
    - intros c (c0&->&Hc0)%elem_of_list_fmap. cbn. by apply Hlt. }
  rewrite Hres in Hp. by apply Permutation_nil_l in Hp.
Qed.
