(** Calls observed through handles of reachable systems. *)
From Verif.Model Require Import System.
From Verif.Spec Require Import Logical Api.
From Verif.Proofs Require Import Lib World Resolve AppendSpec SchemaFacts ReadSpec Wf OpSpec Inv FileSet Ops Bodies Txn SysInv ReadRun Effects.

Lemma result_eq {A} σ hid h (m : H A) :
  y_handles σ !! hid = Some h → result σ hid m = Some (m (h, y_world σ)).2.
Proof. intros Hh. unfold result, with_handle. rewrite Hh. by destruct (m (h, y_world σ)) as [[h' w'] r]. Qed.
Lemma after_eq {A} σ hid h (m : H A) h' w' r :
  y_handles σ !! hid = Some h → m (h, y_world σ) = ((h', w'), r) →
  after σ hid m = Sys w' (<[hid := h']> (y_handles σ)) (y_txns σ).
Proof. intros Hh Hm. unfold after, with_handle. by rewrite Hh, Hm. Qed.
Lemma result_handle {A} σ hid (m : H A) r : result σ hid m = Some r → ∃ h, y_handles σ !! hid = Some h.
Proof. unfold result, with_handle. destruct (y_handles σ !! hid); [eauto|done]. Qed.

(** A handle of a reachable system, with the stored metadata. *)
Record seen (s : schema) (σ : sys) (hid : nat) (h : handle) (p : path) (m : metadata) : Prop := {
  sn_inv : sinv s σ;
  sn_look : y_handles σ !! hid = Some h;
  sn_handle : wf_handle s (y_world σ) h;
  sn_stored : stored (w_fs (y_world σ)) p m;
  sn_meta : wf_meta s (w_fs (y_world σ)) m;
  sn_schema : schema_at σ hid = Some s }.
Lemma sinv_seen s σ hid h :
  sinv s σ → y_handles σ !! hid = Some h → ∃ p m, seen s σ hid h p m.
Proof.
  intros Hs Hh. destruct (si_world _ _ Hs) as [_ _ (p&m&Hst&Hm)]. exists p, m.
  pose proof (si_handles _ _ Hs _ _ Hh) as Hwf. constructor; try done.
  unfold schema_at. rewrite Hh. cbn. f_equal. apply Hwf.
Qed.
Lemma reachable_seen σ hid h :
  reachable σ → y_handles σ !! hid = Some h → ∃ s p m, seen s σ hid h p m.
Proof.
  intros Hr Hh. destruct (reachable_handle _ _ _ Hr Hh) as (s&Hs&_). exists s. by apply sinv_seen.
Qed.
Lemma reads_iff s σ hid h p m v rows :
  seen s σ hid h p m →
  reads σ hid v rows ↔ ∃ sn, snap_of m (h_branch h) v = Some sn ∧ snap_rows s (w_fs (y_world σ)) sn rows.
Proof.
  intros [Hs Hh Hwf Hst Hm _]. unfold reads. split.
  - intros Hr. specialize (Hr (Env (fun _ => 0%Z) (fun _ => 0%Z) (fun _ _ => 0%Z) (fun _ _ => 0%Z) (fun _ => []) (fun _ => [])) None).
    rewrite (result_eq _ _ _ _ Hh) in Hr. injection Hr as Hr. revert Hr.
    match goal with |- context [run_read_all ?E] => destruct (run_read_all_run E v None s h (y_world σ) p m (si_world _ _ Hs) Hwf Hst Hm) as (r&->&Hr) end.
    cbn. intros ->. destruct (snap_of m (h_branch h) v) as [sn|]; [|done]. destruct Hr as (rows'&[= <-]&?). eauto.
  - intros (sn&Hsn&Hrows) E b. rewrite (result_eq _ _ _ _ Hh).
    destruct (run_read_all_run E v b s h (y_world σ) p m (si_world _ _ Hs) Hwf Hst Hm) as (r&->&Hr).
    rewrite Hsn in Hr. destruct Hr as (rows'&->&Hr). cbn. do 2 f_equal. by eapply snap_rows_fun.
Qed.
Lemma read_all_result s σ hid h p m v E b :
  seen s σ hid h p m →
  result σ hid (run_read_all E None None v false b) =
    Some (match snap_of m (h_branch h) v with
          | None => Err (EUser UVersionNotFound)
          | Some sn => (run_read_all E None None v false b (h, y_world σ)).2
          end).
Proof.
  intros [Hs Hh Hwf Hst Hm _]. rewrite (result_eq _ _ _ _ Hh).
  destruct (run_read_all_run E v b s h (y_world σ) p m (si_world _ _ Hs) Hwf Hst Hm) as (r&->&Hr).
  destruct (snap_of m (h_branch h) v) as [sn|]; [done|]. cbn. by rewrite Hr.
Qed.

(** A succeeded mutating method. *)
Lemma op_succeeded σ hid E fo o st :
  reachable σ → env_ok σ (CRun hid E fo o) →
  result σ hid (run_op E fo o) = Some (Ok (JSucceeded st)) →
  ∃ s h p m h' base sn pa w1 q,
    seen s σ hid h p m
    ∧ seen s (after σ hid (run_op E fo o)) hid h' q (with_snap m (h_branch h) sn)
    ∧ op_ok s (w_fs (y_world σ)) o
    ∧ op_done E s o st h (y_world σ) h' (y_world (after σ hid (run_op E fo o))) m base sn pa w1.
Proof.
  intros Hr Hok Hres. destruct (result_handle _ _ _ _ Hres) as [h Hh].
  destruct (reachable_seen _ _ _ Hr Hh) as (s&p&m&Hseen). pose proof Hseen as [Hs _ Hwf Hst Hm _].
  rewrite (result_eq _ _ _ _ Hh) in Hres. injection Hres as Hres.
  destruct (run_op E fo o (h, y_world σ)) as [[h' w'] r] eqn:Hrun. cbn in Hres. subst r.
  assert (Hop : op_ok s (w_fs (y_world σ)) o).
  { specialize (Hok _ Hh). destruct Hwf as (Hwm&_). by rewrite (wm_schema _ _ _ Hwm) in Hok. }
  destruct (run_op_done E fo s o h (y_world σ) h' w' st p m (si_world _ _ Hs) Hwf Hop Hst Hm Hrun)
    as (base&sn&pa&w1&Hd).
  pose proof (after_eq σ hid h (run_op E fo o) h' w' _ Hh Hrun) as Haf.
  pose proof (step_sinv s σ (CRun hid E fo o) Hs Hok) as [Hs' _].
  change (step σ (CRun hid E fo o)) with (after σ hid (run_op E fo o)) in Hs'.
  destruct (od_stored _ _ _ _ _ _ _ _ _ _ _ _ _ Hd) as (u&_&Hsto).
  exists s, h, p, m, h', base, sn, pa, w1, (PGen KMeta u). split_and!; try done.
  - constructor; try done.
    + rewrite Haf. cbn. by rewrite lookup_insert.
    + rewrite Haf. cbn. apply (od_handle _ _ _ _ _ _ _ _ _ _ _ _ _ Hd).
    + by rewrite Haf.
    + rewrite Haf. cbn. rewrite <-(od_meta _ _ _ _ _ _ _ _ _ _ _ _ _ Hd). apply (od_handle _ _ _ _ _ _ _ _ _ _ _ _ _ Hd).
    + rewrite Haf. unfold schema_at. cbn. rewrite lookup_insert. cbn. f_equal.
      apply (od_handle _ _ _ _ _ _ _ _ _ _ _ _ _ Hd).
  - rewrite Haf. cbn. done.
Qed.
(** The rows of the branch before and after. *)
Lemma op_done_reads s σ σ' hid h p m h' q E o st base sn pa w1 before rows :
  seen s σ hid h p m → seen s σ' hid h' q (with_snap m (h_branch h) sn) →
  op_done E s o st h (y_world σ) h' (y_world σ') m base sn pa w1 →
  reads σ hid None before →
  (snap_rows s (w_fs (y_world σ)) base before → snap_rows s (w_fs (y_world σ')) sn rows) →
  reads σ' hid None rows.
Proof.
  intros Hseen Hseen' Hd Hb Hrows. apply (reads_iff _ _ _ _ _ _ _ _ Hseen) in Hb as (sn0&Hsn0&Hbefore).
  rewrite (od_base _ _ _ _ _ _ _ _ _ _ _ _ _ Hd) in Hsn0. injection Hsn0 as <-.
  apply (reads_iff _ _ _ _ _ _ _ _ Hseen'). exists sn. rewrite (od_branch _ _ _ _ _ _ _ _ _ _ _ _ _ Hd), snap_of_with_snap.
  eauto.
Qed.

(** * Operations that only add rows *)
Lemma append_adds_input σ hid s E fo batches st before :
  reachable σ → schema_at σ hid = Some s →
  reads σ hid None before →
  result σ hid (run_append E fo batches) = Some (Ok (JSucceeded st)) →
  ∃ input, tsel (read_columns s) (concat batches) = Ok input
    ∧ reads (after σ hid (run_append E fo batches)) hid None (before ++ input).
Proof.
  intros Hr Hsch Hb Hres.
  destruct (op_succeeded σ hid E fo (OAppend batches) st Hr) as (s'&h&p&m&h'&base&sn&pa&w1&q&H1&H2&_&Hd); [by intros ??|done|].
  assert (s' = s) as -> by (rewrite (sn_schema _ _ _ _ _ _ H1) in Hsch; congruence).
  pose proof (reads_iff _ _ _ _ _ _ None before H1) as [Hiff _]. destruct (Hiff Hb) as (sn0&Hsn0&Hold).
  rewrite (od_base _ _ _ _ _ _ _ _ _ _ _ _ _ Hd) in Hsn0. injection Hsn0 as <-.
  destruct (append_effect E s batches _ _ _ _ _ _ _ _ before (wi_schema _ _ (si_world _ _ (sn_inv _ _ _ _ _ _ H1))) Hd Hold)
    as (input&Hin&Hnew).
  exists input. split; [done|]. eapply op_done_reads; [exact H1|exact H2|exact Hd|done|]. done.
Qed.
(** The rows of an external Parquet file. *)
Lemma parquet_adds_files σ hid s E fo paths st before :
  reachable σ → schema_at σ hid = Some s →
  (∀ p, p ∈ paths → external_ok s (w_fs (y_world σ)) p) →
  reads σ hid None before →
  result σ hid (run_op E fo (OParquet paths)) = Some (Ok (JSucceeded st)) →
  ∃ input, tsel (read_columns s) (paths ≫= file_rows (w_fs (y_world σ))) = Ok input
    ∧ reads (after σ hid (run_op E fo (OParquet paths))) hid None (before ++ input).
Proof.
  intros Hr Hsch Hext Hb Hres.
  destruct (op_succeeded σ hid E fo (OParquet paths) st Hr) as (s'&h&p&m&h'&base&sn&pa&w1&q&H1&H2&_&Hd); [|done|].
  { intros h Hh. unfold schema_at in Hsch. rewrite Hh in Hsch. cbn in Hsch. injection Hsch as ->. done. }
  assert (s' = s) as -> by (rewrite (sn_schema _ _ _ _ _ _ H1) in Hsch; congruence).
  pose proof (reads_iff _ _ _ _ _ _ None before H1) as [Hiff _]. destruct (Hiff Hb) as (sn0&Hsn0&Hold).
  rewrite (od_base _ _ _ _ _ _ _ _ _ _ _ _ _ Hd) in Hsn0. injection Hsn0 as <-.
  destruct (parquet_effect E s paths _ _ _ _ _ _ _ _ before (wi_schema _ _ (si_world _ _ (sn_inv _ _ _ _ _ _ H1))) Hd Hext Hold)
    as (input&Hin&Hnew).
  exists input. split; [done|]. eapply op_done_reads; [exact H1|exact H2|exact Hd|done|]. done.
Qed.
