(** Tools for showing that the hypotheses on refreshes can be met. *)
From Verif.Model Require Import System Refresh.
From Verif.Spec Require Import Logical Api Layout Fixture Pruning Keys Uniqueness Refreshing.
From Verif.Proofs Require Import Lib World Resolve AppendSpec SchemaFacts ReadSpec Wf OpSpec Inv FileSet Ops Bodies Txn
  SysInv ReadRun Effects Observe RefreshSource Refreshed Witness.

Lemma mv_from_reachable σ : reachable σ → mv_reachable σ.
Proof. unfold reachable. remember init as σ0. induction 1; subst; [constructor|]. constructor; auto. Qed.
Lemma mv_reads_once σ hid v rows :
  mv_reachable σ → result σ hid (run_read_all ex_env None None v false None) = Some (Ok rows) → reads σ hid v rows.
Proof.
  intros Hr Hres. destruct (result_handle _ _ _ _ Hres) as [h Hh].
  destruct (mv_inv _ Hr) as [He|[s0 Hs0]]; [by rewrite (se_handles _ He), lookup_empty in Hh|].
  destruct (sinv_seen _ _ _ _ Hs0 Hh) as (p&m&Hseen). apply (reads_iff _ _ _ _ _ _ _ _ Hseen).
  pose proof Hseen as [Hs _ Hwf Hst Hm _]. rewrite (result_eq _ _ _ _ Hh) in Hres. injection Hres as Hres.
  destruct (run_read_all_run ex_env v None s0 h (y_world σ) p m (si_world _ _ Hs) Hwf Hst Hm) as (r&Hr'&Hout).
  rewrite Hr' in Hres. cbn in Hres. subst r. destruct (snap_of m (h_branch h) v) as [sn|]; [|done].
  destruct Hout as (rows'&[= <-]&?). eauto.
Qed.
Ltac mv_reads_by_computing := apply mv_reads_once; [|computed].

(** Facts about all listed snapshots, or all snapshots of a storage, by reading
    them. *)
Definition read_version (σ : sys) (hid : nat) (k : Z) : list row :=
  match result σ hid (run_read_all ex_env None None (Some (VId k)) false None) with Some (Ok rows) => rows | _ => [] end.
Lemma versions_tested σ hid m ks (P : snapshot → list row → bool) :
  forallb (fun k => match md_snaps m !! k with Some sn => P sn (read_version σ hid k) | None => true end) ks = true →
  ∀ k sn rows, k ∈ ks → md_snaps m !! k = Some sn → reads σ hid (Some (VId k)) rows → P sn rows = true.
Proof.
  intros Ht k sn rows Hk Hsn Hr. rewrite forallb_forall in Ht. specialize (Ht k). rewrite <-elem_of_list_In in Ht.
  specialize (Ht Hk). rewrite Hsn in Ht. unfold read_version in Ht. by rewrite (Hr ex_env None) in Ht.
Qed.
Lemma all_versions_tested σ hid m (P : Z → snapshot → list row → bool) :
  forallb (fun '(k, sn) => P k sn (read_version σ hid k)) (map_to_list (md_snaps m)) = true →
  ∀ k sn rows, md_snaps m !! k = Some sn → reads σ hid (Some (VId k)) rows → P k sn rows = true.
Proof.
  intros Ht k sn rows Hsn Hr. rewrite forallb_forall in Ht. specialize (Ht (k, sn)). rewrite <-elem_of_list_In, elem_of_map_to_list in Ht.
  specialize (Ht Hsn). cbn in Ht. unfold read_version in Ht. by rewrite (Hr ex_env None) in Ht.
Qed.
Definition version_ok (pks : list string) (sn : snapshot) (rows : list row) : bool :=
  bool_decide (NoDup (key_of pks <$> rows))
  && (forallb (fun r => forallb (fun n => bool_decide (row_look r n ≠ None) && bool_decide (row_look r n ≠ Some SNaN)) pks) rows
  && bool_decide (st_rows (sn_stats sn) = Z.of_nat (length rows))).
Lemma good_versions_tested σ hid m ks pks :
  forallb (fun k => match md_snaps m !! k with Some sn => version_ok pks sn (read_version σ hid k) | None => true end) ks = true →
  ∀ k sn rows, k ∈ ks → md_snaps m !! k = Some sn → reads σ hid (Some (VId k)) rows →
    unique_keys pks rows ∧ proper_keys pks rows ∧ st_rows (sn_stats sn) = Z.of_nat (length rows).
Proof.
  intros Ht k sn rows Hk Hsn Hr. pose proof (versions_tested _ _ _ _ _ Ht k sn rows Hk Hsn Hr) as Hok. unfold version_ok in Hok.
  apply andb_true_iff in Hok as [Hu Hok]. apply andb_true_iff in Hok as [Hp Hc]. apply bool_decide_eq_true in Hu, Hc.
  split; [exact Hu|]. split; [|done]. intros r n Hin Hn. rewrite forallb_forall in Hp. specialize (Hp r (proj1 (elem_of_list_In _ _) Hin)).
  rewrite forallb_forall in Hp. specialize (Hp n (proj1 (elem_of_list_In _ _) Hn)). apply andb_true_iff in Hp as [H1 H2].
  by apply bool_decide_eq_true in H1, H2.
Qed.
Lemma counts_tested σ hid m :
  forallb (fun '(k, sn) => bool_decide (st_rows (sn_stats sn) = Z.of_nat (length (read_version σ hid k)))) (map_to_list (md_snaps m)) = true →
  ∀ k sn rows, md_snaps m !! k = Some sn → reads σ hid (Some (VId k)) rows → st_rows (sn_stats sn) = Z.of_nat (length rows).
Proof.
  intros Ht k sn rows Hsn Hr.
  pose proof (all_versions_tested σ hid m (fun k sn rows => bool_decide (st_rows (sn_stats sn) = Z.of_nat (length rows))) Ht k sn rows Hsn Hr) as Hok.
  by apply bool_decide_eq_true in Hok.
Qed.
