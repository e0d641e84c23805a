(** Well-formed files, snapshots and metadata; they stay well-formed when files
    are added. *)
From Verif.Model Require Import Storage Runner.
From Verif.Spec Require Import Logical.
From Verif.Proofs Require Import Lib World Resolve AppendSpec SchemaFacts ReadSpec.

(** All files except the entry point are kept. *)
Definition keeps (fs fs' : fsys) : Prop :=
  ∀ p f, fs !! p = Some f → (∀ q, f ≠ FEntry q) → fs' !! p = Some f.
Lemma keeps_refl fs : keeps fs fs.
Proof. by intros p f. Qed.
Lemma keeps_trans a b c : keeps a b → keeps b c → keeps a c.
Proof. intros H1 H2 p f Hp Hf. apply H2, Hf. by apply H1. Qed.

Notation wnew w w' := (wle (w_next w) w w').
Lemma wnew_refl w : wnew w w.
Proof. apply wle_refl. Qed.
Lemma wnew_trans w1 w2 w3 : wnew w1 w2 → wnew w2 w3 → wnew w1 w3.
Proof.
  intros H1 H2. eapply wle_trans; [done|]. eapply wle_weaken; [|done]. by eapply wle_next.
Qed.
Lemma wnew_keeps w w' : bounded w → wnew w w' → keeps (w_fs w) (w_fs w').
Proof. intros Hb Hw p f Hf _. rewrite (wle_lookup _ _ _ p Hw); [done|]. by eapply Hb. Qed.
Lemma wle_keeps lo w w' : (∀ p f, w_fs w !! p = Some f → below lo p) → wle lo w w' → keeps (w_fs w) (w_fs w').
Proof. intros Hb Hw p f Hf _. rewrite (wle_lookup _ _ _ p Hw); [done|]. by eapply Hb. Qed.

Lemma keeps_records fs fs' : keeps fs fs' → vle (records_in fs) (records_in fs').
Proof.
  intros Hk p rs. unfold records_in. destruct (fs !! p) as [[]|] eqn:Hp; try done. intros [= <-].
  exists []. rewrite app_nil_r. by rewrite (Hk _ _ Hp).
Qed.
Lemma keeps_resolve fs fs' recs rows l :
  keeps fs fs' → resolve_rows (records_in fs) recs rows = Some l →
  resolve_rows (records_in fs') recs rows = Some l.
Proof. intros Hk. apply resolve_rows_vle. by apply keeps_records. Qed.
Lemma keeps_resolve_some fs fs' recs rows :
  keeps fs fs' → is_Some (resolve_rows (records_in fs) recs rows) →
  is_Some (resolve_rows (records_in fs') recs rows).
Proof. intros Hk [l Hl]. exists l. by eapply keeps_resolve. Qed.

Section wf.
Context (s : schema).

Definition wf_mrow (fs : fsys) (m : mrow) : Prop :=
  ∃ cols gs E, fs !! mr_path m = Some (FIndex cols gs) ∧ cols_ok s cols
    ∧ Forall (fun r => row_conforms s r = true) (concat gs)
    ∧ manifest_row E (phys_schema s) (s_pks s) (mr_path m) gs = Ok m
    ∧ is_Some (resolve_rows (records_in fs) (s_recs s) (concat gs)).
Definition wf_man (fs : fsys) (p : path) : Prop :=
  ∃ ms, fs !! p = Some (FIdxMan ms) ∧ Forall (wf_mrow fs) ms.
Definition wf_rman (fs : fsys) (p : path) : Prop :=
  ∃ ms, fs !! p = Some (FRecMan ms)
    ∧ Forall (fun m => ∃ rs, fs !! rm_path m = Some (FRecord rs) ∧ rm_rows m = Z.of_nat (length rs)) ms.
Definition wf_bitmap (fs : fsys) (b : row_bitmap) : Prop :=
  ∃ rows, readable s fs (rb_file b) rows
    ∧ is_Some (resolve_rows (records_in fs) (s_recs s) rows)
    ∧ (rb_all b = false → Forall (fun i => i < length rows) (rb_bits b))
    ∧ rb_num b = Z.of_nat (length rows).
Definition wf_log (fs : fsys) (c : change_log) : Prop :=
  Forall (wf_bitmap fs) (cl_deleted c ++ cl_added c).
Definition wf_snap (fs : fsys) (sn : snapshot) : Prop :=
  NoDup (sn_idx sn) ∧ Forall (wf_man fs) (sn_idx sn) ∧ (Forall (wf_rman fs) (sn_rec sn) ∧ NoDup (sn_rec sn))
  ∧ match sn_log sn with
    | None => True
    | Some lp => ∃ c, fs !! lp = Some (FChange c) ∧ wf_log fs c
    end.
Definition wf_patch (fs : fsys) (p : patch) : Prop :=
  Forall (wf_man fs) (pa_add_idx p) ∧ Forall (wf_rman fs) (pa_add_rec p)
  ∧ match pa_log p with None => True | Some c => wf_log fs c end.
Definition wf_opatch (fs : fsys) (op : option patch) : Prop :=
  match op with None => True | Some p => wf_patch fs p end.

Record wf_meta (fs : fsys) (m : metadata) : Prop := {
  wm_schema : md_schema m = s;
  wm_snaps : ∀ i sn, md_snaps m !! i = Some sn → sn_id sn = i ∧ wf_snap fs sn
     ∧ match sn_parent sn with
       | None => i = 0%Z
       | Some j => (0 ≤ j < i)%Z ∧ is_Some (md_snaps m !! j)
       end;
  wm_current : is_Some (md_snaps m !! md_current m);
  wm_refs : ∀ n r, md_refs m !! n = Some r → is_Some (md_snaps m !! rf_id r) ∧ n ≠ "" ∧ n ≠ MAIN }.

(** * Monotonicity *)
Lemma readable_keeps fs fs' p rows : keeps fs fs' → readable s fs p rows → readable s fs' p rows.
Proof.
  intros Hk (cols&gs&Hp&?&?&?). exists cols, gs. split_and!; try done. by rewrite (Hk _ _ Hp).
Qed.
Lemma wf_mrow_keeps fs fs' m : keeps fs fs' → wf_mrow fs m → wf_mrow fs' m.
Proof.
  intros Hk (cols&gs&E&Hp&?&?&?&?). exists cols, gs, E. split_and!; try done.
  - by rewrite (Hk _ _ Hp).
  - by eapply keeps_resolve_some.
Qed.
Lemma wf_man_keeps fs fs' p : keeps fs fs' → wf_man fs p → wf_man fs' p.
Proof.
  intros Hk (ms&Hp&Hms). exists ms. split; [by rewrite (Hk _ _ Hp)|].
  eapply Forall_impl; [done|]. intros. by eapply wf_mrow_keeps.
Qed.
Lemma wf_rman_keeps fs fs' p : keeps fs fs' → wf_rman fs p → wf_rman fs' p.
Proof.
  intros Hk (ms&Hp&Hms). exists ms. split; [by rewrite (Hk _ _ Hp)|].
  eapply Forall_impl; [done|]. intros m (rs&Hrs&?). exists rs. by rewrite (Hk _ _ Hrs).
Qed.
Lemma wf_bitmap_keeps fs fs' b : keeps fs fs' → wf_bitmap fs b → wf_bitmap fs' b.
Proof.
  intros Hk (rows&?&?&?&?). exists rows. split_and!; try done.
  - by eapply readable_keeps.
  - by eapply keeps_resolve_some.
Qed.
Lemma wf_log_keeps fs fs' c : keeps fs fs' → wf_log fs c → wf_log fs' c.
Proof. intros Hk Hc. eapply Forall_impl; [done|]. intros. by eapply wf_bitmap_keeps. Qed.
Lemma wf_snap_keeps fs fs' sn : keeps fs fs' → wf_snap fs sn → wf_snap fs' sn.
Proof.
  intros Hk (?&?&[??]&Hl). split_and!; try done.
  - eapply Forall_impl; [done|]. intros. by eapply wf_man_keeps.
  - eapply Forall_impl; [done|]. intros. by eapply wf_rman_keeps.
  - destruct (sn_log sn) as [lp|]; [|done]. destruct Hl as (c&Hc&?). exists c.
    rewrite (Hk _ _ Hc); [|done]. split; [done|]. by eapply wf_log_keeps.
Qed.
Lemma wf_patch_keeps fs fs' p : keeps fs fs' → wf_patch fs p → wf_patch fs' p.
Proof.
  intros Hk (?&?&Hl). split_and!.
  - eapply Forall_impl; [done|]. intros. by eapply wf_man_keeps.
  - eapply Forall_impl; [done|]. intros. by eapply wf_rman_keeps.
  - destruct (pa_log p) as [lp|]; [|done]. by eapply wf_log_keeps.
Qed.
Lemma wf_opatch_keeps fs fs' p : keeps fs fs' → wf_opatch fs p → wf_opatch fs' p.
Proof. destruct p; [|done]. apply wf_patch_keeps. Qed.
Lemma wf_meta_keeps fs fs' m : keeps fs fs' → wf_meta fs m → wf_meta fs' m.
Proof.
  intros Hk [? Hs ? ?]. constructor; auto. intros i sn Hi. destruct (Hs i sn Hi) as (?&?&?).
  split_and!; try done. by eapply wf_snap_keeps.
Qed.

(** * Contents *)
Definition man_at (fs : fsys) (p : path) : list mrow :=
  match fs !! p with Some (FIdxMan ms) => ms | _ => [] end.
Definition snap_mrows (fs : fsys) (sn : snapshot) : list mrow := sn_idx sn ≫= man_at fs.
Definition phys_rows (fs : fsys) (sn : snapshot) : list row := man_rows fs (snap_mrows fs sn).
Definition content (fs : fsys) (sn : snapshot) : option (list row) :=
  resolve_rows (records_in fs) (s_recs s) (phys_rows fs sn).

Lemma man_at_some fs p ms : fs !! p = Some (FIdxMan ms) → man_at fs p = ms.
Proof. unfold man_at. by intros ->. Qed.
Lemma file_rows_keeps fs fs' p rows :
  keeps fs fs' → readable s fs p rows → file_rows fs' p = file_rows fs p.
Proof. intros Hk (cols&gs&Hp&_). unfold file_rows. rewrite Hp, (Hk _ _ Hp); done. Qed.
Lemma wf_mrow_readable fs m : wf_mrow fs m → readable s fs (mr_path m) (file_rows fs (mr_path m)).
Proof. intros (cols&gs&E&Hp&?&?&?&?). exists cols, gs. unfold file_rows. by rewrite Hp. Qed.
Lemma wf_mrow_rows fs m : wf_mrow fs m → mr_rows m = Z.of_nat (length (file_rows fs (mr_path m))).
Proof.
  intros (cols&gs&E&Hp&?&?&Hm&?). unfold file_rows. rewrite Hp.
  by apply manifest_row_fields in Hm as [_ ?].
Qed.
Lemma wf_mrow_conforms fs m :
  wf_mrow fs m → Forall (fun r => row_conforms s r = true) (file_rows fs (mr_path m)).
Proof. intros (cols&gs&E&Hp&?&?&Hm&?). unfold file_rows. by rewrite Hp. Qed.
Lemma wf_mrow_resolve fs m :
  wf_mrow fs m → is_Some (resolve_rows (records_in fs) (s_recs s) (file_rows fs (mr_path m))).
Proof. intros (cols&gs&E&Hp&?&?&Hm&?). unfold file_rows. by rewrite Hp. Qed.
Lemma man_rows_keeps fs fs' ms :
  keeps fs fs' → Forall (wf_mrow fs) ms → man_rows fs' ms = man_rows fs ms.
Proof.
  intros Hk. induction 1 as [|m ms Hm _ IH]; [done|]. rewrite !man_rows_cons, IH. f_equal.
  eapply file_rows_keeps; [done|]. by apply wf_mrow_readable.
Qed.
Lemma man_rows_resolve fs ms :
  Forall (wf_mrow fs) ms → is_Some (resolve_rows (records_in fs) (s_recs s) (man_rows fs ms)).
Proof.
  induction 1 as [|m ms Hm _ [l IH]]; [by exists []|]. rewrite man_rows_cons.
  destruct (wf_mrow_resolve fs m Hm) as [l0 Hl0]. exists (l0 ++ l). apply mapM_app_Some. eauto.
Qed.
Lemma wf_man_at fs p : wf_man fs p → fs !! p = Some (FIdxMan (man_at fs p)) ∧ Forall (wf_mrow fs) (man_at fs p).
Proof. intros (ms&Hp&Hms). unfold man_at. by rewrite Hp. Qed.
Lemma snap_mrows_wf fs l : Forall (wf_man fs) l → Forall (wf_mrow fs) (l ≫= man_at fs).
Proof.
  induction 1 as [|p l Hp _ IH]; [constructor|]. rewrite bind_cons. apply Forall_app. split; [|done].
  by apply wf_man_at in Hp as [_ ?].
Qed.
Lemma wf_snap_mrows fs sn : wf_snap fs sn → Forall (wf_mrow fs) (snap_mrows fs sn).
Proof. intros (_&?&_). by apply snap_mrows_wf. Qed.
Lemma bind_man_keeps fs fs' l :
  keeps fs fs' → Forall (wf_man fs) l → l ≫= man_at fs' = l ≫= man_at fs.
Proof.
  intros Hk. induction 1 as [|p l Hp _ IH]; [done|]. rewrite !bind_cons, IH. f_equal.
  destruct Hp as (ms&Hp&_). unfold man_at. by rewrite Hp, (Hk _ _ Hp).
Qed.
Lemma phys_rows_keeps fs fs' sn : keeps fs fs' → wf_snap fs sn → phys_rows fs' sn = phys_rows fs sn.
Proof.
  intros Hk Hw. unfold phys_rows, snap_mrows. rewrite (bind_man_keeps fs fs') by (auto; apply Hw).
  apply man_rows_keeps; [done|]. by apply wf_snap_mrows.
Qed.
Lemma content_keeps fs fs' sn : keeps fs fs' → wf_snap fs sn → content fs' sn = content fs sn.
Proof.
  intros Hk Hw. unfold content. rewrite (phys_rows_keeps fs fs') by done.
  destruct (man_rows_resolve fs _ (wf_snap_mrows _ _ Hw)) as [l Hl].
  unfold phys_rows. rewrite Hl. by eapply keeps_resolve.
Qed.
Lemma content_some fs sn : wf_snap fs sn → is_Some (content fs sn).
Proof. intros Hw. apply man_rows_resolve. by apply wf_snap_mrows. Qed.
Lemma man_rows_conform fs ms :
  Forall (wf_mrow fs) ms → Forall (fun r => row_conforms s r = true) (man_rows fs ms).
Proof.
  induction 1 as [|m ms Hm _ IH]; [constructor|]. rewrite man_rows_cons. apply Forall_app. split; [|done].
  by apply wf_mrow_conforms.
Qed.
Lemma man_rows_count fs ms :
  Forall (wf_mrow fs) ms → Zsum (mr_rows <$> ms) = Z.of_nat (length (man_rows fs ms)).
Proof.
  induction 1 as [|m ms Hm _ IH]; [done|]. rewrite man_rows_cons, app_length, fmap_cons.
  change (Zsum (mr_rows m :: (mr_rows <$> ms))) with (mr_rows m + Zsum (mr_rows <$> ms))%Z.
  rewrite IH, (wf_mrow_rows fs m Hm). lia.
Qed.
End wf.
