(** All bodies of mutating methods, those of the Ray runner included: they leave
    the handle alone, write only new files, and return a well-formed patch. *)
From Verif.Model Require Import System.
From Verif.Spec Require Import Logical.
From Verif.Proofs Require Import Lib World Resolve AppendSpec SchemaFacts ReadSpec Wf OpSpec Inv FileSet Ops.

(** * The Ray runner *)
Lemma listed_later s w w1 df : keeps (w_fs w) (w_fs w1) → listed s w df → listed s w1 df.
Proof. intros Hk (?&?&m&Hm&?&?). split_and!; try done. exists m. split_and!; try done. by eapply wf_mrow_keeps. Qed.
Lemma many_wf {A} s (f : A → M (option patch)) w0 l w :
  bounded w0 → bounded w → wnew w0 w →
  (∀ x w1, x ∈ l → bounded w1 → wnew w0 w1 →
    let '(w2, r) := f x w1 in wnew w1 w2 ∧ match r with Ok op => wf_opatch s (w_fs w2) op | Err _ => True end) →
  let '(w', r) := mapM_st f l w in
  wnew w w' ∧ match r with Ok ps => Forall (wf_opatch s (w_fs w')) ps | Err _ => True end.
Proof.
  intros Hb0 Hb Hw Hf. revert w Hb Hw. induction l as [|x l IH]; intros w Hb Hw; cbn [mapM_st].
  { split; [apply wnew_refl|constructor]. }
  unfold bind. specialize (Hf x w ltac:(by left) Hb Hw) as Hx. destruct (f x w) as [w1 [op|]]; destruct Hx as [Hw1 Hop]; [|done].
  assert (Hb1 : bounded w1) by by eapply wle_bounded.
  specialize (IH (fun y w2 Hy => Hf y w2 ltac:(by right)) w1 Hb1 ltac:(by eapply wnew_trans)).
  destruct (mapM_st f l w1) as [w2 [ps|]]; destruct IH as [Hw2 Hps]; cbn; (split; [by eapply wnew_trans|]); [|done].
  constructor; [|done]. eapply wf_opatch_keeps; [|exact Hop]. by apply wnew_keeps.
Qed.
Lemma ray_append_wf E O s n calls w :
  bounded w →
  let '(w', r) := ray_append_op E O s n calls w in
  wnew w w' ∧ match r with Ok op => wf_opatch s (w_fs w') op | Err _ => True end.
Proof.
  intros Hb. unfold ray_append_op, bind.
  pose proof (many_wf s (fun i => append_op E O s (concat (filter (fun c => c.1 = i) calls).*2)) w (seq 0 n) w Hb Hb (wnew_refl w)) as H.
  destruct (mapM_st _ (seq 0 n) w) as [w' [ps|]].
  - destruct H as [Hw Hps]; [|split; [done|by apply merge_patches_wf]].
    intros i w1 _ Hb1 _. pose proof (append_op_out E O s (concat (filter (fun c => c.1 = i) calls).*2) w1 Hb1) as Ha.
    destruct (append_op E O s _ w1) as [w2 [[p|]|]]; destruct Ha as (Hw2&_&Hr); (split; [done|]); [|done..].
    destruct Hr as (rows&_&Hp). eapply patch_adds_wf; [|exact Hp]. constructor.
  - split; [|done]. apply H. intros i w1 _ Hb1 _.
    pose proof (append_op_out E O s (concat (filter (fun c => c.1 = i) calls).*2) w1 Hb1) as Ha.
    destruct (append_op E O s _ w1) as [w2 [[p|]|]]; destruct Ha as (Hw2&_&Hr); (split; [done|]); [|done..].
    destruct Hr as (rows&_&Hp). eapply patch_adds_wf; [|exact Hp]. constructor.
Qed.
Lemma ray_delete_wf E O s e h w :
  winv s w → wf_handle s w h →
  ∃ w' r, op_body E O (ORayDelete e) (h, w) = ((h, w'), r) ∧ wnew w w'
    ∧ match r with Ok op => wf_opatch s (w_fs w') op | Err _ => True end.
Proof.
  intros Hi Hh. pose proof Hh as (Hm&_&_). pose proof Hi as [Hb Hs _]. unfold op_body.
  rewrite get_handle_bind. unfold bind at 1. rewrite (data_files_run s) by done.
  destruct (get_snapshot h None) as [sn|] eqn:Hsn; [|exists w; eexists; split; [done|]; split; [apply wnew_refl|done]].
  cbn [man_filter]. destruct (build_manifest_filter (fenv_of s) e) as [mf|] eqn:Hmf;
    [|exists w; eexists; split; [done|]; split; [apply wnew_refl|done]].
  cbn [rmap]. rewrite (wm_schema _ _ _ Hm). pose proof (get_snapshot_wf _ _ _ _ _ Hm Hsn) as Hwsn.
  set (fset := fset_at (w_fs w) mf (sn_idx sn)) in *.
  assert (Hl : Forall (listed s w) (fset_files fset)) by (apply fset_listed; apply Hwsn).
  assert (Hmans : ∀ i q, fset_mans fset !! i = Some q → wf_man s (w_fs w) q).
  { intros i q. apply fset_mans_wf, Hwsn. }
  unfold ray_delete_op.
  pose proof (many_wf s (fun df => delete_op E O s e (FileSet [df] (fset_mans fset))) w (fset_files fset) w Hb Hb (wnew_refl w)) as H.
  destruct (mapM_st (fun df => delete_op E O s e (FileSet [df] (fset_mans fset))) (fset_files fset) w) as [w' r] eqn:Hrun.
  destruct H as [Hw Hps].
  { intros df w1 Hdf Hb1 Hw1. pose proof (wnew_keeps _ _ Hb Hw1) as Hk.
    assert (Hl1 : Forall (listed s w1) (fset_files (FileSet [df] (fset_mans fset)))).
    { constructor; [|constructor]. eapply listed_later; [exact Hk|]. by eapply Forall_forall in Hl. }
    assert (Hm1 : ∀ i q, fset_mans (FileSet [df] (fset_mans fset)) !! i = Some q → wf_man s (w_fs w1) q).
    { intros i q Hq. eapply wf_man_keeps; [exact Hk|]. by eapply Hmans. }
    pose proof (delete_op_out E O s e (FileSet [df] (fset_mans fset)) w1 Hs Hb1 Hl1 Hm1) as Hd.
    destruct (delete_op E O s e (FileSet [df] (fset_mans fset)) w1) as [w2 [op|]]; destruct Hd as [Hw2 Hd]; (split; [done|]); [|done].
    by eapply (delete_out_wf s e w1). }
  exists w'. destruct r as [ps|].
  - eexists. split; [|split; [done|]].
    + apply liftM_run. unfold bind. rewrite Hrun. done.
    + by apply merge_patches_wf.
  - eexists. split; [|split; [done|]].
    + apply liftM_run. unfold bind. rewrite Hrun. done.
    + done.
Qed.
Lemma ray_insert_wf E O s n mode data h w :
  winv s w → wf_handle s w h →
  ∃ w' r, ray_insert_op E O n mode data (h, w) = ((h, w'), r) ∧ wnew w w'
    ∧ match r with Ok op => wf_opatch s (w_fs w') op | Err _ => True end.
Proof.
  intros Hi Hh. pose proof Hh as (Hm&_&_). pose proof Hi as [Hb Hs _]. unfold ray_insert_op.
  destruct data as [|d0 d1].
  { exists w. eexists. split; [done|]. split; [apply wnew_refl|]. done. }
  cbv iota. generalize (d0 :: d1). clear d0 d1. intros data.
  rewrite get_handle_bind, lift_bind. rewrite (wm_schema _ _ _ Hm).
  destruct (primary_key_filter (s_pks s) data) as [[e|]|] eqn:Hpk;
    [|exists w; eexists; split; [done|]; split; [apply wnew_refl|done]..].
  unfold bind at 1. rewrite (data_files_run s) by done.
  destruct (get_snapshot h None) as [sn|] eqn:Hsn; [|exists w; eexists; split; [done|]; split; [apply wnew_refl|done]].
  cbn [man_filter].
  destruct (build_manifest_filter (fenv_of s) e) as [mf|] eqn:Hmf;
    [|exists w; eexists; split; [done|]; split; [apply wnew_refl|done]]. cbn [rmap].
  set (fset := fset_at (w_fs w) mf (sn_idx sn)) in *.
  pose proof (get_snapshot_wf _ _ _ _ _ Hm Hsn) as Hwsn.
  assert (Hl : Forall (listed s w) (fset_files fset)) by (apply fset_listed; apply Hwsn).
  assert (Hmans : ∀ i q, fset_mans fset !! i = Some q → wf_man s (w_fs w) q).
  { intros i q. apply fset_mans_wf, Hwsn. }
  assert (Happ : ∀ w1 ps, bounded w1 → Forall (wf_opatch s (w_fs w1)) ps →
    ∃ w' r, bind (liftM (ray_write E O s n data)) (fun p => ret (merge_patches (ps ++ [p]))) (h, w1) = ((h, w'), r)
     ∧ wnew w1 w' ∧ match r with Ok op => wf_opatch s (w_fs w') op | Err _ => True end).
  { intros w1 ps Hb1 Hps. unfold ray_write.
    pose proof (ray_append_wf E O s n ((fun c => (c.1, [c.2])) <$> ray_shards n data) w1 Hb1) as Ha.
    destruct (ray_append_op E O s n ((fun c => (c.1, [c.2])) <$> ray_shards n data) w1) as [w2 r] eqn:Hap. destruct Ha as (Hw2&Hr).
    unfold bind. rewrite (liftM_run _ h w1 _ _ Hap). exists w2. destruct r as [aop|]; eexists; (split; [done|]); (split; [done|]); [|done].
    apply merge_patches_wf, Forall_app. split; [|by repeat constructor].
    eapply Forall_impl; [exact Hps|]. intros op. apply wf_opatch_keeps. by apply wnew_keeps. }
  destruct (fset_files fset) as [|df dfs] eqn:Hfiles.
  { destruct (Happ w [] Hb ltac:(constructor)) as (w'&r&Hr&Hw'&Hok). exists w', r. split; [exact Hr|]. done. }
  destruct mode.
  - assert (Hro : ∃ r, mapM_st (fun df => filter_matched E s (FileSet [df] ∅) e) (df :: dfs) w = (w, r)).
    { clear. generalize (df :: dfs). intros l. induction l as [|x l [r IH]]; [by eexists|]. cbn [mapM_st]. unfold bind.
      pose proof (readonly_filter_matched E s (FileSet [x] ∅) e w) as Hx.
      destruct (filter_matched E s (FileSet [x] ∅) e w) as [w1 r1]. cbn in Hx. subst w1.
      destruct r1; [|by eexists]. rewrite IH. destruct r; by eexists. }
    destruct Hro as [r1 Hrun]. unfold bind at 1 2. rewrite (liftM_run _ h w _ _ Hrun).
    destruct r1 as [dups|]; [|by exists w; eexists; split; [done|]; split; [apply wnew_refl|done]].
    destruct (existsb id dups); [by exists w; eexists; split; [done|]; split; [apply wnew_refl|done]|].
    destruct (Happ w [] Hb ltac:(constructor)) as (w'&r&Hr&Hw'&Hok). exists w', r. split; [exact Hr|]. done.
  - rewrite <-Hfiles in Hl.
    pose proof (delete_op_out E O s e fset w Hs Hb Hl Hmans) as Hd.
    destruct (delete_op E O s e fset w) as [w1 r1] eqn:Hdo. destruct Hd as [Hw1 Hd].
    unfold bind at 1 2. rewrite (liftM_run _ h w _ _ Hdo).
    destruct r1 as [dop|]; [|by exists w1; eexists; split; [done|]; split].
    destruct (Happ w1 [dop]) as (w'&r&Hr&Hw'&Hok); [by eapply wle_bounded| |].
    { repeat constructor. by eapply (delete_out_wf s e w fset). }
    exists w', r. split; [exact Hr|]. split; [by eapply wnew_trans|]. done.
Qed.

(** * All bodies *)
Definition op_out (E : env) (s : schema) (o : op) (h : handle) (w : world) (p : option patch) (w' : world) : Prop :=
  match o with
  | OAppend batches => ∃ rows, tsel (out_names s) (concat batches) = Ok rows
      ∧ match p with None => rows = [] | Some p => patch_adds s (w_next w) w' p [] rows end
  | OInsert mode data => insert_out E s mode data h w p w'
  | ODelete e => ∃ sn mf, get_snapshot h None = Ok sn ∧ build_manifest_filter (fenv_of s) e = Ok mf
      ∧ delete_out s e w (fset_at (w_fs w) mf (sn_idx sn)) p w'
  | OParquet paths => parquet_out s w paths p w'
  | OArrayRecord paths index_fn _ => array_record_out s w paths index_fn p w'
  | ORayAppend n data => ∃ fo, ray_write E fo s n data w = (w', Ok p)
  | ORayAppendFrom n sources =>
      let k := length sources `min` n in ∃ fo, ray_append_op E fo s k (ray_sources k sources) w = (w', Ok p)
  | ORayInsert n mode data => winv s w ∧ wf_handle s w h ∧ ∃ fo, ray_insert_op E fo n mode data (h, w) = ((h, w'), Ok p)
  | ORayDelete e => winv s w ∧ wf_handle s w h ∧ ∃ fo, op_body E fo (ORayDelete e) (h, w) = ((h, w'), Ok p)
  end.
Lemma op_body_run E fo s o h w :
  winv s w → wf_handle s w h → op_ok s (w_fs w) o →
  ∃ w' r, op_body E fo o (h, w) = ((h, w'), r) ∧ wnew w w'
    ∧ match r with Ok p => op_out E s o h w p w' ∧ wf_opatch s (w_fs w') p | Err _ => True end.
Proof.
  intros Hi Hh Hok. pose proof Hh as (Hm&_&_). pose proof Hi as [Hb Hs _].
  destruct o as [batches|mode data|e|paths|paths index_fn nbytes|n data|n sources|n mode data|e]; unfold op_body.
  - rewrite get_handle_bind, (wm_schema _ _ _ Hm).
    pose proof (append_op_out E fo s batches w Hb) as Ha.
    destruct (append_op E fo s batches w) as [w' r] eqn:Hap. destruct Ha as (Hw'&_&Hr).
    rewrite (liftM_run _ h w _ _ Hap). exists w', r. split; [done|]. split; [done|].
    destruct r as [p|]; [|done]. split; [done|]. destruct Hr as (rows&_&Hp). destruct p as [p|]; [|done].
    eapply patch_adds_wf; [|exact Hp]. constructor.
  - destruct (insert_op_run E fo s mode data h w Hi Hh) as (w'&r&Hr&Hw'&Hout). exists w', r.
    split; [done|]. split; [done|]. destruct r; [|done]. split; [done|]. by eapply insert_out_wf.
  - rewrite get_handle_bind. unfold bind. rewrite (data_files_run s) by done.
    destruct (get_snapshot h None) as [sn|] eqn:Hsn; [|exists w; eexists; split; [done|]; split; [apply wnew_refl|done]].
    cbn [man_filter]. destruct (build_manifest_filter (fenv_of s) e) as [mf|] eqn:Hmf;
      [|exists w; eexists; split; [done|]; split; [apply wnew_refl|done]].
    cbn [rmap]. rewrite (wm_schema _ _ _ Hm). pose proof (get_snapshot_wf _ _ _ _ _ Hm Hsn) as Hwsn.
    set (fset := fset_at (w_fs w) mf (sn_idx sn)) in *.
    assert (Hl : Forall (listed s w) (fset_files fset)) by (apply fset_listed; apply Hwsn).
    assert (Hmans : ∀ i q, fset_mans fset !! i = Some q → wf_man s (w_fs w) q).
    { intros i q. apply fset_mans_wf, Hwsn. }
    pose proof (delete_op_out E fo s e fset w Hs Hb Hl Hmans) as Hd.
    destruct (delete_op E fo s e fset w) as [w' r] eqn:Hdo. destruct Hd as [Hw' Hd].
    rewrite (liftM_run _ h w _ _ Hdo). exists w', r. split; [done|]. split; [done|].
    destruct r as [p|]; [|done]. split; [by exists sn, mf|]. by eapply (delete_out_wf s e w fset).
  - rewrite get_handle_bind, (wm_schema _ _ _ Hm).
    pose proof (parquet_load_out E s w paths Hs Hb Hok) as Ha.
    destruct (parquet_load_op E s paths w) as [w' r] eqn:Hap. destruct Ha as [Hw' Hr].
    rewrite (liftM_run _ h w _ _ Hap). exists w', r. split; [done|]. split; [done|].
    destruct r as [p|]; [|done]. split; [done|]. by eapply parquet_out_wf.
  - rewrite get_handle_bind, (wm_schema _ _ _ Hm).
    pose proof (array_record_load_out E fo s w paths index_fn nbytes Hs Hb Hok) as Ha.
    destruct (array_record_load_op E fo s paths index_fn nbytes w) as [w' r] eqn:Hap. destruct Ha as [Hw' Hr].
    rewrite (liftM_run _ h w _ _ Hap). exists w', r. split; [done|]. split; [done|].
    destruct r as [p|]; [|done]. split; [done|]. by eapply array_record_out_wf.
  - rewrite get_handle_bind, (wm_schema _ _ _ Hm).
    pose proof (ray_append_wf E fo s n ((fun c => (c.1, [c.2])) <$> ray_shards n data) w Hb) as Ha. fold (ray_write E fo s n data) in Ha.
    destruct (ray_write E fo s n data w) as [w' r] eqn:Hap. destruct Ha as (Hw'&Hr).
    rewrite (liftM_run _ h w _ _ Hap). exists w', r. split; [done|]. split; [done|].
    destruct r as [p|]; [|done]. split; [by exists fo|done].
  - rewrite get_handle_bind, (wm_schema _ _ _ Hm). cbn zeta. set (k := length sources `min` n).
    pose proof (ray_append_wf E fo s k (ray_sources k sources) w Hb) as Ha.
    destruct (ray_append_op E fo s k (ray_sources k sources) w) as [w' r] eqn:Hap. destruct Ha as (Hw'&Hr).
    rewrite (liftM_run _ h w _ _ Hap). exists w', r. split; [done|]. split; [done|].
    destruct r as [p|]; [|done]. split; [by exists fo|done].
  - destruct (ray_insert_wf E fo s n mode data h w Hi Hh) as (w'&r&Hr&Hw'&Hp). exists w', r. split; [done|]. split; [done|].
    destruct r as [p|]; [|done]. split; [|done]. split; [done|]. split; [done|]. by exists fo.
  - destruct (ray_delete_wf E fo s e h w Hi Hh) as (w'&r&Hr&Hw'&Hp). exists w', r. split; [done|]. split; [done|].
    destruct r as [p|]; [|done]. split; [|done]. split; [done|]. split; [done|]. by exists fo.
Qed.
