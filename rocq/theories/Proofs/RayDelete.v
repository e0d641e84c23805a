(** The distributed delete. *)
From Verif.Model Require Import System RayOps.
From Verif.Spec Require Import Logical Api Pruning Separable.
From Verif.Proofs Require Import Lib NewPaths FalsifySound World Resolve AppendSpec SchemaFacts ReadSpec Bounds Wf OpSpec Inv FileSet Ops Bodies Txn
  SysInv ReadRun Effects Observe View Prune DeleteEffect Calls Reads AnyOp.
From Verif.Proofs Require Import Merge.

Section pieces.
Context (E : env) (O : fopts) (s : schema) (e : filter_expr) (w0 : world) (mans : gmap nat path).
Hypothesis Hs : wf_schema s.
Hypothesis Hmans : ∀ i q, mans !! i = Some q → wf_man s (w_fs w0) q.
Notation fs0 := (w_fs w0).

(** What the delete for one file gives. *)
Definition others (q : path) (p : path) : list mrow := filter (fun m => mr_path m ≠ p) (man_at fs0 q).
Definition piece (fs1 : fsys) (df : data_file) (op : option patch) : Prop :=
  match op with
  | None => ¬ touched e w0 df
  | Some p => touched e w0 df ∧ wf_patch s fs1 p ∧ ∃ q, mans !! df_mid df = Some q ∧ pa_del_idx p = [q] ∧ pa_add_rec p = []
      ∧ ((kept e w0 df = [] ∧ pa_add_idx p = [])
         ∨ (kept e w0 df ≠ [] ∧ ∃ u ms, pa_add_idx p = [u] ∧ man_at fs1 u = others q (df_path df) ++ ms
            ∧ wf_man s fs1 u
            ∧ Forall (wf_mrow s fs1) ms
            ∧ ∀ ys, shows s fs0 (kept e w0 df) ys → shows s fs1 (man_rows fs1 ms) ys))
  end.
(** What the piece records. *)
Definition piece_log (df : data_file) (op : option patch) : Prop :=
  match op with
  | None => True
  | Some p => pa_log p = Some (ChangeLog [build_bitmap df (kept_pos e w0 df)] [])
      ∧ st_rows (pa_stats p) = (- drop_count e w0 [df])%Z
  end.
Lemma man_at_wf_keeps fs fs' q : keeps fs fs' → wf_man s fs q → man_at fs' q = man_at fs q.
Proof. intros Hk (ms&Hq&_). unfold man_at. by rewrite Hq, (Hk _ _ Hq). Qed.
Lemma piece_keeps fs1 fs2 df op : keeps fs1 fs2 → piece fs1 df op → piece fs2 df op.
Proof.
  intros Hk. destruct op as [p|]; [|done]. intros (Ht&Hp&q&Hq&Hd&Hr&Ha). split; [done|]. split; [by eapply wf_patch_keeps|].
  exists q. split_and!; try done. destruct Ha as [?|(Hne&u&ms&Ha&Hm&Hwu&Hw&Hsh)]; [by left|]. right. split; [done|].
  exists u, ms. split_and!; try done.
  - by rewrite (man_at_wf_keeps fs1).
  - by eapply wf_man_keeps.
  - eapply Forall_impl; [exact Hw|]. intros. by eapply wf_mrow_keeps.
  - intros ys Hys. rewrite (man_rows_keeps s fs1) by done. eapply shows_keeps; [exact Hk|]. auto.
Qed.
Lemma delete_one df w :
  bounded w → keeps fs0 (w_fs w) → listed s w0 df →
  let '(w', r) := delete_op E O s e (FileSet [df] mans) w in
  wnew w w' ∧ match r with
              | Ok op => piece (w_fs w') df op ∧ piece_log df op ∧ new_paths (w_next w) (w_next w') (omap id [op] ≫= pa_add_idx)
              | Err _ => True end.
Proof.
  intros Hb Hk Hl.
  assert (Hdr : drows w df = drows w0 df).
  { destruct Hl as (_&_&m&Hm&Hp&_). unfold drows. rewrite Hp. eapply file_rows_keeps; [exact Hk|]. by apply wf_mrow_readable. }
  assert (Hl' : listed s w df).
  { destruct Hl as (?&?&m&Hm&?&?). split; [done|]. split; [done|]. exists m. split; [|done]. by eapply wf_mrow_keeps. }
  assert (Hkept : kept e w df = kept e w0 df) by (unfold kept; by rewrite Hdr).
  assert (Htouch : touched e w df ↔ touched e w0 df) by (unfold touched; by rewrite Hkept, Hdr).
  assert (Hm' : ∀ i q, mans !! i = Some q → wf_man s (w_fs w) q) by (intros; eapply wf_man_keeps; eauto).
  pose proof (delete_op_out E O s e (FileSet [df] mans) w Hs Hb) as Hout. cbn [fset_files fset_mans] in Hout.
  specialize (Hout ltac:(by apply Forall_singleton) Hm').
  destruct (delete_op E O s e (FileSet [df] mans) w) as [w' [op|er]]; [|by destruct Hout].
  destruct Hout as [Hw Hout]. split; [done|].
  pose proof (wnew_keeps _ _ Hb Hw) as Hk1.
  assert (Hwf : wf_opatch s (w_fs w') op).
  { eapply (delete_out_wf s e w (FileSet [df] mans)); try done. by apply Forall_singleton. }
  split; cycle 1.
  { split.
    { destruct op as [p|]; [|done]. destruct Hout as (HT&mids&qs&lk&_&_&_&_&_&_&_&Hlog&Hst&_). cbn [fset_files] in *.
      rewrite filter_cons, filter_nil in HT, Hlog. case_decide; [|done]. split.
      - rewrite Hlog. cbn. unfold kept_pos. by rewrite Hdr.
      - rewrite Hst. unfold drop_count. cbn. by rewrite Hkept, Hdr. }
    destruct op as [p|]; [|apply new_paths_nil]. destruct Hout as (_&mids&qs&lk&_&_&_&_&_&Hadd&_). cbn. rewrite app_nil_r. cbv zeta in Hadd.
    destruct lk; [rewrite Hadd; apply new_paths_nil|]. destruct Hadd as (u&ms&->&?&?&_).
    split; [apply NoDup_singleton|]. intros q ->%elem_of_list_singleton. split; [by apply not_below|done]. }
  unfold delete_out in Hout. cbn [fset_files fset_mans] in Hout. rewrite filter_cons, filter_nil in Hout.
  destruct op as [p|]; cbn [piece].
  - destruct (decide (touched e w df)) as [Ht|Ht]; [|by destruct Hout].
    destruct Hout as (_&mids&qs&lkept&Hnd&Hmids&Hf2&Hdel&Hres&Hadd&Hrec&Hlog&_).
    split; [by apply Htouch|]. split; [done|].
    assert (mids = [df_mid df]) as ->.
    { cbn [fmap list_fmap] in Hmids. destruct mids as [|i [|j mids]].
      - assert (df_mid df ∈ []) as Hx by (apply Hmids; left). by apply elem_of_nil in Hx.
      - f_equal. apply elem_of_list_singleton, Hmids. left.
      - exfalso. apply NoDup_cons in Hnd as [Hnd _]. apply Hnd.
        assert (i = df_mid df) as -> by (apply elem_of_list_singleton, Hmids; left).
        assert (j = df_mid df) as -> by (apply elem_of_list_singleton, Hmids; right; left). left. }
    inversion Hf2 as [|? q ? ? Hq Hf2' Hx1 Hx2]; subst. inversion Hf2'; subst. exists q. split_and!; try done.
    cbv zeta in Hadd. cbn [mbind list_bind fmap list_fmap] in Hres, Hadd. rewrite app_nil_r, Hkept in Hres.
    assert (Hks : shows s (w_fs w) (kept e w0 df) [] → kept e w0 df = []) by (intros Hx; by inversion Hx).
    destruct lkept as [|r lkept].
    + left. split; [|done]. unfold resolve_rows in Hres. apply mapM_length in Hres. by destruct (kept e w0 df).
    + right. split; [intros Hx; rewrite Hx in Hres; by cbn in Hres|].
      destruct Hadd as (u&ms&Ha&_&_&Hfu&Hms&_&_&Hrms). exists (PGen KIdxMan u), ms. split_and!; try done.
      * rewrite (man_at_some _ _ _ Hfu). f_equal. rewrite <-Hx2. cbn [mbind list_bind]. rewrite app_nil_r. unfold others.
        rewrite (man_at_wf_keeps fs0) by eauto. apply filter_ext_in. intros m _. by rewrite elem_of_list_singleton.
      * cbn in Hwf. destruct Hwf as (Hadd'&_). rewrite Ha in Hadd'. by inversion Hadd'.
      * intros ys Hys. apply (shows_keeps s _ (w_fs w)) in Hys; [|done]. apply shows_iff in Hys as (l&Hl1&Hl2).
        rewrite Hres in Hl1. injection Hl1 as <-. apply shows_iff. eauto.
  - destruct (decide (touched e w df)) as [Ht|Ht]; [done|]. by rewrite <-Htouch.
Qed.
Lemma deletes_run dfs w :
  bounded w → keeps fs0 (w_fs w) → Forall (listed s w0) dfs →
  let '(w', r) := mapM_st (fun df => delete_op E O s e (FileSet [df] mans)) dfs w in
  wnew w w' ∧ match r with
              | Ok ps => Forall2 (piece (w_fs w')) dfs ps
                  ∧ Forall2 piece_log dfs ps ∧ new_paths (w_next w) (w_next w') (omap id ps ≫= pa_add_idx)
              | Err _ => True end.
Proof.
  intros Hb Hk Hl. revert w Hb Hk. induction Hl as [|df dfs Hdf Hl IH]; intros w Hb Hk; cbn [mapM_st].
  { split; [apply wnew_refl|]. split; [constructor|]. split; [constructor|apply new_paths_nil]. }
  pose proof (delete_one df w Hb Hk Hdf) as H1.
  destruct (delete_op E O s e (FileSet [df] mans) w) as [w1 [op|er]] eqn:Hr1; destruct H1 as [Hw1 Hp1].
  2:{ erewrite bind_run'; [|exact Hr1]. done. }
  assert (Hb1 : bounded w1) by (by eapply wle_bounded).
  pose proof (wnew_keeps _ _ Hb Hw1) as Hk1.
  specialize (IH w1 Hb1 (keeps_trans _ _ _ Hk Hk1)).
  erewrite bind_run'; [|exact Hr1]. cbn beta.
  destruct (mapM_st (fun df => delete_op E O s e (FileSet [df] mans)) dfs w1) as [w2 [ps|er]] eqn:Hr2; destruct IH as [Hw2 Hps];
    (erewrite bind_run'; [|exact Hr2]).
  2:{ split; [by eapply wnew_trans|done]. }
  destruct Hp1 as (Hp1&Hl1&Hn1), Hps as (Hps&Hlp&Hnp).
  split; [by eapply wnew_trans|]. split; [constructor; [|done]; eapply piece_keeps; [|exact Hp1]; by apply wnew_keeps|].
  split; [by constructor|].
  assert (Heq : omap id (op :: ps) = omap id [op] ++ omap id ps) by (by destruct op). rewrite Heq, bind_app.
  eapply new_paths_app; [apply Hw1|apply Hw2|done|done].
Qed.

(** The rows the pieces add. *)
Definition readded (df : data_file) : list row :=
  match kept e w0 df with
  | [] => []
  | _ => match mans !! df_mid df with Some q => man_rows fs0 (others q (df_path df)) | None => [] end ++ kept e w0 df
  end.
Lemma others_wf q p : wf_man s fs0 q → Forall (wf_mrow s fs0) (others q p).
Proof. intros [_ Hq]%wf_man_at. apply Forall_forall. intros m [_ Hm]%elem_of_list_filter. by eapply Forall_forall in Hq. Qed.
Lemma pieces_rows fs1 fs' dfs ps ys :
  keeps fs0 fs1 → keeps fs1 fs' → Forall2 (piece fs1) dfs ps →
  shows s fs0 (filter (touched e w0) dfs ≫= readded) ys →
  shows s fs' (man_rows fs' ((omap id ps ≫= pa_add_idx) ≫= man_at fs')) ys.
Proof.
  intros Hk0 Hk1 Hf. revert ys. induction Hf as [|df op dfs ps Hp _ IH]; intros ys Hys.
  { by inversion Hys; constructor. }
  rewrite filter_cons in Hys. destruct op as [p|]; cbn [piece] in Hp.
  - destruct Hp as (Ht&_&q&Hq&Hd&_&Ha). rewrite decide_True in Hys by done. rewrite bind_cons in Hys.
    apply Forall2_app_inv_l in Hys as (y1&y2&Hy1&Hy2&->).
    change (omap id (Some p :: ps)) with (p :: omap id ps). rewrite bind_cons, bind_app, man_rows_app.
    apply Forall2_app; [|by apply IH]. clear IH Hy2. unfold readded in Hy1. rewrite Hq in Hy1.
    destruct Ha as [[Hk Ha]|(Hne&u&ms&Ha&Hm&Hwu&Hw&Hsh)].
    + rewrite Hk in Hy1. rewrite Ha. inversion Hy1. constructor.
    + destruct (kept e w0 df) as [|r0 rs] eqn:Hkept; [done|]. rewrite Ha. cbn [mbind list_bind]. rewrite app_nil_r.
      rewrite (man_at_wf_keeps fs1), Hm, man_rows_app by done.
      apply Forall2_app_inv_l in Hy1 as (ya&yb&Hya&Hyb&->). apply Forall2_app.
      * rewrite (man_rows_keeps s fs0 fs'); [|by eapply keeps_trans|apply others_wf; eauto].
        eapply shows_keeps; [|exact Hya]. by eapply keeps_trans.
      * rewrite (man_rows_keeps s fs1 fs') by done. eapply shows_keeps; [exact Hk1|]. auto.
  - rewrite decide_False in Hys by done. by apply IH.
Qed.
Lemma pieces_dels fs1 dfs ps q :
  Forall2 (piece fs1) dfs ps →
  q ∈ omap id ps ≫= pa_del_idx ↔ ∃ df, df ∈ dfs ∧ touched e w0 df ∧ mans !! df_mid df = Some q.
Proof.
  induction 1 as [|df op dfs ps Hp _ IH].
  { cbn. split; [by intros ?%elem_of_nil|]. intros (?&?%elem_of_nil&_). done. }
  destruct op as [p|]; cbn [piece] in Hp.
  - destruct Hp as (Ht&_&q'&Hq&Hd&_). change (omap id (Some p :: ps)) with (p :: omap id ps).
    rewrite bind_cons, elem_of_app, IH, Hd, elem_of_list_singleton. split.
    + intros [->|(x&?&?&?)]; [exists df|exists x]; split_and!; try done; [left|by right].
    + intros (x&[->|Hx]%elem_of_cons&Hxt&Hxq); [left; congruence|right; eauto].
  - change (omap id (None :: ps)) with (omap id ps). rewrite IH. split.
    + intros (x&?&?&?). exists x. split_and!; try done. by right.
    + intros (x&[->|Hx]%elem_of_cons&Hxt&Hxq); [done|eauto].
Qed.
Lemma pieces_recs fs1 dfs ps : Forall2 (piece fs1) dfs ps → omap id ps ≫= pa_add_rec = [].
Proof.
  induction 1 as [|df op dfs ps Hp _ IH]; [done|]. destruct op as [p|]; [|done].
  change (omap id (Some p :: ps)) with (p :: omap id ps). rewrite bind_cons, IH. by destruct Hp as (_&_&q&_&_&->&_).
Qed.
Lemma pieces_wf fs1 dfs ps : Forall2 (piece fs1) dfs ps → Forall (wf_opatch s fs1) ps.
Proof. induction 1 as [|df op dfs ps Hp _ IH]; constructor; [|done]. destruct op; [|done]. apply Hp. Qed.
End pieces.

(** Permutations of concatenations. *)
Lemma bind_perm {A B} (f g : A → list B) l : (∀ x, x ∈ l → f x ≡ₚ g x) → l ≫= f ≡ₚ l ≫= g.
Proof.
  induction l as [|x l IH]; intros Hf; [done|]. rewrite !bind_cons. rewrite (Hf x) by (by left). f_equiv. apply IH.
  intros y Hy. apply Hf. by right.
Qed.
Lemma bind_split {A B} (P : A → Prop) `{∀ x, Decision (P x)} (f g : A → list B) l :
  (filter P l ≫= f) ++ (l ≫= g) ≡ₚ l ≫= (fun x => (if decide (P x) then f x else []) ++ g x).
Proof.
  induction l as [|x l IH]; [done|]. rewrite filter_cons, !bind_cons, <-IH. destruct (decide (P x)).
  - rewrite bind_cons. rewrite <-!app_assoc. f_equiv. rewrite !app_assoc. f_equiv. apply Permutation_app_comm.
  - cbn [app]. rewrite !app_assoc. f_equiv. apply Permutation_app_comm.
Qed.

Section whole.
Context (s : schema) (e : filter_expr) (w : world) (mf : option sexpr) (base : snapshot) (old : list row).
Notation fs := (w_fs w).
Hypothesis Hs : wf_schema s.
Hypothesis Hbase : wf_snap s fs base.
Hypothesis Hold : snap_rows s fs base old.
Hypothesis Hsafe : safe_filter s e.
Hypothesis Hmf : build_manifest_filter (fenv_of s) e = Ok mf.
Hypothesis Hnan : no_nan_keys (s_pks s) old.
Hypothesis Hdec : decided e old.
Notation fset := (fset_at fs mf (sn_idx base)).
Notation keepb := (fun r => matches (EUn FnNot e) r = true).

Definition readd_file (q : path) (m : mrow) : list row :=
  match left_in e w (mr_path m) with
  | [] => []
  | _ => man_rows fs (others w q (mr_path m)) ++ left_in e w (mr_path m)
  end.
Lemma readded_files :
  filter (touched e w) (fset_files fset) ≫= readded e w (fset_mans fset)
  = sn_idx base ≫= (fun q => filter (hit e w mf) (man_at fs q) ≫= readd_file q).
Proof.
  assert (Hgo : ∀ l, (∀ x, x ∈ l → fset_mans fset !! x.1.1 = Some x.1.2) →
    filter (touched e w) (picked_files l) ≫= readded e w (fset_mans fset)
    = l ≫= (fun x => filter (fun m => hit_path e w (mr_path m)) x.2 ≫= readd_file x.1.2)).
  { induction l as [|x l IH]; intros Hx; [done|]. unfold picked_files in *. rewrite !bind_cons, filter_app, bind_app.
    rewrite IH by (intros; apply Hx; by right). f_equal. pose proof (Hx x ltac:(left)) as Hq. clear Hx IH.
    generalize (x.2). intros ms. induction ms as [|m ms IH]; [done|]. rewrite fmap_cons, !filter_cons.
    destruct (decide (touched e w (mk_df x.1.1 m))) as [Ht|Ht].
    - rewrite decide_True by exact Ht. rewrite !bind_cons, IH. f_equal. unfold readded, readd_file. cbn [mk_df df_mid df_path].
      rewrite Hq. done.
    - rewrite decide_False by exact Ht. done. }
  cbn [fset_at fset_files]. rewrite Hgo.
  2:{ intros x Hx. cbn. by apply picked_mans_in; [apply picked_nodup|]. }
  clear Hgo. generalize 1. generalize (sn_idx base). intros qs. induction qs as [|q qs IH]; intros i; [done|].
  cbn [picked]. rewrite bind_cons.
  assert (Hf : filter (hit e w mf) (man_at fs q)
    = filter (fun m => hit_path e w (mr_path m)) (filter (fun m => mrow_matches mf m = true) (man_at fs q))).
  { rewrite list_filter_filter. apply filter_ext_in. intros m _. unfold hit. tauto. }
  destruct (filter (fun m => mrow_matches mf m = true) (man_at fs q)) as [|m ms].
  - rewrite IH, Hf. done.
  - rewrite bind_cons, IH. cbn [fst snd]. by rewrite Hf.
Qed.
Lemma man_in q m : q ∈ sn_idx base → m ∈ man_at fs q → m ∈ snap_mrows fs base.
Proof. intros. apply elem_of_list_bind. eauto. Qed.
Notation hit_row := (hit_row s e w mf base old Hs Hbase Hold Hsafe Hmf Hnan Hdec).
Notation row_decided := (row_decided s e w base old Hbase Hold Hsafe Hdec).
Lemma man_readd q :
  q ∈ sn_idx base → separable (snap_layout fs base) (fun r => matches e r = true) →
  (if decide (Exists (hit e w mf) (man_at fs q)) then [] else man_rows fs (man_at fs q))
    ++ (filter (hit e w mf) (man_at fs q) ≫= readd_file q)
  ≡ₚ filter keepb (man_rows fs (man_at fs q)).
Proof.
  intros Hq Hsep.
  assert (Hnomatch : ∀ m r, m ∈ man_at fs q → ¬ hit e w mf m → r ∈ file_rows fs (mr_path m) → matches (EUn FnNot e) r = true).
  { intros m r Hm Hh Hr. rewrite (row_decided m r) by (split; [by eapply man_in|done]). apply negb_true_iff, not_true_iff_false.
    intros He. apply Hh, hit_row; [by eapply man_in|eauto]. }
  assert (Hall : ∀ l, (∀ m, m ∈ l → m ∈ man_at fs q ∧ ¬ hit e w mf m) → filter keepb (man_rows fs l) = man_rows fs l).
  { intros l Hl. apply filter_every. intros r Hr. rewrite man_rows_bind in Hr. apply elem_of_list_bind in Hr as (m&Hr&Hm).
    destruct (Hl m Hm). by eapply Hnomatch. }
  destruct (decide (Exists (hit e w mf) (man_at fs q))) as [Hex|Hno].
  2:{ rewrite (filter_none (hit e w mf)).
      - cbn [mbind list_bind]. rewrite app_nil_r, Hall; [done|]. intros m Hm. split; [done|]. intros Hh. apply Hno, Exists_exists. eauto.
      - intros m Hm Hh. apply Hno, Exists_exists. eauto. }
  cbn [app]. destruct (Hsep ((fun m => file_rows fs (mr_path m)) <$> man_at fs q)) as [Hwhole|(a&t&b&r&Hman&Hr&Hnp&Hoth)].
  { apply elem_of_list_fmap. eauto. }
  - rewrite (filter_none keepb).
    + rewrite (bind_perm _ (fun _ => [])); [|].
      * generalize (filter (hit e w mf) (man_at fs q)). intros l. induction l; [done|]. done.
      * intros m [_ Hm]%elem_of_list_filter. unfold readd_file.
        assert (left_in e w (mr_path m) = []) as ->; [|done]. unfold left_in. apply filter_none. intros r Hr.
        rewrite (row_decided m r) by (split; [by eapply man_in|done]). rewrite (Hwhole (file_rows fs (mr_path m)) r); [done| |exact Hr].
        apply elem_of_list_fmap. eauto.
    + intros r Hr. rewrite man_rows_bind in Hr. apply elem_of_list_bind in Hr as (m&Hr&Hm).
      rewrite (row_decided m r) by (split; [by eapply man_in|done]). rewrite (Hwhole (file_rows fs (mr_path m)) r); [done| |exact Hr].
      apply elem_of_list_fmap. eauto.
  - apply fmap_app_inv in Hman as (la&l1&->&Hl1&Hman). symmetry in Hl1.
    apply fmap_cons_inv in Hl1 as (m&lb&->&->&->).
    assert (Hin : ∀ x, x ∈ la ++ m :: lb → x ∈ man_at fs q) by (intros; by rewrite Hman).
    assert (Hmiss : ∀ x, x ∈ la ++ lb → ¬ hit e w mf x).
    { intros x Hx Hh. assert (Hx' : x ∈ man_at fs q) by (apply Hin; rewrite elem_of_app, elem_of_cons; apply elem_of_app in Hx; tauto).
      apply hit_row in Hh as (r1&Hr1&He1); [|by eapply man_in].
      apply (Hoth (file_rows fs (mr_path x)) r1); try done. rewrite <-fmap_app. apply elem_of_list_fmap. eauto. }
    assert (Hm : m ∈ man_at fs q) by (apply Hin; rewrite elem_of_app, elem_of_cons; tauto).
    assert (Hh : hit e w mf m).
    { apply Exists_exists in Hex as (x&Hx&Hh). rewrite Hman, elem_of_app, elem_of_cons in Hx.
      destruct Hx as [Hx|[->|Hx]]; [|done|]; exfalso; apply (Hmiss x); try done; apply elem_of_app; tauto. }
    assert (Hk : left_in e w (mr_path m) ≠ []).
    { intros Hnil. assert (r ∈ left_in e w (mr_path m)) as Hin'.
      - apply elem_of_list_filter. split; [|done]. rewrite (row_decided m r) by (split; [by eapply man_in|done]).
        apply negb_true_iff. by apply not_true_iff_false.
      - rewrite Hnil in Hin'. by apply elem_of_nil in Hin'. }
    assert (Hpath : ∀ x, x ∈ la ++ lb → mr_path x ≠ mr_path m).
    { intros x Hx Hp. apply (Hmiss x Hx). apply hit_row in Hh as (r1&Hr1&He1); [|by eapply man_in].
      apply hit_row; [eapply man_in; [done|]; apply Hin; rewrite elem_of_app, elem_of_cons; apply elem_of_app in Hx; tauto|].
      rewrite Hp. eauto. }
    rewrite Hman at 1. rewrite filter_app, filter_cons, decide_True by done.
    rewrite (filter_none (hit e w mf) la), (filter_none (hit e w mf) lb).
    2-3: intros x Hx; apply Hmiss, elem_of_app; tauto.
    cbn [app mbind list_bind]. rewrite app_nil_r. unfold readd_file.
    assert (Hot : others w q (mr_path m) = la ++ lb).
    { unfold others. rewrite Hman, filter_app, filter_cons, decide_False by tauto.
      rewrite !filter_every; [done|..]; intros x Hx; apply Hpath, elem_of_app; tauto. }
    rewrite Hot, Hman, !man_rows_app, man_rows_cons, !filter_app.
    rewrite (Hall la), (Hall lb).
    2-3: intros x Hx; split; [apply Hin; rewrite elem_of_app, elem_of_cons; tauto|apply Hmiss, elem_of_app; tauto].
    fold (left_in e w (mr_path m)). destruct (left_in e w (mr_path m)) as [|r0 l0]; [done|].
    rewrite <-app_assoc. f_equiv. apply Permutation_app_comm.
Qed.
Lemma ray_delete_exact fs1 fs' ps sn :
  keeps fs fs1 → keeps fs1 fs' → Forall2 (piece s e w (fset_mans fset) fs1) (fset_files fset) ps →
  sn_idx sn = filter (fun x => x ∉ omap id ps ≫= pa_del_idx) (sn_idx base) ++ (omap id ps ≫= pa_add_idx) →
  separable (snap_layout fs base) (fun r => matches e r = true) →
  ∃ new, snap_rows s fs' sn new ∧ filter (fun y => matches e y = false) old ≡ₚ new.
Proof.
  intros Hk0 Hk1 Hp Hidx Hsep. set (dels := omap id ps ≫= pa_del_idx) in *.
  assert (Hdel : ∀ q, q ∈ sn_idx base → q ∈ dels ↔ Exists (hit e w mf) (man_at fs q)).
  { intros q Hq. unfold dels. rewrite (pieces_dels _ _ _ _ _ _ _ _ Hp). split.
    - intros (df&Hdf&Ht&Hm). cbn in Hdf. apply elem_of_list_bind in Hdf as (x&Hdf&Hx).
      apply elem_of_list_fmap in Hdf as (m&->&Hmx). cbn in Hm.
      rewrite (picked_mans_in _ x (picked_nodup _ _ _ _) Hx) in Hm. injection Hm as <-.
      apply picked_spec in Hx as (Hx1&Hx2&_). rewrite Hx2 in Hmx. apply elem_of_list_filter in Hmx as [Hmt Hin].
      apply Exists_exists. exists m. split; [done|]. by split.
    - intros (m&Hm&Hmt&Hh)%Exists_exists. destruct (picked_complete fs mf (sn_idx base) 1 q m Hq Hm Hmt) as (x&Hx&<-&Hmx).
      exists (mk_df x.1.1 m). split_and!.
      + cbn. apply elem_of_list_bind. exists x. split; [|done]. apply elem_of_list_fmap. eauto.
      + done.
      + cbn. by apply picked_mans_in; [apply picked_nodup|]. }
  (* the physical rows before and after *)
  set (P := (filter (fun q => q ∉ dels) (sn_idx base) ≫= (fun q => man_rows fs (man_at fs q)))
            ++ (sn_idx base ≫= (fun q => filter (hit e w mf) (man_at fs q) ≫= readd_file q))).
  assert (HP : P ≡ₚ filter keepb (phys_rows fs base)).
  { unfold P. rewrite bind_split. unfold phys_rows, snap_mrows.
    transitivity (sn_idx base ≫= (fun q => filter keepb (man_rows fs (man_at fs q)))).
    - apply bind_perm. intros q Hq. rewrite <-(man_readd q Hq Hsep). f_equiv.
      pose proof (Hdel q Hq) as Hd. repeat case_decide; try done; tauto.
    - generalize (sn_idx base). intros l. induction l as [|q l IH]; [done|].
      rewrite !bind_cons, IH, man_rows_app, filter_app. done. }
  assert (Hold' : shows s fs (filter keepb (phys_rows fs base)) (filter (fun y => matches e y = false) old)).
  { apply Forall2_filter_both; [by apply snap_rows_shows|]. intros r y Hr Hv. unfold phys_rows in Hr.
    rewrite man_rows_bind in Hr. apply elem_of_list_bind in Hr as (m&Hr&Hm).
    rewrite (vrow_keep s e w base old Hbase Hold Hsafe Hdec r y m) by done. by rewrite negb_true_iff. }
  destruct (Forall2_perm_l _ _ _ _ (symmetry HP) Hold') as (new&Hnew&Hperm).
  exists new. split; [|done]. apply snap_rows_shows. unfold phys_rows, snap_mrows. rewrite Hidx, bind_app, man_rows_app.
  apply Forall2_app_inv_l in Hnew as (n1&n2&Hn1&Hn2&->). apply Forall2_app.
  - assert (Hwf : Forall (wf_man s fs) (filter (fun x => x ∉ dels) (sn_idx base))).
    { apply Forall_forall. intros q [_ Hq]%elem_of_list_filter. destruct Hbase as (_&Hall&_). by eapply Forall_forall in Hall. }
    assert (Hk : keeps fs fs') by (by eapply keeps_trans).
    rewrite (bind_man_keeps s fs fs') by done. rewrite (man_rows_keeps s fs fs'); [|done|].
    + eapply shows_keeps; [exact Hk|]. rewrite man_rows_bind. revert Hn1.
      generalize (filter (fun x => x ∉ dels) (sn_idx base)). intros l Hn1.
      replace ((l ≫= man_at fs) ≫= (fun m => file_rows fs (mr_path m))) with (l ≫= (fun q => man_rows fs (man_at fs q))); [done|].
      clear. induction l as [|q l IH]; [done|]. rewrite !bind_cons, bind_app, IH. done.
    + apply Forall_forall. intros m (q&Hm&Hq)%elem_of_list_bind. eapply Forall_forall in Hwf; [|exact Hq].
      apply wf_man_at in Hwf as [_ Hwf]. by eapply Forall_forall in Hwf.
  - eapply (pieces_rows s e w (fset_mans fset)); try done.
    + intros i q. apply fset_mans_wf, Hbase.
    + by rewrite readded_files.
Qed.
End whole.

(** The call. *)
Definition ray_delete_body (E : env) (O : fopts) (e : filter_expr) : H (option patch) :=
  let! h := get_handle in
  let! fset := data_files (Some e) None in
  liftM (ray_delete_op E O (md_schema (h_meta h)) e fset).
Lemma ray_delete_body_run E O s e h w :
  winv s w → wf_handle s w h →
  ∃ w' r, ray_delete_body E O e (h, w) = ((h, w'), r) ∧ wnew w w'
    ∧ match r with
      | Ok op => ∃ sn mf ps, get_snapshot h None = Ok sn ∧ build_manifest_filter (fenv_of s) e = Ok mf
          ∧ Forall2 (piece s e w (fset_mans (fset_at (w_fs w) mf (sn_idx sn))) (w_fs w')) (fset_files (fset_at (w_fs w) mf (sn_idx sn))) ps
          ∧ (Forall2 (piece_log e w) (fset_files (fset_at (w_fs w) mf (sn_idx sn))) ps
             ∧ new_paths (w_next w) (w_next w') (omap id ps ≫= pa_add_idx))
          ∧ op = merge_patches ps
      | Err _ => True
      end.
Proof.
  intros Hi Hh. pose proof Hh as (Hm&_&_). pose proof Hi as [Hb Hs _].
  unfold ray_delete_body. rewrite get_handle_bind. unfold bind at 1. rewrite (data_files_run s) by done.
  destruct (get_snapshot h None) as [sn|] eqn:Hsn; [|exists w; eexists; split; [done|]; split; [apply wnew_refl|done]].
  cbn [man_filter]. destruct (build_manifest_filter (fenv_of s) e) as [mf|] eqn:Hmf;
    [|exists w; eexists; split; [done|]; split; [apply wnew_refl|done]].
  cbn [rmap]. rewrite (wm_schema _ _ _ Hm). pose proof (get_snapshot_wf _ _ _ _ _ Hm Hsn) as Hwsn.
  set (fset := fset_at (w_fs w) mf (sn_idx sn)) in *.
  assert (Hl : Forall (listed s w) (fset_files fset)) by (apply fset_listed; apply Hwsn).
  assert (Hmans : ∀ i q, fset_mans fset !! i = Some q → wf_man s (w_fs w) q).
  { intros i q. apply fset_mans_wf, Hwsn. }
  pose proof (deletes_run E O s e w (fset_mans fset) Hs Hmans (fset_files fset) w Hb (keeps_refl _) Hl) as Hd.
  destruct (mapM_st (fun df => delete_op E O s e (FileSet [df] (fset_mans fset))) (fset_files fset) w) as [w' [ps|er]] eqn:Hrun;
    destruct Hd as [Hw Hd].
  - exists w', (Ok (merge_patches ps)). split.
    + apply liftM_run. unfold ray_delete_op. by rewrite (bind_run _ _ _ _ _ Hrun).
    + split; [done|]. destruct Hd as (?&?&?). by exists sn, mf, ps.
  - exists w', (Err er). split; [|done]. apply liftM_run. unfold ray_delete_op. by erewrite bind_run'; [|exact Hrun].
Qed.
Lemma ray_delete_removes σ hid s E fo e st before :
  reachable σ → schema_at σ hid = Some s → reads σ hid None before →
  safe_filter s e → no_nan_keys (s_pks s) before → decided e before →
  separable (layout σ hid) (fun r => matches e r = true) →
  result σ hid (run_ray_delete E fo e) = Some (Ok (JSucceeded st)) →
  ∃ rows, reads (after σ hid (run_ray_delete E fo e)) hid None rows
    ∧ filter (fun r => matches e r = false) before ≡ₚ rows.
Proof.
  intros Hr Hsch Hb Hsafe Hnan Hdec Hsep Hres. change (run_ray_delete E fo e) with (transactional (ray_delete_body E fo e)) in *.
  destruct (result_handle _ _ _ _ Hres) as [h Hh].
  destruct (reachable_seen _ _ _ Hr Hh) as (s'&p&m&Hseen).
  assert (s' = s) as -> by (rewrite (sn_schema _ _ _ _ _ _ Hseen) in Hsch; congruence).
  pose proof (si_world _ _ (sn_inv _ _ _ _ _ _ Hseen)) as Hi.
  assert (Hok : body_ok s (ray_delete_body E fo e) (y_world σ) m).
  { intros h0 Hh0 _. destruct (ray_delete_body_run E fo s e h0 _ Hi Hh0) as (w'&r&?&?&Hm).
    exists w', r. split_and!; try done. destruct r as [op|]; [|done]. destruct Hm as (sn&mf&ps&_&_&Hp&_&->).
    apply merge_patches_wf. by eapply pieces_wf. }
  destruct (fn_succeeded s σ hid h p m _ st Hseen Hok Hres) as (h'&q&base&sn&pa&w1&Hseen'&Hd).
  pose proof (reads_iff _ _ _ _ _ _ None before Hseen) as [Hiff _]. destruct (Hiff Hb) as (sn0&Hsn0&Hold).
  pose proof Hd as [(h0&Hh0&Hb0&Hm0&Hfn) _ _ -> Hbase Hwb Hnext _ Hk1 Hk2].
  rewrite Hbase in Hsn0. injection Hsn0 as <-.
  destruct (ray_delete_body_run E fo s e h0 _ Hi Hh0) as (w'&r&Hrun&_&Hrows).
  rewrite Hfn in Hrun. injection Hrun as <- <-. destruct Hrows as (sn1&mf&ps&Hg&Hmf&Hps&_&Hmerge).
  assert (sn1 = base) as ->.
  { apply (get_snapshot_snap_of h0 m) in Hg; [|done]. rewrite Hb0 in Hg. congruence. }
  pose proof (merged ps) as Hmg. rewrite <-Hmerge in Hmg. destruct Hmg as [_ Hcat].
  destruct Hnext as (_&_&_&Hpm&_). apply patch_manifests_iff in Hpm as (_&Hidx&_); [|apply Hwb].
  destruct Hcat as [Hadd _ Hdel _ _ _ _]. rewrite Hadd, Hdel in Hidx.
  pose proof (layout_eq _ _ _ _ _ _ _ Hseen Hbase) as Hlay. rewrite Hlay in Hsep.
  destruct (ray_delete_exact s e (y_world σ) mf base before (wi_schema _ _ Hi) Hwb Hold Hsafe Hmf Hnan Hdec (w_fs w1)
    (w_fs (y_world (after σ hid (transactional (ray_delete_body E fo e))))) ps sn Hk1 Hk2 Hps Hidx Hsep) as (new&Hnew&Hperm).
  exists new. split; [|done]. eapply fn_done_reads; [exact Hseen|exact Hseen'|exact Hd|exact Hb|done].
Qed.

Lemma separable_lossless lay P : (∀ r, P r ∨ ¬ P r) → separable lay P → lossless lay P.
Proof.
  intros Hdec Hsep.
  assert (Hc : (∃ man t r r', man ∈ lay ∧ t ∈ man ∧ r ∈ t ∧ r' ∈ t ∧ P r ∧ ¬ P r')
    ∨ ∀ man t r, man ∈ lay → t ∈ man → r ∈ t → P r → ∀ t' r', t' ∈ man → r' ∈ t' → P r').
  { clear -Hdec Hsep. induction lay as [|man lay IH].
    - right. intros ? ? ? []%elem_of_nil.
    - destruct IH as [(man'&t&r&r'&Hm&?)|IH]; [intros x Hx; apply Hsep; by right|left; exists man', t, r, r'; split; [by right|done]|].
      destruct (Hsep man ltac:(left)) as [Hall|(a&t&b&r&->&Hr&Hn&Hoth)].
      + right. intros man' t r [->|Hm]%elem_of_cons; [intros; by eapply Hall|]. by eapply IH.
      + assert (Hex : (∃ r1, r1 ∈ t ∧ P r1) ∨ ∀ r1, r1 ∈ t → ¬ P r1).
        { clear -Hdec. induction t as [|x t [(r1&?&?)|IH]]; [right; by intros ? ?%elem_of_nil| |].
          - left. exists r1. split; [by right|done].
          - destruct (Hdec x) as [Hx|Hx]; [left; exists x; split; [left|done]|].
            right. intros r1 [->|?]%elem_of_cons; [done|auto]. }
        destruct Hex as [(r1&Hr1&Hp1)|Hno].
        * left. exists (a ++ t :: b), t, r1, r. split_and!; try done; [left|]. apply elem_of_app. right. left.
        * right. intros man' t1 r1 [->|Hm]%elem_of_cons; [|by eapply IH]. intros Ht1 Hr1 Hp1. exfalso.
          apply elem_of_app in Ht1 as [Ht1|[->|Ht1]%elem_of_cons].
          -- eapply Hoth; [apply elem_of_app; left; exact Ht1|done..].
          -- by eapply Hno.
          -- eapply Hoth; [apply elem_of_app; right; exact Ht1|done..]. }
  destruct Hc as [Hc|Hc]; [by left|]. right. intros man t t' r r' Hm Ht Ht' Hr Hp Hr'. exists r'. split; [done|]. exact (Hc _ _ _ Hm Ht Hr Hp _ _ Ht' Hr').
Qed.
Lemma ray_delete_local σ hid s E fo E' fo' e st st' before :
  reachable σ → schema_at σ hid = Some s → reads σ hid None before →
  safe_filter s e → no_nan_keys (s_pks s) before → decided e before →
  separable (layout σ hid) (fun r => matches e r = true) →
  result σ hid (run_ray_delete E fo e) = Some (Ok (JSucceeded st)) →
  result σ hid (run_delete E' fo' e) = Some (Ok (JSucceeded st')) →
  ∃ ray local, reads (after σ hid (run_ray_delete E fo e)) hid None ray
    ∧ reads (after σ hid (run_delete E' fo' e)) hid None local
    ∧ ray ≡ₚ local ∧ ray ≡ₚ filter (fun r => matches e r = false) before.
Proof.
  intros Hr Hs Hb Hsafe Hnan Hdec Hsep H1 H2.
  destruct (ray_delete_removes _ _ _ _ _ _ _ _ Hr Hs Hb Hsafe Hnan Hdec Hsep H1) as (ray&Hray&Hp).
  destruct (delete_removes _ _ _ _ _ _ _ _ Hr Hs Hb Hsafe Hnan Hdec H2) as (local&lost&Hloc&Hp'&Hlost).
  assert (lost = []) as ->.
  { apply Hlost, separable_lossless; [|done]. intros r. destruct (matches e r); auto. }
  rewrite app_nil_r in Hp'. exists ray, local. split_and!; try done. by rewrite <-Hp, Hp'.
Qed.

(** A test for [separable]. *)
Fixpoint one_file_test (P : row → bool) (before : list (list row)) (man : list (list row)) : bool :=
  match man with
  | [] => false
  | t :: man' => (existsb (fun r => negb (P r)) t && forallb (forallb (fun r => negb (P r))) (before ++ man'))
      || one_file_test P (before ++ [t]) man'
  end.
Lemma one_file_tested P before man :
  one_file_test P before man = true →
  ∃ a t b r, before ++ man = a ++ t :: b ∧ r ∈ t ∧ ¬ P r = true ∧ ∀ t' r', t' ∈ a ++ b → r' ∈ t' → ¬ P r' = true.
Proof.
  revert before. induction man as [|t man IH]; intros before; [done|]. cbn [one_file_test].
  intros [[(r&Hr&Hn)%existsb_exists Hall]%andb_true_iff|Ht]%orb_true_iff.
  - exists before, t, man, r. rewrite elem_of_list_In. split_and!; try done; [by destruct (P r)|].
    intros t' r' Ht'%elem_of_list_In Hr'%elem_of_list_In. rewrite forallb_forall in Hall. specialize (Hall _ Ht').
    rewrite forallb_forall in Hall. specialize (Hall _ Hr'). by destruct (P r').
  - apply IH in Ht. by rewrite <-app_assoc in Ht.
Qed.
Lemma separable_tested lay (P : row → bool) :
  forallb (fun man => forallb (forallb P) man || one_file_test P [] man) lay = true →
  separable lay (fun r => P r = true).
Proof.
  intros Ht man Hm%elem_of_list_In. rewrite forallb_forall in Ht. specialize (Ht _ Hm).
  apply orb_true_iff in Ht as [Ht|Ht]; [left|right].
  - intros t r Ht'%elem_of_list_In Hr%elem_of_list_In. rewrite forallb_forall in Ht. specialize (Ht _ Ht').
    rewrite forallb_forall in Ht. auto.
  - by apply one_file_tested in Ht.
Qed.
