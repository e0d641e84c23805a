(** What a committed operation does to the rows of its branch. *)
From Verif.Model Require Import System.
From Verif.Spec Require Import Logical.
From Verif.Proofs Require Import Lib World Resolve AppendSpec SchemaFacts ReadSpec Wf OpSpec Inv FileSet Ops Bodies Txn ReadRun.

(** A succeeded transaction. *)
Lemma txn_done s fn m h0 w h' w' st :
  winv s w → wf_handle s w h0 → h_meta h0 = m →
  txn_result s fn m h0 w h' w' (Ok (JSucceeded st)) →
  ∃ p w1 j base sn u, fn (h0, w) = ((h0, w1), Ok (Some p)) ∧ wnew w w1 ∧ st = pa_stats p
    ∧ head_of m (h_branch h0) = Some j ∧ md_snaps m !! j = Some base
    ∧ next_snap (w_fs w') p base (h_max h0 + 1) (w_clock w1) sn
    ∧ h' = Handle (with_snap m (h_branch h0) sn) (MFull (PGen KMeta u)) (h_branch h0) (h_max h0 + 1)
    ∧ stored (w_fs w') (PGen KMeta u) (with_snap m (h_branch h0) sn)
    ∧ keeps (w_fs w) (w_fs w1) ∧ keeps (w_fs w1) (w_fs w') ∧ winv s w' ∧ wf_handle s w' h'.
Proof.
  intros Hi Hh Hm Hr. inversion Hr as [ | w2 e _ _ _ Hc | | |p w1 h2 w2 Hfn Hw1 Hc]; subst.
  { by destruct e. }
  pose proof Hc as [(j&base&sn&u&Hj&Hb&Hbr&Hn&->&Hst&Hu) Hstep Hinv Hwf].
  pose proof (winv_wnew _ _ _ Hi Hw1) as Hi1.
  exists p, w1, j, base, sn, u. split_and!; try done.
  - apply wnew_keeps; [apply Hi|done].
  - apply wstep_keeps; [apply Hi1|by eapply winv_fine|done].
Qed.
Lemma head_with_snap m b sn : head_of (with_snap m b sn) b = Some (sn_id sn).
Proof. unfold head_of, with_snap. cbn. case_decide; [done|]. by rewrite lookup_insert. Qed.
Lemma snap_of_with_snap m b sn : snap_of (with_snap m b sn) b None = Some sn.
Proof. unfold snap_of. cbn [version_id]. rewrite head_with_snap. cbn. by rewrite lookup_insert. Qed.

(** The manifests of the new snapshot. *)
Lemma filter_notin_nil {A} `{EqDecision A} (l : list A) : filter (fun x => x ∉ @nil A) l = l.
Proof. induction l as [|x l IH]; [done|]. rewrite filter_cons, decide_True by set_solver. by rewrite IH. Qed.
Lemma filter_ext_in {A} (P Q : A → Prop) `{∀ x, Decision (P x), ∀ x, Decision (Q x)} (l : list A) :
  (∀ x, x ∈ l → P x ↔ Q x) → filter P l = filter Q l.
Proof.
  induction l as [|x l IH]; intros Hin; [done|]. rewrite !filter_cons, IH by set_solver.
  assert (P x ↔ Q x) by set_solver. repeat case_decide; naive_solver.
Qed.
Lemma remove_rev_spec l del :
  NoDup l → remove_rev l del = (filter (fun x => x ∉ del) l, filter (fun x => x ∉ l) del).
Proof.
  intros Hnd. revert del. induction Hnd as [|f l Hf Hnd IH]; intros del; cbn [remove_rev].
  { by rewrite filter_notin_nil. }
  rewrite filter_cons. case_decide as Hd.
  - rewrite IH, decide_False by naive_solver. f_equal.
    + apply filter_ext_in. intros x Hx. rewrite elem_of_list_filter. naive_solver.
    + rewrite list_filter_filter. apply filter_ext_in. set_solver.
  - rewrite IH, decide_True by done. f_equal. apply filter_ext_in. intros x Hx.
    rewrite not_elem_of_cons. naive_solver.
Qed.
Lemma rev_reverse {A} (l : list A) : rev l = reverse l.
Proof. apply rev_alt. Qed.
Lemma filter_reverse {A} (P : A → Prop) `{∀ x, Decision (P x)} (l : list A) :
  filter P (rev l) = rev (filter P l).
Proof.
  induction l as [|x l IH]; [done|]. cbn [rev]. rewrite filter_app, IH, filter_cons, (filter_cons P x l), filter_nil.
  case_decide; [done|]. by rewrite app_nil_r.
Qed.
Lemma next_idx p base fs i t sn :
  NoDup (sn_idx base) → next_snap fs p base i t sn →
  sn_idx sn = filter (fun x => x ∉ pa_del_idx p) (sn_idx base) ++ pa_add_idx p
  ∧ (∀ x, x ∈ pa_del_idx p → x ∈ sn_idx base)
  ∧ sn_rec sn = sn_rec base ++ pa_add_rec p.
Proof.
  intros Hnd (_&_&_&Hpm&_). unfold patch_manifests in Hpm. apply rbind_ok in Hpm as (i1&Hi&H).
  apply rbind_ok in H as ([]&_&H). apply rbind_ok in H as ([]&_&[= <- <-]).
  unfold patch_index_manifests in Hi.
  rewrite remove_rev_spec in Hi by (by rewrite rev_reverse, reverse_Permutation).
  rewrite filter_reverse, rev_involutive in Hi.
  destruct (filter _ (pa_del_idx p)) eqn:Hrest in Hi; [|done]. injection Hi as <-. split_and!; try done.
  intros x Hx. destruct (decide (x ∈ sn_idx base)) as [|Hn]; [done|]. exfalso.
  assert (Hin : x ∈ filter (fun x => x ∉ rev (sn_idx base)) (pa_del_idx p)).
  { apply elem_of_list_filter. split; [|done]. by rewrite rev_reverse, elem_of_reverse. }
  rewrite Hrest in Hin. set_solver.
Qed.

(** Adding manifests. *)
Lemma resolve_rows_app rv recs a b la lb :
  resolve_rows rv recs a = Some la → resolve_rows rv recs b = Some lb → resolve_rows rv recs (a ++ b) = Some (la ++ lb).
Proof. intros. apply mapM_app_Some. eauto. Qed.
Lemma content_add s fs p base i t sn l add :
  wf_snap s fs base → next_snap fs p base i t sn → pa_del_idx p = [] →
  content s fs base = Some l →
  resolve_rows (records_in fs) (s_recs s) (man_rows fs (pa_add_idx p ≫= man_at fs)) = Some add →
  content s fs sn = Some (l ++ add).
Proof.
  intros Hw Hn Hdel Hl Hadd. destruct (next_idx _ _ _ _ _ _ (proj1 Hw) Hn) as (Hidx&_&_).
  unfold content, phys_rows, snap_mrows. rewrite Hidx, Hdel, filter_notin_nil, bind_app, man_rows_app.
  by apply resolve_rows_app.
Qed.
Lemma patch_adds_resolve s lo w p mc rows :
  patch_adds s lo w p mc rows →
  man_rows (w_fs w) (pa_add_idx p ≫= man_at (w_fs w)) = man_rows (w_fs w) mc ++ man_rows (w_fs w) (drop (length mc) (pa_add_idx p ≫= man_at (w_fs w)))
  ∧ resolve_rows (records_in (w_fs w)) (s_recs s)
      (man_rows (w_fs w) (drop (length mc) (pa_add_idx p ≫= man_at (w_fs w)))) = Some rows.
Proof.
  intros (ms&rms&u&Hne&Hadd&Hlo&Hhi&Hman&Hms&Hnem&Hk&Hres&_).
  assert (pa_add_idx p ≫= man_at (w_fs w) = mc ++ ms) as ->.
  { rewrite Hadd. cbn. by rewrite app_nil_r, (man_at_some _ _ _ Hman). }
  rewrite drop_app. by rewrite man_rows_app.
Qed.
Lemma resolve_man_keeps s fs fs' (l : list path) add :
  keeps fs fs' → Forall (wf_man s fs) l →
  resolve_rows (records_in fs) (s_recs s) (man_rows fs (l ≫= man_at fs)) = Some add →
  resolve_rows (records_in fs') (s_recs s) (man_rows fs' (l ≫= man_at fs')) = Some add.
Proof.
  intros Hk Hl Hr. rewrite (bind_man_keeps s fs fs') by done.
  rewrite (man_rows_keeps s fs fs') by (try done; by apply snap_mrows_wf). by eapply keeps_resolve.
Qed.
Lemma resolve_man_names s fs (l : list path) add :
  Forall (wf_man s fs) l →
  resolve_rows (records_in fs) (s_recs s) (man_rows fs (l ≫= man_at fs)) = Some add →
  Forall (fun r => r.*1 = s_names s) add.
Proof.
  intros Hl. apply resolve_names. eapply Forall_impl.
  - apply man_rows_conform. by apply snap_mrows_wf.
  - intros r. apply conforms_names.
Qed.

(** A committed patch that only adds rows. *)
Lemma commit_adds s w1 w' p base i t sn old rows l :
  keeps (w_fs w1) (w_fs w') → wf_snap s (w_fs w1) base → wf_patch s (w_fs w1) p →
  next_snap (w_fs w') p base i t sn → pa_del_idx p = [] →
  snap_rows s (w_fs w1) base old →
  resolve_rows (records_in (w_fs w1)) (s_recs s) (man_rows (w_fs w1) (pa_add_idx p ≫= man_at (w_fs w1))) = Some l →
  tsel (out_names s) l = Ok rows →
  snap_rows s (w_fs w') sn (old ++ rows).
Proof.
  intros Hk Hw (Hp&_&_) Hn Hdel (lo&Hlo&Hold) Hl Hrows. exists (lo ++ l). split.
  - eapply content_add; [by eapply wf_snap_keeps|done..| |].
    + by rewrite (content_keeps s (w_fs w1)).
    + by eapply resolve_man_keeps.
  - apply rmapM_app. eauto.
Qed.

(** append and append_from *)
Lemma patch_adds_rows s lo w p rows :
  wf_schema s → patch_adds s lo w p [] rows →
  resolve_rows (records_in (w_fs w)) (s_recs s) (man_rows (w_fs w) (pa_add_idx p ≫= man_at (w_fs w))) = Some rows
  ∧ tsel (out_names s) rows = Ok rows ∧ pa_del_idx p = [] ∧ wf_patch s (w_fs w) p.
Proof.
  intros Hs Hp. pose proof (patch_adds_resolve _ _ _ _ _ _ Hp) as [_ Hres]. cbn [length drop] in Hres.
  rewrite drop_0 in Hres. pose proof (patch_adds_wf s lo w p [] rows ltac:(constructor) Hp) as Hwf.
  split_and!; try done.
  - destruct Hp as (ms&rms&u&_&_&_&_&_&_&_&_&_&_&_&Hout&_). rewrite Hout. apply tsel_id; [apply Hs|].
    eapply resolve_man_names; [|exact Hres]. apply Hwf.
  - by destruct Hp as (ms&rms&u&_&_&_&_&_&_&_&_&_&_&_&_&Hdel&_).
Qed.

(** * A succeeded method call *)
(** The operation [o] ran on branch [b] of metadata [m] in [w], giving patch [p]
    and world [w1]; the patch was committed on snapshot [base] as [sn], in [w']. *)
Record op_effect (E : env) (s : schema) (o : op) (b : string) (m : metadata) (w w' : world)
    (base sn : snapshot) (p : patch) (w1 : world) : Prop := {
  oe_body : ∃ h0, h_branch h0 = b ∧ h_meta h0 = m ∧ op_out E s o h0 w (Some p) w1;
  oe_patch : wf_patch s (w_fs w1) p;
  oe_new : wnew w w1;
  oe_base : snap_of m b None = Some base;
  oe_wf_base : wf_snap s (w_fs w) base;
  oe_next : ∃ i t, next_snap (w_fs w') p base i t sn;
  oe_keeps1 : keeps (w_fs w) (w_fs w1);
  oe_keeps2 : keeps (w_fs w1) (w_fs w') }.
Record op_done (E : env) (s : schema) (o : op) (st : stats) (h : handle) (w : world)
    (h' : handle) (w' : world) (m : metadata) (base sn : snapshot) (p : patch) (w1 : world) : Prop := {
  od_effect :> op_effect E s o (h_branch h) m w w' base sn p w1;
  od_body : ∃ h0, h_branch h0 = h_branch h ∧ h_meta h0 = m ∧ op_out E s o h0 w (Some p) w1
              ∧ (max_snapshot_id m ≤ h_max h0)%Z ∧ sn_id sn = (h_max h0 + 1)%Z;
  od_patch : wf_patch s (w_fs w1) p;
  od_new : wnew w w1;
  od_stats : st = pa_stats p;
  od_base : snap_of m (h_branch h) None = Some base;
  od_wf_base : wf_snap s (w_fs w) base;
  od_next : next_snap (w_fs w') p base (sn_id sn) (w_clock w) sn;
  od_meta : h_meta h' = with_snap m (h_branch h) sn;
  od_branch : h_branch h' = h_branch h;
  od_stored : ∃ u, h_file h' = MFull (PGen KMeta u) ∧ stored (w_fs w') (PGen KMeta u) (with_snap m (h_branch h) sn);
  od_keeps1 : keeps (w_fs w) (w_fs w1);
  od_keeps2 : keeps (w_fs w1) (w_fs w');
  od_inv : winv s w';
  od_handle : wf_handle s w' h';
  od_run : ∃ fo h0, h_meta h0 = m ∧ op_body E fo o (h0, w) = ((h0, w1), Ok (Some p)) }.

Lemma get_snapshot_snap_of h m sn :
  h_meta h = m → snap_of m (h_branch h) None = Some sn ↔ get_snapshot h None = Ok sn.
Proof.
  intros <-. unfold snap_of, version_id, head_of, get_snapshot, version_to_snapshot_id, lookup_reference.
  case_decide; cbn.
  - by rewrite of_opt_ok.
  - destruct (md_refs (h_meta h) !! h_branch h); cbn; [by rewrite of_opt_ok|done].
Qed.
Lemma run_op_done E fo s o h w h' w' st pth m :
  winv s w → wf_handle s w h → op_ok s (w_fs w) o → stored (w_fs w) pth m → wf_meta s (w_fs w) m →
  run_op E fo o (h, w) = ((h', w'), Ok (JSucceeded st)) →
  ∃ base sn p w1, op_done E s o st h w h' w' m base sn p w1.
Proof.
  intros Hi Hh Hok Hst Hm Hrun.
  destruct (run_op_run E fo s o h w pth m Hi Hh Hok Hst Hm) as (h2&w2&r&Hr&Ht).
  rewrite Hr in Hrun. injection Hrun as -> -> ->.
  destruct (sync_spec s w pth m h Hst Hm Hh) as (Hh0&Hm0&Hf0&Hb0&Hmax).
  destruct (txn_done s _ m (sync pth m h) w h' w' st Hi Hh0 Hm0 Ht)
    as (p&w1&j&base&sn&u&Hfn&Hw1&->&Hj&Hbase&Hn&->&Hsto&Hk1&Hk2&Hi'&Hh').
  destruct (op_body_run E fo s o (sync pth m h) w Hi Hh0 Hok) as (w3&r3&Hr3&_&Hout).
  rewrite Hfn in Hr3. injection Hr3 as <- <-. destruct Hout as [Hout Hwp].
  pose proof Hn as (Hid&_).
  exists base, sn, p, w1.
  assert (Hbs : snap_of m (h_branch h) None = Some base).
  { rewrite Hb0 in Hj. unfold snap_of. cbn [version_id]. by rewrite Hj. }
  assert (Hwb : wf_snap s (w_fs w) base) by by apply (wm_snaps _ _ _ Hm) in Hbase as (_&?&_).
  constructor; try done; rewrite ?Hb0 in *; try done.
  - constructor; try done; [by eexists (sync pth m h)|by eexists _, _].
  - eexists (sync pth m h). by split_and!.
  - by rewrite Hid, <-(wle_clock _ _ _ Hw1).
  - by eexists.
  - by eexists fo, (sync pth m h).
Qed.
Lemma op_done_snap E s o b m w w' base sn p w1 :
  op_effect E s o b m w w' base sn p w1 → wf_snap s (w_fs w') sn.
Proof.
  intros [_ ? _ _ ? (i&t&Hn) ? ?]. eapply wf_next_snap; [| |exact Hn].
  - eapply wf_snap_keeps; [|done]. by eapply keeps_trans.
  - by eapply wf_patch_keeps.
Qed.
(** The rows of the branch after an operation that only adds. *)
Lemma op_done_adds E s o b m w w' base sn p w1 old rows l :
  op_effect E s o b m w w' base sn p w1 → pa_del_idx p = [] →
  snap_rows s (w_fs w) base old →
  resolve_rows (records_in (w_fs w1)) (s_recs s) (man_rows (w_fs w1) (pa_add_idx p ≫= man_at (w_fs w1))) = Some l →
  tsel (out_names s) l = Ok rows →
  snap_rows s (w_fs w') sn (old ++ rows).
Proof.
  intros [_ ? _ _ ? (i&t&Hn) ? ?] Hdel Hold Hl Hr. eapply (commit_adds s w1 w' p base); try done.
  - by eapply wf_snap_keeps.
  - by eapply snap_rows_keeps.
Qed.
Lemma append_effect E s batches b m w w' base sn p w1 old :
  wf_schema s → op_effect E s (OAppend batches) b m w w' base sn p w1 →
  snap_rows s (w_fs w) base old →
  ∃ input, tsel (out_names s) (concat batches) = Ok input ∧ snap_rows s (w_fs w') sn (old ++ input).
Proof.
  intros Hs Hd Hold. pose proof Hd as [(h0&_&_&(rows&Hrows&Hadds)) _ _ _ _ _ _ _].
  destruct (patch_adds_rows s _ _ _ _ Hs Hadds) as (Hres&Hsel&Hdel&_).
  exists rows. split; [done|]. by eapply op_done_adds.
Qed.
Lemma parquet_effect E s paths b m w w' base sn p w1 old :
  wf_schema s → op_effect E s (OParquet paths) b m w w' base sn p w1 →
  (∀ q, q ∈ paths → external_ok s (w_fs w) q) →
  snap_rows s (w_fs w) base old →
  ∃ input, tsel (out_names s) (paths ≫= file_rows (w_fs w)) = Ok input ∧ snap_rows s (w_fs w') sn (old ++ input).
Proof.
  intros Hs Hd Hext Hold. pose proof Hd as [(h0&_&_&Hout) Hwp Hw1 _ _ _ Hk1 _].
  destruct Hout as (Hrecs&p'&ms&[= <-]&Hpaths&Hms&Hadd&Hrec&Hdel&_).
  assert (Hfs : ∀ q, q ∈ paths → file_rows (w_fs w1) q = file_rows (w_fs w) q).
  { intros q Hq. destruct (Hext q Hq) as [Hx _]. destruct q as [| |nm]; try done.
    unfold file_rows. by rewrite (wle_pext _ _ _ nm Hw1). }
  assert (Hman : pa_add_idx p ≫= man_at (w_fs w1) = ms).
  { destruct ms as [|m0 ms]; [by rewrite Hadd|]. destruct Hadd as (u&->&_&_&Hfsu). cbn.
    by rewrite app_nil_r, (man_at_some _ _ _ Hfsu). }
  assert (Hrows : man_rows (w_fs w1) ms = paths ≫= file_rows (w_fs w)).
  { rewrite <-Hpaths. clear - Hfs Hpaths. subst paths. induction ms as [|m ms IH]; [done|].
    rewrite man_rows_cons, fmap_cons, bind_cons. f_equal; [apply Hfs; set_solver|]. apply IH. set_solver. }
  assert (Hres : resolve_rows (records_in (w_fs w1)) (s_recs s) (man_rows (w_fs w1) (pa_add_idx p ≫= man_at (w_fs w1)))
     = Some (paths ≫= file_rows (w_fs w))).
  { by rewrite Hman, Hrows, Hrecs, resolve_rows_nil. }
  destruct (tsel_total (out_names s) (paths ≫= file_rows (w_fs w))) as [input Hin].
  { intros r n Hr Hn. pose proof (resolve_man_names s _ _ _ (proj1 Hwp) Hres) as Hnames.
    eapply Forall_forall in Hnames; [|exact Hr]. rewrite Hnames.
    apply elem_of_app in Hn as [[_ ?]%elem_of_list_filter|[_ ?]%elem_of_list_filter]; done. }
  exists input. split; [done|]. by eapply op_done_adds.
Qed.
Lemma array_record_effect E s paths index_fn nbytes b m w w' base sn p w1 old :
  wf_schema s → op_effect E s (OArrayRecord paths index_fn nbytes) b m w w' base sn p w1 →
  snap_rows s (w_fs w) base old →
  ∃ f fid input, rec_fields s = [(f, fid)]
    ∧ (∀ q, q ∈ paths → w_fs w !! q = Some (FRecord (recs_at (w_fs w) q)))
    ∧ tsel (out_names s) (paths ≫= (fun q => loaded_rows s f index_fn (recs_at (w_fs w) q))) = Ok input
    ∧ snap_rows s (w_fs w') sn (old ++ input).
Proof.
  intros Hs Hd Hold. pose proof Hd as [(h0&_&_&Hout) _ _ _ _ _ _ _].
  destruct Hout as (f&fid&rows&Hf&Hq&Hrows&p0&total&Hadds&->).
  destruct (patch_adds_rows s _ _ _ _ Hs Hadds) as (Hres&Hsel&Hdel&_).
  exists f, fid, rows. split_and!; try done. by eapply op_done_adds.
Qed.
