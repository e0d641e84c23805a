(** Specification of LocalAppendOp. *)
From Verif.Model Require Import AppendOp.
From Verif.Spec Require Import Logical.
From Verif.Proofs Require Import Lib World Resolve.

Definition keep (fs fs' : fsys) : Prop :=
  ∀ p f, fs !! p = Some f → f ≠ FPartial → fs' !! p = Some f.
Lemma keep_refl fs : keep fs fs.
Proof. by intros ???. Qed.
Lemma keep_put fs q f : fs !! q = None ∨ fs !! q = Some FPartial → keep fs (<[q := f]> fs).
Proof.
  intros Hq p g Hp Hg. rewrite lookup_insert_ne; [done|]. intros ->. destruct Hq; congruence.
Qed.

Definition rec_view (recs : gmap string rec_writer) (fs : fsys) : rview := fun p =>
  match p with
  | PGen (KRecord f) u =>
      match recs !! f with
      | Some rw => if decide (rw_path rw = p) then Some (rw_records rw) else records_in fs p
      | None => records_in fs p
      end
  | _ => records_in fs p
  end.
Definition file_rows (fs : fsys) (p : path) : list row :=
  match fs !! p with Some (FIndex _ gs) => concat gs | _ => [] end.
Definition man_rows (fs : fsys) (ms : list mrow) : list row :=
  ms ≫= (fun m => file_rows fs (mr_path m)).
Lemma man_rows_cons fs m ms : man_rows fs (m :: ms) = file_rows fs (mr_path m) ++ man_rows fs ms.
Proof. done. Qed.
Lemma man_rows_app fs a b : man_rows fs (a ++ b) = man_rows fs a ++ man_rows fs b.
Proof. unfold man_rows. apply bind_app. Qed.
Definition writer_rows (st : append_st) : list row :=
  concat (match as_writer st with Some (_, gs) => gs | None => [] end).
Definition st_phys (fs : fsys) (st : append_st) : list row :=
  man_rows fs (as_man st) ++ writer_rows st ++ default [] (as_cached st).
Definition added_bitmap (m : mrow) : row_bitmap := RowBitmap (mr_path m) true (mr_rows m) [].

Lemma records_in_keep fs fs' : keep fs fs' → vle (records_in fs) (records_in fs').
Proof.
  intros Hk p rs. unfold records_in. destruct (fs !! p) as [[]|] eqn:Hp; try done.
  intros [= ->]. rewrite (Hk _ _ Hp) by done. exists []. by rewrite app_nil_r.
Qed.
Lemma rec_view_keep recs fs fs' : keep fs fs' → vle (rec_view recs fs) (rec_view recs fs').
Proof.
  intros Hk p rs. unfold rec_view. pose proof (records_in_keep _ _ Hk p rs) as Hr.
  assert (Hs : ∀ x : list string, Some x = Some rs → ∃ more, Some x = Some (rs ++ more)).
  { intros x [= ->]. exists []. by rewrite app_nil_r. }
  destruct p as [|[] u|]; auto. destruct (recs !! field) as [rw|]; auto.
  case_decide; auto.
Qed.

Section spec.
Context (E : env) (O : fopts) (s : schema) (lo : N).

(** A manifest row of a file written by this operation. *)
Definition made (w : world) (m : mrow) : Prop :=
  ∃ u gs, mr_path m = PGen KIndex u ∧ (lo ≤ u)%N ∧ (u < w_next w)%N
    ∧ w_fs w !! mr_path m = Some (FIndex (header s) gs)
    ∧ Forall (fun r => row_conforms s r = true) (concat gs) ∧ concat gs ≠ []
    ∧ manifest_row E (phys_schema s) (s_pks s) (mr_path m) gs = Ok m.
Definition rmade (w : world) (m : rmrow) : Prop :=
  ∃ f u rs, rm_path m = PGen (KRecord f) u ∧ (lo ≤ u)%N ∧ (u < w_next w)%N
    ∧ w_fs w !! rm_path m = Some (FRecord rs) ∧ rm_rows m = Z.of_nat (length rs).

Definition writer_ok (w : world) (st : append_st) : Prop :=
  match as_writer st with
  | None => as_cached st = None
  | Some (p, gs) =>
      (∃ u, p = PGen KIndex u ∧ (lo ≤ u)%N ∧ (u < w_next w)%N)
      ∧ w_fs w !! p = Some FPartial
      ∧ Forall (fun r => row_conforms s r = true) (concat gs)
  end.
Definition recs_ok (w : world) (recs : gmap string rec_writer) : Prop :=
  ∀ f rw, recs !! f = Some rw →
    f ∈ record_names s
    ∧ (∃ u, rw_path rw = PGen (KRecord f) u ∧ (lo ≤ u)%N ∧ (u < w_next w)%N)
    ∧ w_fs w !! rw_path rw = Some FPartial
    ∧ rw_next rw = Z.of_nat (length (rw_records rw))
    ∧ rw_rows rw = Z.of_nat (length (rw_records rw)).
Definition man_stats (ms : list mrow) (rms : list rmrow) : stats :=
  Stats (Zsum (mr_rows <$> ms)) (Zsum (mr_cb <$> ms)) (Zsum (mr_ub <$> ms))
        (Zsum (rm_bytes <$> rms)).

Record ainv (mc : list mrow) (st : append_st) (rows : list row) (w : world) : Prop := {
  ai_bounded : bounded w;
  ai_cached : as_man_cached st = mc;
  ai_man : Forall (made w) (as_man st);
  ai_writer : writer_ok w st;
  ai_recs : recs_ok w (as_recs st);
  ai_rman : Forall (rmade w) (as_rman st);
  ai_rows : resolve_rows (rec_view (as_recs st) (w_fs w)) (s_recs s) (st_phys (w_fs w) st) = Some rows;
  ai_log : as_log st = added_bitmap <$> as_man st;
  ai_stats : as_stats st = man_stats (as_man st) (as_rman st) }.
Definition nonempty_writer (st : append_st) : Prop :=
  as_writer st = None ∨ writer_rows st ++ default [] (as_cached st) ≠ [].

Lemma made_keep w w' m :
  keep (w_fs w) (w_fs w') → (w_next w ≤ w_next w')%N → made w m → made w' m.
Proof.
  intros Hk Hn (u&gs&?&?&?&Hf&?&?&?). exists u, gs. split_and!; auto; try lia; by apply Hk.
Qed.
Lemma rmade_keep w w' m :
  keep (w_fs w) (w_fs w') → (w_next w ≤ w_next w')%N → rmade w m → rmade w' m.
Proof.
  intros Hk Hn (f&u&rs&?&?&?&Hf&?). exists f, u, rs. split_and!; auto; try lia; by apply Hk.
Qed.
Lemma man_rows_keep w w' ms :
  keep (w_fs w) (w_fs w') → Forall (made w) ms → man_rows (w_fs w') ms = man_rows (w_fs w) ms.
Proof.
  intros Hk Hm. unfold man_rows. induction Hm as [|m ms (u&gs&?&?&?&Hf&_) _ IH]; [done|].
  rewrite !bind_cons, IH. f_equal. unfold file_rows. rewrite Hf. by rewrite (Hk _ _ Hf).
Qed.

Lemma bounded_bump w : bounded w → bounded (bump_world w).
Proof. intros Hb p f Hp. apply Hb in Hp. eapply below_mono; [|done]. simpl. lia. Qed.
Lemma bounded_put w p f : bounded w → below (w_next w) p → bounded (put_world w p f).
Proof.
  intros Hb Hp q g. simpl. destruct (decide (p = q)) as [->|?]; [done|].
  rewrite lookup_insert_ne by done. apply Hb.
Qed.
Lemma bounded_fresh w k : bounded w → w_fs w !! PGen k (w_next w) = None.
Proof.
  intros Hb. destruct (w_fs w !! PGen k (w_next w)) eqn:Hp; [|done].
  apply Hb in Hp. simpl in Hp. lia.
Qed.

(** Frame: the world changes, the writers' files do not. *)
Lemma ainv_frame mc st rows w w' :
  ainv mc st rows w → bounded w' →
  keep (w_fs w) (w_fs w') → (w_next w ≤ w_next w')%N →
  (∀ p gs, as_writer st = Some (p, gs) → w_fs w' !! p = w_fs w !! p) →
  (∀ f rw, as_recs st !! f = Some rw → w_fs w' !! rw_path rw = w_fs w !! rw_path rw) →
  ainv mc st rows w'.
Proof.
  intros [Hb Hc Hm Hw Hr Hrm Hrows Hl Hs] Hb' Hk Hn Hpw Hpr. split; auto.
  - eapply Forall_impl; [done|]. intros ?. by apply made_keep.
  - unfold writer_ok in *. destruct (as_writer st) as [[p gs]|]; [|done].
    destruct Hw as ((u&->&?&?)&?&?). split_and!; auto.
    + exists u. split_and!; auto. lia.
    + by rewrite (Hpw _ _ eq_refl).
  - intros f rw Hrw. destruct (Hr f rw Hrw) as (?&(u&?&?&?)&?&?&?). split_and!; auto.
    + exists u. split_and!; auto. lia.
    + by rewrite (Hpr _ _ Hrw).
  - eapply Forall_impl; [done|]. intros ?. by apply rmade_keep.
  - unfold st_phys in *. rewrite (man_rows_keep w w') by done.
    eapply resolve_rows_vle; [|done]. by apply rec_view_keep.
Qed.

Lemma ainv_bump mc st rows w : ainv mc st rows w → ainv mc st rows (bump_world w).
Proof.
  intros Ha. eapply ainv_frame; eauto; simpl; try lia; try done.
  - apply bounded_bump, Ha.
  - apply keep_refl.
Qed.

(** Opening a fresh file. *)
Lemma ainv_open mc st rows w k u :
  ainv mc st rows w → w_fs w !! PGen k u = None → (u < w_next w)%N →
  ainv mc st rows (put_world w (PGen k u) FPartial).
Proof.
  intros Ha Hno Hu. eapply ainv_frame; eauto; simpl; try lia.
  - apply bounded_put; [apply Ha|]. simpl. lia.
  - apply keep_put. by left.
  - intros p gs Hp.
    pose proof (ai_writer _ _ _ _ Ha) as Hw. unfold writer_ok in Hw. rewrite Hp in Hw.
    destruct Hw as (_&Hw&_). apply lookup_insert_ne. congruence.
  - intros f rw Hrw. destruct (ai_recs _ _ _ _ Ha f rw Hrw) as (_&_&Hw&_).
    apply lookup_insert_ne. congruence.
Qed.

Lemma maybe_create_spec mc st rows :
  hoare lo (ainv mc st rows) (maybe_create_index_writer st)
    (fun '(st', wr) w => ainv mc st' rows w ∧ as_writer st' = Some wr
        ∧ as_cached st' = as_cached st ∧ as_recs st' = as_recs st
        ∧ (as_writer st = None → wr.2 = [])
        ∧ (as_writer st ≠ None → st' = st)).
Proof.
  unfold maybe_create_index_writer. destruct (as_writer st) as [wr|] eqn:Hw.
  - apply hoare_ret'. naive_solver.
  - eapply hoare_bind.
    { apply (hoare_new_path _ _ (fun p w => ainv mc st rows w ∧ ∃ u, p = PGen KIndex u
               ∧ (lo ≤ u)%N ∧ (u < w_next w)%N ∧ w_fs w !! p = None)).
      intros w Hlo Ha. split; [by apply ainv_bump|]. exists (w_next w). simpl.
      split_and!; auto; try lia. apply bounded_fresh, Ha. }
    intros p. eapply hoare_bind.
    { apply (hoare_put _ _ (fun _ w => ainv mc st rows w ∧ ∃ u, p = PGen KIndex u
               ∧ (lo ≤ u)%N ∧ (u < w_next w)%N ∧ w_fs w !! p = Some FPartial)).
      intros w Hlo (Ha&u&->&?&?&?). split; [exists KIndex, u; split_and!; auto; lia|].
      split; [by apply ainv_open|]. exists u. simpl. split_and!; auto. by rewrite lookup_insert. }
    intros ?. apply hoare_ret'. intros w Hlo ([Hb Hc Hm Hwo Hr Hrm Hrows Hl Hs]&u&Hpu&?&?&?).
    split; [|naive_solver].
    unfold writer_ok in Hwo. rewrite Hw in Hwo.
    split; simpl; auto.
    + unfold writer_ok. simpl. split_and!; eauto.
    + unfold st_phys, writer_rows in *. simpl. by rewrite Hw in Hrows.
Qed.

Definition facts (rv : rview) (G : list (cell * cell)) : Prop :=
  Forall (fun ac => resolve_cell rv ac.1 = Some ac.2) G.
Lemma facts_vle rv rv' G : vle rv rv' → facts rv G → facts rv' G.
Proof. intros Hv HG. eapply Forall_impl; [done|]. intros [a c]. by apply resolve_cell_vle. Qed.

Lemma address_column_resolve p start bs rv :
  rv p = Some bs → ∀ pre mid post, bs = pre ++ mid ++ post → start = Z.of_nat (length pre) →
  Forall2 (fun a b => resolve_cell rv a = Some (CVal (SStr b)))
    (address_column p start (length mid)) mid.
Proof.
  intros Hp pre mid post -> ->. unfold address_column.
  apply Forall2_fmap_l. apply Forall2_same_length_lookup_2; [by rewrite seq_length|].
  intros i k b Hk Hb. apply lookup_seq in Hk as [-> Hi]. simpl.
  rewrite decide_True by lia. rewrite Hp. simpl.
  replace (Z.to_nat (Z.of_nat (length pre) + Z.of_nat i)) with (length pre + i) by lia.
  rewrite lookup_app_r by lia. replace (length pre + i - length pre) with i by lia.
  rewrite (lookup_app_l_Some _ _ _ _ Hb). done.
Qed.

Lemma cell_bytes_ok col bs : rmapM cell_bytes col = Ok bs → col = (CVal ∘ SStr) <$> bs.
Proof.
  rewrite rmapM_ok. intros H. induction H as [|c b col bs Hc _ IH]; [done|]. simpl.
  destruct c as [|[]| |]; simpl in Hc; try done. injection Hc as ->. by f_equal.
Qed.

(** State of the record writer while a column is written. *)
Lemma ainv_set_rec mc st rows w f rw bs n nb G :
  ainv mc st rows w → f ∈ record_names s → as_recs st !! f = Some rw →
  n = Z.of_nat (length bs) → facts (rec_view (as_recs st) (w_fs w)) G →
  let rw' := RecWriter (rw_path rw) (rw_records rw ++ bs) (rw_next rw + n) (rw_rows rw + n) nb in
  ainv mc (set_rec st f rw') rows w
  ∧ facts (rec_view (as_recs (set_rec st f rw')) (w_fs w)) G
  ∧ rec_view (as_recs (set_rec st f rw')) (w_fs w) (rw_path rw) = Some (rw_records rw ++ bs).
Proof.
  intros [Hb Hc Hm Hwo Hr Hrm Hrows Hl Hs] Hf Hrw Hn HG rw'.
  destruct (Hr f rw Hrw) as (_&(u&Hu&?&?)&Hfs&Hnx&Hrr).
  assert (Hv : vle (rec_view (as_recs st) (w_fs w)) (rec_view (<[f:=rw']> (as_recs st)) (w_fs w))).
  { intros p rs. unfold rec_view. destruct p as [|[] u'|]; try (intros ->; exists []; by rewrite app_nil_r).
    destruct (decide (field = f)) as [->|Hne].
    - rewrite lookup_insert, Hrw. simpl. case_decide.
      + intros [= <-]. by exists bs.
      + intros ->. exists []. by rewrite app_nil_r.
    - rewrite lookup_insert_ne by done. intros ->. exists []. by rewrite app_nil_r. }
  split_and!.
  - split; simpl; auto.
    + intros f' rw2. destruct (decide (f' = f)) as [->|Hne].
      * rewrite lookup_insert. intros [= <-]. simpl. rewrite app_length. split_and!; eauto; lia.
      * rewrite lookup_insert_ne by done. apply Hr.
    + by eapply resolve_rows_vle.
  - by eapply facts_vle.
  - simpl. unfold rec_view. rewrite Hu. rewrite lookup_insert. simpl. by rewrite decide_True.
Qed.

Lemma finish_record_spec mc st rows f fid rw G :
  hoare lo (fun w => ainv mc st rows w ∧ as_recs st !! f = Some rw
                     ∧ facts (rec_view (as_recs st) (w_fs w)) G)
    (finish_record_writer st f fid rw)
    (fun st' w => ainv mc st' rows w ∧ facts (rec_view (as_recs st') (w_fs w)) G
        ∧ as_writer st' = as_writer st ∧ as_cached st' = as_cached st
        ∧ as_recs st' = delete f (as_recs st)).
Proof.
  unfold finish_record_writer. eapply hoare_bind.
  - apply (hoare_put _ _ (fun _ w => bounded w ∧ ∃ w0, ainv mc st rows w0 ∧ as_recs st !! f = Some rw
         ∧ facts (rec_view (as_recs st) (w_fs w0)) G
         ∧ w = put_world w0 (rw_path rw) (FRecord (rw_records rw)))).
    intros w Hlo (Ha&Hrw&HG). destruct (ai_recs _ _ _ _ Ha f rw Hrw) as (_&(u&Hu&?&?)&Hfs&_).
    split; [exists (KRecord f), u; split_and!; auto; lia|].
    split; [|eauto 10]. apply bounded_put; [apply Ha|]. rewrite Hu. done.
  - intros ?. apply hoare_ret'. intros w Hlo (Hb'&w0&Ha&Hrw&HG&->).
    pose proof Ha as [Hb Hc Hm Hwo Hr Hrm Hrows Hl Hs].
    destruct (Hr f rw Hrw) as (Hin&(u&Hu&?&?)&Hfs&Hnx&Hrr).
    assert (Hk : keep (w_fs w0) (w_fs (put_world w0 (rw_path rw) (FRecord (rw_records rw))))).
    { apply keep_put. by right. }
    assert (Hv : vle (rec_view (as_recs st) (w_fs w0))
              (rec_view (delete f (as_recs st))
                 (w_fs (put_world w0 (rw_path rw) (FRecord (rw_records rw)))))).
    { intros p rs. unfold rec_view, put_world. simpl.
      assert (Hsame : p ≠ rw_path rw → records_in (w_fs w0) p = Some rs →
        ∃ more, records_in (<[rw_path rw:=FRecord (rw_records rw)]> (w_fs w0)) p = Some (rs ++ more)).
      { intros Hne Hrec. exists []. rewrite app_nil_r. unfold records_in in *. by rewrite lookup_insert_ne. }
      destruct p as [|[] u'|]; try (apply Hsame; by rewrite Hu).
      destruct (decide (field = f)) as [->|Hne].
      - rewrite lookup_delete, Hrw. case_decide as Hd.
        + intros [= <-]. exists []. rewrite app_nil_r. unfold records_in. rewrite Hd, lookup_insert. done.
        + apply Hsame. congruence.
      - rewrite lookup_delete_ne by done. destruct (as_recs st !! field) as [rw2|] eqn:Hrw2.
        + case_decide as Hd; [|apply Hsame; congruence]. intros [= <-]. exists []. by rewrite app_nil_r.
        + apply Hsame. congruence. }
    split_and!; try done; [|by eapply facts_vle].
    split; simpl; auto.
    + eapply Forall_impl; [done|]. intros ?. apply made_keep; [done|simpl; lia].
    + unfold writer_ok in *. simpl. destruct (as_writer st) as [[p gs]|]; [|done].
      destruct Hwo as ((u'&->&?&?)&?&?). split_and!; eauto. rewrite lookup_insert_ne; [done|].
      rewrite Hu. done.
    + intros f' rw2 [Hne Hrw2]%lookup_delete_Some. simpl.
      destruct (Hr f' rw2 Hrw2) as (?&(u2&Hu2&?&?)&?&?&?). split_and!; eauto.
      rewrite lookup_insert_ne; [done|]. rewrite Hu, Hu2. congruence.
    + apply Forall_app. split.
      * eapply Forall_impl; [done|]. intros ?. apply rmade_keep; [done|simpl; lia].
      * repeat constructor. exists f, u, (rw_records rw). simpl. split_and!; auto. by rewrite lookup_insert.
    + unfold st_phys in *. simpl.
      pose proof (man_rows_keep w0 (put_world w0 (rw_path rw) (FRecord (rw_records rw))) _ Hk Hm) as Hmr.
      simpl in Hmr. rewrite Hmr. by eapply resolve_rows_vle.
    + rewrite Hs. unfold man_stats, update_record_bytes. simpl. f_equal.
      rewrite fmap_app, Zsum_app. simpl. lia.
Qed.

Lemma write_record_column_spec mc st rows f fid col G :
  f ∈ record_names s →
  hoare lo (fun w => ainv mc st rows w ∧ facts (rec_view (as_recs st) (w_fs w)) G)
    (write_record_column E O st f fid col)
    (fun '(st', addrs) w => ainv mc st' rows w
        ∧ facts (rec_view (as_recs st') (w_fs w)) (G ++ zip addrs col)
        ∧ length addrs = length col
        ∧ as_writer st' = as_writer st ∧ as_cached st' = as_cached st).
Proof.
  intros Hf. unfold write_record_column.
  eapply (hoare_bind _ _ _ (fun rw w => ∃ st0, ainv mc st0 rows w
             ∧ facts (rec_view (as_recs st0) (w_fs w)) G
             ∧ st0 = set_rec st f rw)).
  { destruct (as_recs st !! f) as [rw|] eqn:Hrw.
    - apply hoare_ret'. intros w Hlo [Ha HG]. exists st. split_and!; auto.
      unfold set_rec. destruct st; simpl in *. f_equal. by rewrite insert_id.
    - eapply hoare_bind.
      { apply (hoare_new_path _ _ (fun p w => ainv mc st rows w
                 ∧ facts (rec_view (as_recs st) (w_fs w)) G ∧ ∃ u, p = PGen (KRecord f) u
                 ∧ (lo ≤ u)%N ∧ (u < w_next w)%N ∧ w_fs w !! p = None)).
        intros w Hlo [Ha HG]. split; [by apply ainv_bump|]. split; [done|]. exists (w_next w). simpl.
        split_and!; auto; try lia. apply bounded_fresh, Ha. }
      intros p. eapply hoare_bind.
      { apply (hoare_put _ _ (fun _ w => ainv mc st rows w
               ∧ facts (rec_view (as_recs st) (w_fs w)) G ∧ ∃ u, p = PGen (KRecord f) u
               ∧ (lo ≤ u)%N ∧ (u < w_next w)%N ∧ w_fs w !! p = Some FPartial)).
        intros w Hlo (Ha&HG&u&->&?&?&Hno). split; [exists (KRecord f), u; split_and!; auto; lia|].
        split; [by apply ainv_open|]. split.
        { eapply facts_vle; [|done]. apply rec_view_keep. apply keep_put. by left. }
        exists u. simpl. split_and!; auto. by rewrite lookup_insert. }
      intros ?. apply hoare_ret'. intros w Hlo (Ha&HG&u&Hp&?&?&Hfs).
      exists (set_rec st f (RecWriter p [] 0 0 0)).
      assert (Hv : vle (rec_view (as_recs st) (w_fs w))
                 (rec_view (<[f:=RecWriter p [] 0 0 0]> (as_recs st)) (w_fs w))).
      { intros q rs. unfold rec_view. destruct q as [|[] u'|]; try (intros ->; exists []; by rewrite app_nil_r).
        destruct (decide (field = f)) as [->|Hne].
        - rewrite lookup_insert, Hrw. simpl. case_decide as Hd.
          + intros Hrec. unfold records_in in Hrec. rewrite <-Hd, Hfs in Hrec. done.
          + intros ->. exists []. by rewrite app_nil_r.
        - rewrite lookup_insert_ne by done. intros ->. exists []. by rewrite app_nil_r. }
      split_and!; [|by eapply facts_vle|done].
      destruct Ha as [Hb Hc Hm Hwo Hr Hrm Hrows Hl Hs]. split; simpl; auto.
      + intros f' rw2. destruct (decide (f' = f)) as [->|Hne].
        * rewrite lookup_insert. intros [= <-]. simpl. split_and!; eauto.
        * rewrite lookup_insert_ne by done. apply Hr.
      + by eapply resolve_rows_vle. }
  intros rw. apply hoare_lift_bind. intros bs Hbs.
  pose proof (cell_bytes_ok _ _ Hbs) as Hcol.
  assert (Hlen : length col = length bs) by (rewrite Hcol; by rewrite fmap_length).
  set (rw' := RecWriter (rw_path rw) (rw_records rw ++ bs) (rw_next rw + Z.of_nat (length col))
                (rw_rows rw + Z.of_nat (length col)) (rw_bytes rw + e_colbytes E col)).
  set (addrs := address_column (rw_path rw) (rw_next rw) (length col)).
  assert (Hstep : ∀ w, (∃ st0, ainv mc st0 rows w ∧ facts (rec_view (as_recs st0) (w_fs w)) G
             ∧ st0 = set_rec st f rw) →
      ainv mc (set_rec st f rw') rows w
      ∧ facts (rec_view (as_recs (set_rec st f rw')) (w_fs w)) (G ++ zip addrs col)).
  { intros w (st0&Ha&HG&->).
    destruct (ainv_set_rec mc _ rows w f rw bs (Z.of_nat (length col)) (rw_bytes rw + e_colbytes E col) G Ha Hf)
      as (Ha'&HG'&Hview); [simpl; by rewrite lookup_insert|lia|done|].
    unfold set_rec in Ha', HG', Hview. simpl in Ha', HG', Hview. rewrite insert_insert in Ha', HG', Hview.
    split; [done|]. apply Forall_app. split; [done|].
    destruct (ai_recs _ _ _ _ Ha f rw) as (_&_&_&Hnx&_); [simpl; by rewrite lookup_insert|].
    unfold addrs. rewrite Hlen.
    pose proof (address_column_resolve (rw_path rw) (rw_next rw) (rw_records rw ++ bs) _ Hview
                  (rw_records rw) bs [] ltac:(by rewrite app_nil_r) Hnx) as Hadr.
    rewrite Hcol. clear -Hadr.
    induction Hadr as [|a b l k Ha _ IH]; simpl; [constructor|]. by constructor. }
  assert (Hla : length addrs = length col).
  { unfold addrs, address_column. by rewrite fmap_length, seq_length. }
  simpl. destruct (fo_record O <? rw_bytes rw + e_colbytes E col)%Z.
  - eapply hoare_bind.
    + eapply hoare_pre; [|apply (finish_record_spec mc (set_rec st f rw') rows f fid rw' (G ++ zip addrs col))].
      intros w Hlo Hw. destruct (Hstep w Hw). split_and!; auto. simpl. by rewrite lookup_insert.
    + intros st''. apply hoare_ret'. intros w Hlo (?&?&?&?&?). split_and!; auto.
  - apply hoare_ret'. intros w Hlo Hw. destruct (Hstep w Hw). split_and!; auto.
Qed.

Definition resolved_col (rv : rview) (data : list row) (ff : string * Z) (fc : string * list cell) : Prop :=
  fc.1 = ff.1 ∧ ∃ col, tcol ff.1 data = Ok col
    ∧ Forall2 (fun a c => resolve_cell rv a = Some c) fc.2 col.

Lemma write_record_columns_spec mc st rows fs data G :
  Forall (fun ff => ff.1 ∈ record_names s) fs →
  hoare lo (fun w => ainv mc st rows w ∧ facts (rec_view (as_recs st) (w_fs w)) G)
    (write_record_columns E O st fs data)
    (fun '(st', cols) w => ainv mc st' rows w
        ∧ facts (rec_view (as_recs st') (w_fs w)) G
        ∧ Forall2 (resolved_col (rec_view (as_recs st') (w_fs w)) data) fs cols
        ∧ as_writer st' = as_writer st ∧ as_cached st' = as_cached st).
Proof.
  intros Hfs. revert st G. induction fs as [|[f fid] fs IH]; intros st G; simpl.
  - apply hoare_ret'. intros w Hlo [? ?]. split_and!; auto; constructor.
  - inversion Hfs as [|?? Hf Hfs']; subst.
    apply hoare_lift_bind. intros col Hcol.
    eapply hoare_bind; [by apply (write_record_column_spec mc st rows f fid col G)|].
    intros [st1 addrs].
    apply (hoare_pre _ _ (fun w => (ainv mc st1 rows w
                ∧ facts (rec_view (as_recs st1) (w_fs w)) (G ++ zip addrs col))
         ∧ (length addrs = length col ∧ as_writer st1 = as_writer st ∧ as_cached st1 = as_cached st))).
    { intros w _. tauto. }
    apply hoare_pure_r. intros (Hlen&Hw1&Hc1).
    eapply hoare_bind; [by apply (IH Hfs' st1 (G ++ zip addrs col))|].
    intros [st2 rest]. apply hoare_ret'. intros w Hlo (Ha&HG&Hcols&Hw2&Hc2).
    apply Forall_app in HG as [HG Hz].
    split_and!; auto; try congruence. constructor; [|done].
    split; [done|]. exists col. split; [done|]. simpl.
    clear -Hz Hlen. revert col Hlen Hz.
    induction addrs as [|a addrs IH]; intros [|c col] Hlen Hz; simpl in *; try done.
    inversion Hz; subst. constructor; [done|]. apply IH; [lia|done].
Qed.

Lemma rec_fields_names : (rec_fields s).*1 = record_names s.
Proof.
  unfold rec_fields, record_names, s_names, names_of. rewrite <-list_fmap_compose.
  induction (s_fields s) as [|f fs IH]; [done|]. rewrite !fmap_cons, !filter_cons.
  simpl. case_decide; simpl; [by f_equal|done].
Qed.

(** Appending columns row by row. *)
Lemma append_columns_rows (t : list row) cols :
  Forall (fun nc => length nc.2 = length t) cols →
  append_columns t cols =
    imap (fun i r => r ++ ((fun nc => (nc.1, default CNull (nc.2 !! i))) <$> cols)) t.
Proof.
  revert t. induction cols as [|[n c] cols IH]; intros t Hl; simpl.
  - unfold append_columns. simpl. apply list_eq. intros i. rewrite list_lookup_imap.
    destruct (t !! i); simpl; [|done]. by rewrite app_nil_r.
  - inversion Hl as [|?? Hc Hl']; subst. simpl in Hc.
    unfold append_columns in *. simpl. rewrite IH.
    + unfold tappend. apply list_eq. intros i. rewrite !list_lookup_imap, lookup_zip_with.
      destruct (t !! i) as [r|] eqn:Hr; simpl; [|done].
      destruct (lookup_lt_is_Some_2 c i) as [x Hx]; [rewrite Hc; by eapply lookup_lt_Some|].
      rewrite Hx. simpl. by rewrite <-app_assoc.
    + eapply Forall_impl; [done|]. intros [n' c'] Hc'. simpl in *.
      unfold tappend. rewrite zip_with_length. lia.
Qed.

Lemma resolve_row_cons rv recs nc r d l :
  resolve_field rv recs nc = Some d → resolve_row rv recs r = Some l →
  resolve_row rv recs (nc :: r) = Some (d :: l).
Proof. unfold resolve_row. simpl. intros ->. simpl. by intros ->. Qed.
Lemma resolve_row_app rv recs r1 r2 l1 l2 :
  resolve_row rv recs r1 = Some l1 → resolve_row rv recs r2 = Some l2 →
  resolve_row rv recs (r1 ++ r2) = Some (l1 ++ l2).
Proof. unfold resolve_row. intros. apply mapM_app_Some. eauto. Qed.
Lemma resolve_row_index rv recs r : (∀ n, n ∈ r.*1 → n ∉ recs) → resolve_row rv recs r = Some r.
Proof.
  intros Hn. apply mapM_Some. apply Forall2_same_length_lookup_2; [done|].
  intros i x y Hx Hy. rewrite Hx in Hy. injection Hy as <-. unfold resolve_field.
  rewrite decide_False; [done|]. apply Hn. apply elem_of_list_fmap. exists x. split; [done|].
  by eapply elem_of_list_lookup_2.
Qed.

(** The rows written for a batch, without and with address input. *)
Definition out_names : list string := index_names s ++ record_names s.

Lemma written_rows rv data idx cols out :
  tsel (index_names s) data = Ok idx →
  Forall2 (resolved_col rv data) (rec_fields s) cols →
  out = append_columns idx cols →
  ∃ rows, tsel out_names data = Ok rows ∧ resolve_rows rv (s_recs s) out = Some rows.
Proof.
  intros Hidx Hcols ->.
  pose proof Hidx as Hidx'. apply tsel_ok in Hidx'.
  assert (Hlen : length idx = length data) by (symmetry; by eapply Forall2_length).
  rewrite append_columns_rows.
  2:{ apply Forall_lookup. intros i [n c] Hi.
      destruct (Forall2_lookup_r _ _ _ _ _ Hcols Hi) as ([f fid]&_&(_&col&Hcol&Hf2)).
      apply Forall2_length in Hf2. apply tcol_ok, Forall2_length in Hcol. simpl in *. lia. }
  set (g := fun i (r : row) => r ++ ((fun nc => (nc.1, default CNull (nc.2 !! i))) <$> cols)).
  assert (Hrow : ∀ i r d, idx !! i = Some r → data !! i = Some d →
     ∃ l, rsel out_names d = Ok l ∧ resolve_row rv (s_recs s) (g i r) = Some l).
  { intros i r d Hr Hd.
    assert (Hsel : rsel (index_names s) d = Ok r).
    { by eapply (Forall2_lookup_lr _ _ _ i d r) in Hidx'. }
    assert (Hrec : ∃ l2, rsel (record_names s) d = Ok l2
       ∧ resolve_row rv (s_recs s) ((fun nc => (nc.1, default CNull (nc.2 !! i))) <$> cols) = Some l2).
    { rewrite <-rec_fields_names.
      assert (Hinr : Forall (fun ff => ff.1 ∈ s_recs s) (rec_fields s)).
      { unfold rec_fields. apply Forall_fmap, Forall_forall. intros f [??]%elem_of_list_filter. done. }
      clear -Hcols Hd Hlen Hidx' Hr Hinr.
      induction Hcols as [|[f fid] [n c] ffs cols (Hn&col&Hcol&Hf2) _ IH]; simpl.
      - exists []. done.
      - inversion Hinr as [|?? Hin Hinr']; subst. destruct (IH Hinr') as (l2&Hs&Hres).
        simpl in *. subst n.
        apply tcol_ok in Hcol. destruct (Forall2_lookup_l _ _ _ _ _ Hcol Hd) as (v&Hv&Hg).
        destruct (Forall2_lookup_r _ _ _ _ _ Hf2 Hv) as (a&Ha&Hra).
        exists ((f, v) :: l2). split.
        + apply rsel_ok. constructor; [done|]. by apply rsel_ok.
        + apply resolve_row_cons; [|done]. unfold resolve_field. cbn [fst snd].
          rewrite decide_True by done. rewrite Ha. cbn [default]. unfold id. by rewrite Hra. }
    destruct Hrec as (l2&Hs2&Hr2). exists (r ++ l2). split.
    - apply rsel_app. eauto.
    - unfold g. apply resolve_row_app; [|done]. apply resolve_row_index.
      rewrite (rsel_names _ _ _ Hsel). intros n [??]%elem_of_list_filter. done. }
  assert (Hex : ∃ rows, Forall2 (fun d l => rsel out_names d = Ok l) data rows
              ∧ Forall2 (fun r l => resolve_row rv (s_recs s) r = Some l) (imap g idx) rows).
  { clear Hidx Hidx' Hcols. revert Hrow Hlen. generalize g. clear g.
    revert data. induction idx as [|r idx IH]; intros [|d data] g Hrow Hlen; try done.
    - exists []. split; constructor.
    - destruct (Hrow 0 r d eq_refl eq_refl) as (l&Hl1&Hl2).
      destruct (IH data (fun i => g (S i))) as (rows&H1&H2); [|simpl in Hlen; lia|].
      + intros i r' d' Hr' Hd'. apply (Hrow (S i)); done.
      + exists (l :: rows). split; constructor; done. }
  destruct Hex as (rows&H1&H2). exists rows. split; [by apply tsel_ok|].
  unfold resolve_rows. by apply mapM_Some.
Qed.

(** Address input: the stored columns are taken over. *)
Lemma copied_rows data idx cols :
  tsel (index_names s) data = Ok idx →
  rmapM (fun '(f, _) => rmap (pair f) (tcol f data)) (rec_fields s) = Ok cols →
  tsel out_names data = Ok (append_columns idx cols).
Proof.
  intros Hidx Hcols.
  assert (Hcols' : Forall2 (fun f fc => fc.1 = f ∧ tcol f data = Ok fc.2) (record_names s) cols).
  { rewrite <-rec_fields_names. apply Forall2_fmap_l. apply rmapM_ok in Hcols.
    eapply Forall2_impl; [exact Hcols|]. intros [f fid] [n c]. simpl.
    intros (col&Hcol&[= -> ->])%rmap_ok. done. }
  apply tsel_ok in Hidx. apply tsel_ok.
  assert (Hlen : length idx = length data) by (symmetry; by eapply Forall2_length).
  rewrite append_columns_rows.
  2:{ apply Forall_lookup. intros i [n c] Hi.
      destruct (Forall2_lookup_r _ _ _ _ _ Hcols' Hi) as (f&_&(_&Hcol)).
      apply tcol_ok, Forall2_length in Hcol. simpl in *. lia. }
  apply Forall2_same_length_lookup_2; [by rewrite imap_length|].
  intros i d r Hd Hr. rewrite list_lookup_imap in Hr.
  destruct (idx !! i) as [r0|] eqn:Hr0; [|done]. simpl in Hr. injection Hr as <-.
  apply rsel_app. exists r0, ((fun nc => (nc.1, default CNull (nc.2 !! i))) <$> cols).
  split_and!; [|apply rsel_ok|done].
  { by eapply (Forall2_lookup_lr _ _ _ i d r0) in Hidx. }
  apply Forall2_fmap_r. eapply Forall2_impl; [exact Hcols'|].
  intros f [n c] [Hn Hcol]. simpl in *. subst n. split; [done|].
  apply tcol_ok in Hcol. destruct (Forall2_lookup_l _ _ _ _ _ Hcol Hd) as (v&->&Hg). done.
Qed.

Lemma tsel_resolve rv recs names data ldata out :
  resolve_rows rv recs data = Some ldata → tsel names data = Ok out →
  ∃ lout, resolve_rows rv recs out = Some lout ∧ tsel names ldata = Ok lout.
Proof.
  intros Hr%mapM_Some Ho%tsel_ok. setoid_rewrite tsel_ok. unfold resolve_rows. setoid_rewrite mapM_Some.
  revert out Ho. induction Hr as [|r l data ldata Hrl _ IH]; intros out Ho;
    inversion Ho as [|? r' ? out' Hsel Hout]; subst.
  - exists []. split; constructor.
  - destruct (rsel_resolve _ _ _ _ _ _ Hrl Hsel) as (lr&?&?).
    destruct (IH _ Hout) as (lout&?&?). exists (lr :: lout). split; by constructor.
Qed.

Lemma rec_view_base w recs : recs_ok w recs → vle (records_in (w_fs w)) (rec_view recs (w_fs w)).
Proof.
  intros Hr p rs Hp. unfold rec_view. exists []. rewrite app_nil_r.
  destruct p as [|[] u|]; try done. destruct (recs !! field) as [rw|] eqn:Hrw; [|done].
  case_decide as Hd; [|done]. destruct (Hr _ _ Hrw) as (_&_&Hfs&_).
  unfold records_in in Hp. rewrite <-Hd, Hfs in Hp. done.
Qed.

Definition with_writer (st : append_st) (wr : option (path * list (list row))) (c : option (list row)) :=
  AppendSt wr (as_recs st) c (as_bytes st) (as_man_cached st) (as_man st) (as_rman st)
    (as_log st) (as_stats st).

Lemma manifest_row_fields p gs m :
  manifest_row E (phys_schema s) (s_pks s) p gs = Ok m →
  mr_path m = p ∧ mr_rows m = Z.of_nat (length (concat gs)).
Proof. unfold manifest_row. intros (cols&_&[= <-])%rbind_ok. done. Qed.

Lemma finish_index_writer_spec mc st rows p gs :
  concat gs ≠ [] →
  hoare lo (ainv mc (with_writer st (Some (p, gs)) None) rows)
    (finish_index_writer E s st (p, gs))
    (fun st' w => ainv mc (with_writer st' None None) rows w ∧ as_writer st' = None
        ∧ as_cached st' = as_cached st ∧ as_recs st' = as_recs st).
Proof.
  intros Hne. unfold finish_index_writer. eapply hoare_bind.
  - apply (hoare_put _ _ (fun _ w => ∃ w0, ainv mc (with_writer st (Some (p, gs)) None) rows w0
              ∧ w = put_world w0 p (FIndex (header s) gs))).
    intros w Hlo Ha. destruct (ai_writer _ _ _ _ Ha) as ((u&->&?&?)&?&?).
    split; [exists KIndex, u; split_and!; auto; lia|]. eauto.
  - intros ?. apply hoare_lift_bind. intros m Hm. apply hoare_ret'.
    intros w Hlo (w0&Ha&->).
    destruct (manifest_row_fields _ _ _ Hm) as [Hmp Hmr].
    pose proof Ha as [Hb Hc Hma Hwo Hr Hrm Hrows Hl Hs].
    destruct Hwo as ((u&->&?&?)&Hpart&Hconf). simpl in *.
    set (w' := put_world w0 (PGen KIndex u) (FIndex (header s) gs)).
    assert (Hk : keep (w_fs w0) (w_fs w')).
    { apply keep_put. by right. }
    assert (Hmade : made w' m).
    { exists u, gs. rewrite Hmp. simpl. split_and!; auto. by rewrite lookup_insert. }
    split_and!; try done. split; simpl; auto.
    + apply bounded_put; done.
    + apply Forall_app. split; [|by repeat constructor].
      eapply Forall_impl; [done|]. intros ?. apply made_keep; [done|simpl; lia].
    + done.
    + intros f rw Hrw. destruct (Hr f rw Hrw) as (?&(u2&Hu2&?&?)&?&?&?). split_and!; eauto.
      simpl. rewrite lookup_insert_ne; [done|]. by rewrite Hu2.
    + eapply Forall_impl; [done|]. intros ?. apply rmade_keep; [done|simpl; lia].
    + unfold st_phys, writer_rows in *. simpl in *. rewrite app_nil_r in *.
      replace (man_rows (<[PGen KIndex u:=FIndex (header s) gs]> (w_fs w0)) (as_man st ++ [m]))
        with (man_rows (w_fs w0) (as_man st) ++ concat gs).
      * eapply resolve_rows_vle; [|done]. by apply rec_view_keep.
      * pose proof (man_rows_keep w0 w' _ Hk Hma) as Hmr'. simpl in Hmr'.
        unfold man_rows in *. rewrite bind_app, Hmr'. f_equal.
        rewrite bind_cons. unfold file_rows at 1. rewrite Hmp, lookup_insert. simpl.
        by rewrite app_nil_r.
    + rewrite Hl, fmap_app. unfold added_bitmap. simpl. by rewrite Hmp.
    + rewrite Hs. unfold man_stats, update_index_stats. simpl. rewrite !fmap_app, !Zsum_app. simpl.
      f_equal; lia.
Qed.

Lemma check_table_ok t : check_table s t = Ok tt → Forall (fun r => row_conforms s r = true) t.
Proof.
  unfold check_table. destruct (forallb (row_conforms s) t) eqn:Hf; [|done].
  intros _. apply Forall_forall. intros r Hr. rewrite forallb_forall in Hf. apply Hf.
  by apply elem_of_list_In.
Qed.

(** Record files that existed before the operation. *)
Definition old_view (fs : fsys) : rview := fun p =>
  if decide (below lo p) then records_in fs p else None.
Lemma old_view_vle w w' : wle lo w w' → vle (old_view (w_fs w)) (old_view (w_fs w')).
Proof.
  intros Hw p rs Hp. exists []. rewrite app_nil_r. unfold old_view in *. case_decide; [|done].
  unfold records_in in *. by rewrite (wle_lookup lo w w' p).
Qed.
Lemma old_view_base w recs : recs_ok w recs → vle (old_view (w_fs w)) (rec_view recs (w_fs w)).
Proof.
  intros Hr. eapply vle_trans; [|by apply rec_view_base].
  intros p rs. unfold old_view. case_decide; [|done]. intros ->. exists []. by rewrite app_nil_r.
Qed.

Lemma ainv_phys mc st st' rows add idx1 w :
  ainv mc st rows w →
  resolve_rows (rec_view (as_recs st) (w_fs w)) (s_recs s) idx1 = Some add →
  as_man_cached st' = as_man_cached st → as_man st' = as_man st → as_rman st' = as_rman st →
  as_log st' = as_log st → as_stats st' = as_stats st → as_recs st' = as_recs st →
  writer_ok w st' →
  writer_rows st' ++ default [] (as_cached st') = writer_rows st ++ default [] (as_cached st) ++ idx1 →
  ainv mc st' (rows ++ add) w.
Proof.
  intros [Hb Hc Hm Hwo Hr Hrm Hrows Hl Hs] Hadd E1 E2 E3 E4 E5 E6 Hwo' Hph.
  split; rewrite ?E1, ?E2, ?E3, ?E4, ?E5, ?E6; auto.
  unfold st_phys in *. rewrite E2, Hph. apply mapM_app_Some.
  apply mapM_app_Some in Hrows as (k1&k2&H1&H2&->).
  exists k1, (k2 ++ add). split_and!; [done| |by rewrite app_assoc].
  rewrite app_assoc. apply mapM_app_Some. eauto.
Qed.

(** _write_arrow adds the given rows. *)
Lemma append_write_spec (addr_in : bool) mc st rows data ldata :
  hoare lo (fun w => (ainv mc st rows w ∧ nonempty_writer st) ∧
        (if addr_in then resolve_rows (old_view (w_fs w)) (s_recs s) data = Some ldata
         else ldata = data))
    (append_write E O s addr_in st data)
    (fun st' w => nonempty_writer st' ∧
       ∃ add, tsel out_names ldata = Ok add ∧ ainv mc st' (rows ++ add) w).
Proof.
  destruct data as [|d0 data0] eqn:Hdata.
  { unfold append_write. apply hoare_ret'. intros w Hlo ((Ha&Hne)&Hl). split; [done|].
    exists []. rewrite app_nil_r. split; [|done]. destruct addr_in; [|by subst].
    simpl in Hl. by injection Hl as <-. }
  unfold append_write. rewrite <-Hdata.
  assert (Hdne : data ≠ []) by by subst. clear d0 data0 Hdata.
  set (R := fun w : world => if addr_in then resolve_rows (old_view (w_fs w)) (s_recs s) data = Some ldata
         else ldata = data).
  assert (HR : ∀ w w', wle lo w w' → R w → R w').
  { intros w w' Hw. unfold R. destruct addr_in; [|done]. apply resolve_rows_vle. by apply old_view_vle. }
  eapply hoare_bind.
  { eapply hoare_frame; [exact HR|]. eapply hoare_pre; [|apply (maybe_create_spec mc st rows)]. by intros w _ []. }
  intros [st0 wr]. apply hoare_lift_bind. intros idx Hidx.
  eapply (hoare_bind _ _ _ (fun '(st1, idx1) w => ainv mc st1 rows w ∧ as_writer st1 = Some wr ∧ idx1 ≠ []
            ∧ ∃ add, tsel out_names ldata = Ok add
              ∧ resolve_rows (rec_view (as_recs st1) (w_fs w)) (s_recs s) idx1 = Some add)).
  { assert (Hout : ∀ rows', tsel out_names data = Ok rows' → length rows' = length data).
    { intros rows' H%tsel_ok%Forall2_length. done. }
    destruct addr_in; unfold R.
    - apply hoare_lift_bind. intros cols Hcols. apply hoare_ret'.
      intros w Hlo ((Ha&Hw0&_)&Hld). split_and!; auto.
      + intros Hnil. pose proof (copied_rows _ _ _ Hidx Hcols) as Hc. rewrite Hnil in Hc.
        apply Hout in Hc. destruct data; done.
      + pose proof (copied_rows _ _ _ Hidx Hcols) as Hc.
        destruct (tsel_resolve _ _ _ _ _ _ Hld Hc) as (lout&Hl1&Hl2). exists lout. split; [done|].
        eapply resolve_rows_vle; [|done]. apply old_view_base. apply (ai_recs _ _ _ _ Ha).
    - apply (hoare_pre _ _ (fun w => (as_writer st0 = Some wr ∧ ldata = data) ∧ ainv mc st0 rows w)).
      { tauto. }
      apply hoare_pure. intros (Hw0&->).
      eapply hoare_bind.
      { eapply hoare_pre; [|apply (write_record_columns_spec mc st0 rows (rec_fields s) data [])].
        - intros w _ Ha. split; [done|constructor].
        - rewrite <-rec_fields_names. apply Forall_forall. intros ff Hff.
          apply elem_of_list_fmap. eauto. }
      intros [st1 cols]. apply hoare_ret'. intros w Hlo (Ha&_&Hcols&Hw1&Hc1).
      destruct (written_rows _ _ _ _ _ Hidx Hcols eq_refl) as (add&Hadd&Hres).
      split_and!; auto; [congruence| |eauto].
      intros Hnil. rewrite Hnil in Hres. simpl in Hres. injection Hres as <-.
      apply Hout in Hadd. destruct data; done. }
  intros [st1 idx1]. simpl.
  apply (hoare_pre _ _ (fun w => (as_writer st1 = Some wr ∧ idx1 ≠ []) ∧ ∃ add, tsel out_names ldata = Ok add
              ∧ ainv mc st1 rows w
              ∧ resolve_rows (rec_view (as_recs st1) (w_fs w)) (s_recs s) idx1 = Some add)).
  { naive_solver. }
  apply hoare_pure. intros (Hw1&Hne). apply hoare_ex. intros add. apply hoare_pure. intros Hadd.
  destruct wr as [p gs].
  destruct (fo_row_group O <? e_nbytes E (default [] (as_cached st1) ++ idx1))%Z.
  - unfold write_table. eapply hoare_bind.
    { apply hoare_lift_bind. intros [] Hchk. apply check_table_ok in Hchk.
      apply (hoare_ret' _ _ (fun w' w => w' = (p, gs ++ chop (e_rowgroups E (default [] (as_cached st1) ++ idx1))
                 (default [] (as_cached st1) ++ idx1))
             ∧ ainv mc (AppendSt (Some w') (as_recs st1) None (as_bytes st1 + e_nbytes E idx1)%Z
                     (as_man_cached st1) (as_man st1) (as_rman st1) (as_log st1) (as_stats st1)) (rows ++ add) w)).
      intros w Hlo (Ha&Hres). split; [done|].
      eapply (ainv_phys mc st1); simpl; eauto.
      - pose proof (ai_writer _ _ _ _ Ha) as Hwo. unfold writer_ok in *. simpl. rewrite Hw1 in Hwo.
        destruct Hwo as (?&?&?). split_and!; auto. rewrite concat_app, concat_chop. by apply Forall_app.
      - unfold writer_rows. simpl. rewrite Hw1, concat_app, concat_chop, app_nil_r. done. }
    intros w'. apply hoare_pure. intros ->.
    assert (Hcne : concat (gs ++ chop (e_rowgroups E (default [] (as_cached st1) ++ idx1))
                 (default [] (as_cached st1) ++ idx1)) ≠ []).
    { rewrite concat_app, concat_chop. destruct idx1; [done|]. intros [_ [_ ?]%app_nil]%app_nil. done. }
    destruct (fo_file O <? _)%Z.
    + eapply hoare_post; [eapply hoare_pre; [|by apply (finish_index_writer_spec mc _ (rows ++ add))]|].
      * intros w _ Ha. exact Ha.
      * intros st' w _ (Ha&Hw'&Hc'&Hr'). split; [by left|]. exists add. split; [done|].
        replace st' with (with_writer st' None None); [done|].
        unfold with_writer. destruct st'. simpl in *. by subst.
    + apply hoare_ret'. intros w _ Ha. split; [|eauto]. right. unfold writer_rows. simpl.
      rewrite app_nil_r. done.
  - apply hoare_ret'. intros w Hlo (Ha&Hres). split.
    + right. unfold writer_rows. simpl. destruct idx1; [done|]. intros [_ [_ ?]%app_nil]%app_nil. done.
    + exists add. split; [done|]. eapply (ainv_phys mc st1); simpl; eauto.
      * pose proof (ai_writer _ _ _ _ Ha) as Hwo. unfold writer_ok in *. simpl. by rewrite Hw1 in Hwo.
      * unfold writer_rows. simpl. by rewrite Hw1.
Qed.

Lemma append_batches_spec mc st rows batches :
  hoare lo (fun w => ainv mc st rows w ∧ nonempty_writer st)
    (foldM_st (append_write E O s false) st batches)
    (fun st' w => nonempty_writer st' ∧
       ∃ add, tsel out_names (concat batches) = Ok add ∧ ainv mc st' (rows ++ add) w).
Proof.
  revert st rows. induction batches as [|b bs IH]; intros st rows; simpl.
  - apply hoare_ret'. intros w Hlo [Ha Hne]. split; [done|]. exists []. by rewrite app_nil_r.
  - eapply hoare_bind.
    { eapply hoare_pre; [|apply (append_write_spec false mc st rows b b)]. done. }
    intros st1. apply hoare_pure. intros Hne.
    apply hoare_ex. intros add. apply hoare_pure. intros Hadd.
    eapply hoare_post; [eapply hoare_pre; [|apply (IH st1 (rows ++ add))]|]; [done|].
    intros st' w _ (?&add'&Hadd'&?). split; [done|]. exists (add ++ add').
    rewrite app_assoc. split; [|done]. apply rmapM_app. eauto.
Qed.

Lemma finish_records_spec mc st rows fs :
  hoare lo (ainv mc st rows) (finish_records st fs)
    (fun st' w => ainv mc st' rows w ∧ as_writer st' = as_writer st ∧ as_cached st' = as_cached st
        ∧ (∀ f, as_recs st' !! f = if decide (f ∈ fs.*1) then None else as_recs st !! f)).
Proof.
  revert st. induction fs as [|[f fid] fs IH]; intros st; simpl.
  - apply hoare_ret'. intros w _ Ha. split_and!; auto.
  - eapply (hoare_bind _ _ _ (fun st1 w => (as_writer st1 = as_writer st ∧ as_cached st1 = as_cached st
          ∧ as_recs st1 = delete f (as_recs st)) ∧ ainv mc st1 rows w)).
    { destruct (as_recs st !! f) as [rw|] eqn:Hrw.
      - eapply hoare_post; [eapply hoare_pre; [|apply (finish_record_spec mc st rows f fid rw [])]|].
        + intros w _ Ha. split_and!; auto. constructor.
        + intros st' w _ (?&_&?&?&?). done.
      - apply hoare_ret'. intros w _ Ha. split_and!; auto. by rewrite delete_notin. }
    intros st1. apply hoare_pure. intros (Hw1&Hc1&Hr1).
    eapply hoare_post; [apply IH|]. simpl. intros st' w _ (Ha&Hw2&Hc2&Hr2).
    split_and!; auto; [congruence..|]. intros g. rewrite Hr2, Hr1.
    destruct (decide (g = f)) as [->|Hne].
    + rewrite lookup_delete. repeat case_decide; set_solver.
    + rewrite lookup_delete_ne by done. repeat case_decide; set_solver.
Qed.

Lemma finish_index_spec mc st rows :
  hoare lo (fun w => ainv mc st rows w ∧ nonempty_writer st) (finish_index E s st)
    (fun st' w => ainv mc (with_writer st' None None) rows w ∧ as_recs st' = as_recs st).
Proof.
  unfold finish_index.
  apply (hoare_pre _ _ (fun w => (nonempty_writer st ∧ (as_writer st = None → as_cached st = None)) ∧ ainv mc st rows w)).
  { intros w _ [Ha Hn]. split_and!; auto. intros Hnone. pose proof (ai_writer _ _ _ _ Ha) as Hwo.
    unfold writer_ok in Hwo. by rewrite Hnone in Hwo. }
  apply hoare_pure. intros [Hne Hcw].
  eapply (hoare_bind _ _ _ (fun '(st1, ow) w => as_recs st1 = as_recs st ∧
     match ow with
     | Some (p, gs) => concat gs ≠ [] ∧ ainv mc (with_writer st1 (Some (p, gs)) None) rows w
     | None => ainv mc (with_writer st1 None None) rows w
     end)).
  { destruct (as_cached st) as [t|] eqn:Hc.
    - eapply hoare_bind; [apply (maybe_create_spec mc st rows)|]. intros [st1 [p gs]].
      apply (hoare_pre _ _ (fun w => (st1 = st ∧ as_writer st = Some (p, gs)) ∧ ainv mc st1 rows w)).
      { intros w _ (?&?&?&?&?&Hold). assert (st1 = st) as ->.
        { apply Hold. intros Hn. specialize (Hcw Hn). done. }
        split_and!; auto. }
      apply hoare_pure. intros (->&Hw1).
      unfold write_table. apply (hoare_bind _ _ _ (fun w' w => w' = (p, gs ++ chop (e_rowgroups E t) t)
           ∧ Forall (fun r => row_conforms s r = true) t ∧ ainv mc st rows w)).
      { apply hoare_lift_bind. intros [] Hchk%check_table_ok. apply hoare_ret'. done. }
      intros w'. apply hoare_pure. intros ->. apply hoare_pure. intros Hchk.
      apply hoare_ret'. intros w _ Ha. split; [done|]. rewrite concat_app, concat_chop. split.
      + destruct Hne as [Hnone|Hne]; [congruence|]. unfold writer_rows in Hne. by rewrite Hw1, Hc in Hne.
      + rewrite <-(app_nil_r rows). eapply (ainv_phys mc st _ rows [] []); simpl; eauto.
        * pose proof (ai_writer _ _ _ _ Ha) as Hwo. unfold writer_ok in *. simpl. rewrite Hw1 in Hwo.
          destruct Hwo as (?&?&?). split_and!; auto. rewrite concat_app, concat_chop. by apply Forall_app.
        * unfold writer_rows. simpl. rewrite Hw1, Hc, concat_app, concat_chop, !app_nil_r. done.
    - apply hoare_ret'. intros w _ Ha. split; [done|].
      destruct (as_writer st) as [[p gs]|] eqn:Hw.
      + destruct Hne as [Hnone|Hne]; [congruence|]. unfold writer_rows in Hne. rewrite Hw, Hc, app_nil_r in Hne.
        split; [done|]. replace (with_writer st (Some (p, gs)) None) with st; [done|].
        destruct st; simpl in *; by subst.
      + replace (with_writer st None None) with st; [done|]. destruct st; simpl in *; by subst. }
  intros [st1 ow]. apply hoare_pure. intros Hr1. destruct ow as [[p gs]|].
  - apply hoare_pure. intros Hcne.
    eapply hoare_post; [by apply (finish_index_writer_spec mc st1 rows p gs)|].
    intros st' w _ (?&?&?&?). split; [done|congruence].
  - apply hoare_ret'. done.
Qed.

(** What an append returns. *)
Definition append_out (mc : list mrow) (rows : list row) (op : option patch) (w : world) : Prop :=
  bounded w ∧
  match op with
  | None => rows = []
  | Some p => ∃ ms rms u, rows ≠ []
      ∧ pa_add_idx p = [PGen KIdxMan u] ∧ (lo ≤ u)%N ∧ (u < w_next w)%N
      ∧ w_fs w !! PGen KIdxMan u = Some (FIdxMan (mc ++ ms))
      ∧ Forall (made w) ms
      ∧ resolve_rows (records_in (w_fs w)) (s_recs s) (man_rows (w_fs w) ms) = Some rows
      ∧ Forall (rmade w) rms
      ∧ (match rms with [] => pa_add_rec p = []
         | _ => ∃ u2, pa_add_rec p = [PGen KRecMan u2] ∧ (lo ≤ u2)%N ∧ (u2 < w_next w)%N
                  ∧ w_fs w !! PGen KRecMan u2 = Some (FRecMan rms) end)
      ∧ pa_del_idx p = []
      ∧ pa_log p = Some (ChangeLog [] (added_bitmap <$> ms))
      ∧ pa_stats p = man_stats ms rms
      ∧ st_rows (pa_stats p) = Z.of_nat (length rows)
  end.

Lemma made_rows w ms :
  Forall (made w) ms → Zsum (mr_rows <$> ms) = Z.of_nat (length (man_rows (w_fs w) ms)).
Proof.
  intros H. induction H as [|m ms (u&gs&?&?&?&Hf&?&?&Hm) _ IH]; [done|].
  rewrite man_rows_cons, app_length, fmap_cons.
  change (Zsum (mr_rows m :: (mr_rows <$> ms))) with (mr_rows m + Zsum (mr_rows <$> ms))%Z.
  rewrite IH. destruct (manifest_row_fields _ _ _ Hm) as [_ ->]. unfold file_rows at 1. rewrite Hf. lia.
Qed.
Lemma made_nonempty w ms : Forall (made w) ms → man_rows (w_fs w) ms = [] → ms = [].
Proof.
  intros H. destruct H as [|m ms (u&gs&?&?&?&Hf&?&Hne&Hm) _]; [done|].
  rewrite man_rows_cons. unfold file_rows at 1. rewrite Hf.
  intros [? _]%app_nil. done.
Qed.

Lemma keep_fresh_man (w : world) k f :
  bounded w →
  let w1 := put_world (put_world (bump_world w) (PGen k (w_next w)) FPartial) (PGen k (w_next w)) f in
  keep (w_fs w) (w_fs w1) ∧ bounded w1 ∧ w_fs w1 !! PGen k (w_next w) = Some f
  ∧ w_next w1 = (w_next w + 1)%N ∧ (∀ q, q ≠ PGen k (w_next w) → w_fs w1 !! q = w_fs w !! q).
Proof.
  intros Hb w1. simpl. split_and!; auto.
  - rewrite insert_insert. apply keep_put. left. by apply bounded_fresh.
  - apply bounded_put; [apply bounded_put; [by apply bounded_bump|simpl; lia]|simpl; lia].
  - by rewrite lookup_insert.
  - intros q Hq. by rewrite !lookup_insert_ne.
Qed.

Lemma rows_length rv recs P rows : resolve_rows rv recs P = Some rows → length rows = length P.
Proof. intros H%mapM_Some%Forall2_length. done. Qed.

Lemma append_finish_spec mc st rows :
  hoare lo (fun w => ainv mc st rows w ∧ nonempty_writer st) (append_finish E s st)
    (append_out mc rows).
Proof.
  unfold append_finish. apply hoare_pure_r. intros Hne.
  eapply hoare_bind; [apply (finish_records_spec mc st rows (rec_fields s))|]. intros st1.
  apply (hoare_pre _ _ (fun w => (as_recs st1 = ∅ ∧ nonempty_writer st1) ∧ ainv mc st1 rows w)).
  { intros w _ (Ha&Hw&Hc&Hr). split_and!; auto.
    - apply map_eq. intros f. rewrite lookup_empty.
      destruct (as_recs st1 !! f) as [rw|] eqn:Hrw; [|done].
      destruct (ai_recs _ _ _ _ Ha f rw Hrw) as (Hin&_). rewrite Hr in Hrw.
      rewrite rec_fields_names in Hrw. by rewrite decide_True in Hrw.
    - unfold nonempty_writer, writer_rows in *. by rewrite Hw, Hc. }
  apply hoare_pure. intros [Hr1 Hne1].
  eapply hoare_bind.
  { eapply hoare_pre; [|apply (finish_index_spec mc st1 rows)]. done. }
  intros st2. apply hoare_pure_r. intros Hr2. rewrite Hr1 in Hr2.
  set (im_post := fun (st2 : append_st) (im : option path) (w : world) =>
     bounded w ∧ Forall (made w) (as_man st2) ∧ Forall (rmade w) (as_rman st2)
     ∧ as_man_cached st2 = mc
     ∧ resolve_rows (records_in (w_fs w)) (s_recs s) (man_rows (w_fs w) (as_man st2)) = Some rows
     ∧ as_log st2 = added_bitmap <$> as_man st2
     ∧ as_stats st2 = man_stats (as_man st2) (as_rman st2)
     ∧ match im with
       | None => mc ++ as_man st2 = []
       | Some p => ∃ u, p = PGen KIdxMan u ∧ (lo ≤ u)%N ∧ (u < w_next w)%N
                   ∧ w_fs w !! p = Some (FIdxMan (mc ++ as_man st2))
       end).
  assert (Hbase : ∀ w, ainv mc (with_writer st2 None None) rows w →
     bounded w ∧ Forall (made w) (as_man st2) ∧ Forall (rmade w) (as_rman st2)
     ∧ as_man_cached st2 = mc
     ∧ resolve_rows (records_in (w_fs w)) (s_recs s) (man_rows (w_fs w) (as_man st2)) = Some rows
     ∧ as_log st2 = added_bitmap <$> as_man st2
     ∧ as_stats st2 = man_stats (as_man st2) (as_rman st2)).
  { intros w [Hb Hc Hm Hwo Hr Hrm Hrows Hl Hs]. simpl in *. split_and!; auto.
    unfold st_phys, writer_rows in Hrows. simpl in Hrows. rewrite app_nil_r in Hrows.
    eapply resolve_rows_vle; [|done]. rewrite Hr2. intros q rs Hq. exists []. rewrite app_nil_r.
    unfold rec_view in Hq. destruct q as [|[] ?|]; try done. }
  eapply (hoare_bind _ _ _ (im_post st2)).
  { unfold finish_index_manifest.
    apply (hoare_pre _ _ (fun w => as_man_cached st2 = mc ∧ ainv mc (with_writer st2 None None) rows w)).
    { intros w _ Ha. split; [|done]. apply (ai_cached _ _ _ _ Ha). }
    apply hoare_pure. intros Hmc. rewrite Hmc. destruct (mc ++ as_man st2) as [|m0 l0] eqn:Hall.
    - apply hoare_ret'. intros w _ Ha. destruct (Hbase w Ha) as (?&?&?&?&?&?&?). unfold im_post.
      split_and!; auto.
    - rewrite <-Hall. eapply hoare_bind.
      { apply (hoare_new_path _ _ (fun p w => ∃ w0, p = PGen KIdxMan (w_next w0) ∧ (lo ≤ w_next w0)%N
             ∧ ainv mc (with_writer st2 None None) rows w0 ∧ w = bump_world w0)).
        eauto 10. }
      intros p. eapply hoare_bind.
      { apply (hoare_write_parquet _ _ (im_post st2 ∘ (fun _ => Some p))).
        intros w Hlo (w0&->&Hlo0&Ha&->). split; [exists KIdxMan, (w_next w0); simpl; split_and!; auto; lia|].
        destruct (keep_fresh_man w0 KIdxMan (FIdxMan (mc ++ as_man st2))) as (Hk&Hb&Hf&Hn&_); [apply Ha|].
        destruct (Hbase w0 Ha) as (?&Hm&Hrm&?&Hrows&?&?). unfold im_post. simpl.
        split_and!; auto.
        - eapply Forall_impl; [exact Hm|]. intros ?. apply made_keep; [done|rewrite Hn; lia].
        - eapply Forall_impl; [exact Hrm|]. intros ?. apply rmade_keep; [done|rewrite Hn; lia].
        - rewrite (man_rows_keep w0 (put_world (put_world (bump_world w0) (PGen KIdxMan (w_next w0)) FPartial)
               (PGen KIdxMan (w_next w0)) (FIdxMan (mc ++ as_man st2)))) by done.
          eapply resolve_rows_vle; [|done]. by apply records_in_keep.
        - exists (w_next w0). split_and!; auto; lia. }
      intros ?. apply hoare_ret'. done. }
  intros im.
  eapply (hoare_bind _ _ _ (fun rm w => im_post st2 im w ∧
      match rm with
      | None => as_rman st2 = []
      | Some p => as_rman st2 ≠ [] ∧ ∃ u, p = PGen KRecMan u ∧ (lo ≤ u)%N ∧ (u < w_next w)%N
                   ∧ w_fs w !! p = Some (FRecMan (as_rman st2))
      end)).
  { unfold finish_record_manifest. destruct (as_rman st2) as [|m0 l0] eqn:Hrman.
    - apply hoare_ret'. done.
    - rewrite <-Hrman. eapply hoare_bind.
      { apply (hoare_new_path _ _ (fun p w => ∃ w0, p = PGen KRecMan (w_next w0) ∧ (lo ≤ w_next w0)%N
             ∧ im_post st2 im w0 ∧ w = bump_world w0)).
        eauto 10. }
      intros p. eapply hoare_bind.
      { apply (hoare_write_parquet _ _ (fun _ w => im_post st2 im w ∧ ∃ u, p = PGen KRecMan u ∧ (lo ≤ u)%N ∧ (u < w_next w)%N
                   ∧ w_fs w !! p = Some (FRecMan (as_rman st2)))).
        intros w Hlo (w0&->&Hlo0&(?&Hm&Hrm&?&Hrows&?&?&Him)&->).
        split; [exists KRecMan, (w_next w0); simpl; split_and!; auto; lia|].
        destruct (keep_fresh_man w0 KRecMan (FRecMan (as_rman st2))) as (Hk&Hb&Hf&Hn&Hsame); [done|].
        split; [|exists (w_next w0); split_and!; auto; lia]. unfold im_post.
        split_and!; auto.
        - eapply Forall_impl; [exact Hm|]. intros ?. apply made_keep; [done|rewrite Hn; lia].
        - eapply Forall_impl; [exact Hrm|]. intros ?. apply rmade_keep; [done|rewrite Hn; lia].
        - rewrite (man_rows_keep w0 (put_world (put_world (bump_world w0) (PGen KRecMan (w_next w0)) FPartial)
               (PGen KRecMan (w_next w0)) (FRecMan (as_rman st2)))) by done.
          eapply resolve_rows_vle; [|done]. by apply records_in_keep.
        - destruct im as [q|]; [|done]. destruct Him as (u&->&?&?&?). exists u. split_and!; try done; try lia; rewrite Hsame; done. }
      intros ?. apply hoare_ret'. intros w _ [? ?]. split_and!; auto. by rewrite Hrman. }
  intros rm.
  apply (hoare_pre _ _ (fun w => im_post st2 im w ∧ (match rm with
      | None => as_rman st2 = []
      | Some p => as_rman st2 ≠ [] ∧ ∃ u, p = PGen KRecMan u ∧ (lo ≤ u)%N ∧ (u < w_next w)%N
                   ∧ w_fs w !! p = Some (FRecMan (as_rman st2))
      end) ∧ st_rows (as_stats st2) = Z.of_nat (length rows))).
  { intros w _ [Him Hrm]. split_and!; auto. destruct Him as (?&Hm&_&_&Hrows&_&Hs&_).
    rewrite Hs. simpl. rewrite (made_rows w) by done. by rewrite (rows_length _ _ _ _ Hrows). }
  destruct (st_rows (as_stats st2) =? 0)%Z eqn:Hz.
  - apply hoare_ret'. intros w _ ((?&_)&_&Hlen). split; [done|].
    apply Z.eqb_eq in Hz. destruct rows; [done|]. simpl in Hlen. lia.
  - apply hoare_ret'. intros w _ ((?&Hm&Hrm&?&Hrows&Hlog&Hs&Him)&Hrm2&Hlen). split; [done|].
    apply Z.eqb_neq in Hz.
    assert (Hmne : as_man st2 ≠ []).
    { intros Hnil. rewrite Hs, Hnil in Hz. done. }
    destruct im as [q|].
    2:{ apply app_nil in Him as [_ ?]. done. }
    destruct Him as (u&->&?&?&?).
    exists (as_man st2), (as_rman st2), u. simpl. split_and!; auto.
    + destruct rows; [|done]. simpl in Hlen. lia.
    + destruct rm as [q|].
      * destruct Hrm2 as (Hrne&u2&->&?&?&?). destruct (as_rman st2); [done|]. exists u2. done.
      * by rewrite Hrm2.
    + rewrite Hlog. by destruct (as_man st2).
Qed.

Lemma append_init_inv w : bounded w → ainv [] append_init [] w.
Proof. intros Hb. split; simpl; auto; done. Qed.

(** LocalRunner.append: [rows] are the input rows in schema order. *)
Lemma append_op_spec batches :
  hoare lo bounded (append_op E O s batches)
    (fun op w => ∃ rows, tsel out_names (concat batches) = Ok rows ∧ append_out [] rows op w).
Proof.
  unfold append_op. eapply hoare_bind.
  { eapply hoare_pre; [|apply (append_batches_spec [] append_init [])].
    intros w _ Hb. split; [by apply append_init_inv|by left]. }
  intros st. apply hoare_pure. intros Hne. apply hoare_ex. intros add. apply hoare_pure. intros Hadd.
  eapply hoare_post; [eapply hoare_pre; [|apply (append_finish_spec [] st add)]|].
  - done.
  - simpl. intros op w _ Ho. eauto.
Qed.
End spec.
