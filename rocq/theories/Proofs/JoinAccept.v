(** The joins Arrow accepts. *)
From Verif.Model Require Import System RayOps Join.
From Verif.Spec Require Import Logical Api Layout Pruning Joins Joinable.
From Verif.Proofs Require Import Lib Order FalsifySound World Resolve AppendSpec SchemaFacts ReadSpec Stats Bounds Wf OpSpec Inv
  FileSet Ops Bodies Txn SysInv ReadRun Effects DeleteEffect Observe View Prune Calls Reads Total Diff Shards RayRead Joins JoinCalls.

Lemma key_type_of s key f : wf_schema s → f ∈ s_fields s → f_name f = key → key_type s key = Some (type_name (f_ty (phys_field s f))).
Proof.
  intros Hs Hf Hn. unfold key_type.
  assert (head (filter (fun g => f_name g = key) (phys_schema s)) = Some (phys_field s f)) as ->; [|done].
  assert (Hpf : phys_field s f ∈ phys_schema s) by (apply elem_of_list_fmap; eauto).
  assert (Hnd : NoDup (names_of (phys_schema s))) by (rewrite phys_names; apply Hs).
  assert (Hpn : f_name (phys_field s f) = key) by (by rewrite phys_field_name).
  revert Hpf Hnd Hpn. generalize (phys_field s f) as g, (phys_schema s) as fs. clear. intros g fs Hg Hnd Hn.
  induction fs as [|x fs IH]; [by apply elem_of_nil in Hg|]. rewrite filter_cons. unfold names_of in Hnd. cbn in Hnd.
  apply NoDup_cons in Hnd as [Hx Hnd]. apply elem_of_cons in Hg as [->|Hg].
  - by rewrite decide_True.
  - rewrite decide_False; [by apply IH|]. intros Hxk. apply Hx. rewrite Hxk, <-Hn. apply elem_of_list_fmap. eauto.
Qed.
Lemma names_stored t t' : is_list t = false → is_struct t = false → is_list t' = false → is_struct t' = false →
  type_name (phys_ty t) = type_name (phys_ty t') ↔ stored_as t = stored_as t'.
Proof.
  intros H1 H2 H3 H4. split.
  - destruct t, t'; simpl in *; try done. by intros [= ->].
  - destruct t, t'; simpl in *; try done. by intros [= ->].
Qed.
Lemma flat_iff s i : flat_columns s i = true ↔ flat_side s i.
Proof.
  unfold flat_columns, flat_side. rewrite forallb_forall. split.
  - intros H f Hf Hn Hr. specialize (H (phys_field s f)). rewrite phys_field_name in H. unfold phys_field in H.
    rewrite decide_False in H by done. cbn [f_ty] in H.
    rewrite (bool_decide_false (f_name f ∈ s_recs s)), (bool_decide_false (f_name f ∉ side_fields s i)), !orb_false_r in H by auto.
    assert (Hin : In (AField (f_name f) (phys_ty (f_ty f)) (f_meta f) true) (phys_schema s)).
    { apply elem_of_list_In, elem_of_list_fmap. exists f. split; [|done]. unfold phys_field. by rewrite decide_False. }
    specialize (H Hin). by destruct (f_ty f).
  - intros H x Hx%elem_of_list_In. apply elem_of_list_fmap in Hx as (f&->&Hf). rewrite phys_field_name.
    destruct (decide (f_name f ∈ s_recs s)); [rewrite (bool_decide_true (f_name f ∈ s_recs s)) by done; by rewrite orb_true_r|].
    destruct (decide (f_name f ∈ side_fields s i)) as [Hi|]; [|rewrite (bool_decide_true (f_name f ∉ side_fields s i)) by done; by rewrite orb_true_r].
    unfold phys_field. rewrite decide_False by done. cbn [f_ty]. specialize (H f Hf Hi). by destruct (f_ty f); try naive_solver.
Qed.
Lemma accepts_iff key sl sr l r :
  wf_schema sl → wf_schema sr → key ∈ s_pks sl → key ∈ s_pks sr →
  join_accepts key sl sr l r = Ok tt ↔ joinable key sl sr l r.
Proof.
  intros Hwl Hwr Hkl Hkr.
  destruct (name_field sl key (wsc_pks _ Hwl _ Hkl)) as (f1&Hf1&Hn1).
  destruct (name_field sr key (wsc_pks _ Hwr _ Hkr)) as (f2&Hf2&Hn2).
  assert (Hph : ∀ (s : schema) f, wf_schema s → key ∈ s_pks s → f ∈ s_fields s → f_name f = key → f_ty (phys_field s f) = phys_ty (f_ty f)).
  { intros s f Hs Hk Hf Hn. unfold phys_field. rewrite decide_False; [done|]. rewrite Hn. by apply Hs. }
  assert (Hty : key_type sl key = key_type sr key ↔ stored_as (f_ty f1) = stored_as (f_ty f2)).
  { rewrite (key_type_of sl key f1), (key_type_of sr key f2), (Hph sl f1), (Hph sr f2) by done.
    destruct (wsc_pkty _ Hwl f1 Hf1) as [? ?]; [by rewrite Hn1|]. destruct (wsc_pkty _ Hwr f2 Hf2) as [? ?]; [by rewrite Hn2|].
    rewrite <-names_stored by done. split; [by intros [= ?]|by intros ->]. }
  assert (Hone : ∀ (s : schema) f g, wf_schema s → f ∈ s_fields s → g ∈ s_fields s → f_name f = f_name g → f = g).
  { clear. intros s f g Hs Hf Hg Hn. eapply (nodup_field_inj s); try done. apply Hs. }
  unfold join_accepts, joinable. rewrite <-!flat_iff. split.
  - case_decide as Hk; [|done]. destruct (flat_columns sl l) eqn:H1; [|done]. destruct (flat_columns sr r) eqn:H2; [|done].
    cbn [andb]. case_decide; [|done]. intros _. split_and!; try done. intros fl fr Hfl Hfr Hnl Hnr.
    rewrite (Hone sl fl f1), (Hone sr fr f2) by congruence || done. by apply Hty.
  - intros (Hk&->&->&Hnd). rewrite decide_True by (apply Hty; auto). cbn [andb]. by rewrite decide_True.
Qed.
Lemma reached_schema σ hid s : reachable σ → schema_at σ hid = Some s → wf_schema s.
Proof.
  intros Hr Hs. unfold schema_at in Hs. destruct (y_handles σ !! hid) as [h|] eqn:Hh; [|done].
  destruct (reachable_seen _ _ _ Hr Hh) as (s'&?&?&Hse). pose proof (sn_schema _ _ _ _ _ _ Hse) as Hs'.
  unfold schema_at in Hs'. rewrite Hh in Hs'. simplify_eq. by eapply seen_schema.
Qed.
Lemma joinable_tested σl hl sl σr hr sr key l r :
  reachable σl → reachable σr → schema_at σl hl = Some sl → schema_at σr hr = Some sr →
  bool_decide (key ∈ s_pks sl ∧ key ∈ s_pks sr) = true → join_accepts key sl sr l r = Ok tt → joinable key sl sr l r.
Proof.
  intros Hrl Hrr Hsl Hsr [? ?]%bool_decide_eq_true.
  apply accepts_iff; [exact (reached_schema _ _ _ Hrl Hsl)|exact (reached_schema _ _ _ Hrr Hsr)|done|done].
Qed.

Lemma join_returns σl hl sl σr hr sr keys lf rf lref rref key l r E E' blocks part none_ok b b' L R :
  reachable σl → reachable σr → schema_at σl hl = Some sl → schema_at σr hr = Some sr →
  make_join sl sr keys lf rf lref rref = Ok (key, l, r) →
  own_columns sl l → own_columns sr r →
  plain_before sl key → plain_before sr key →
  result σl hl (run_read_all E' None (ji_fields l) None (ji_ref l) b) = Some (Ok L) →
  result σr hr (run_read_all E' None (ji_fields r) None (ji_ref r) b') = Some (Ok R) →
  (∀ x, x ∈ L ∨ x ∈ R → row_look x key ≠ Some SNaN) →
  joinable key sl sr l r →
  all_keyed key (layout σl hl) → all_keyed key (layout σr hr) →
  none_ok = true ∨ meets part (common key L R) →
  ∃ out, result2 σl hl σr hr (run_join none_ok E blocks part key l r) = Some (Ok out).
Proof.
  intros Hrl Hrr Hsl Hsr Hmk Hfl Hfr Hpl Hpr HL HR Hnan Hj. pose proof (make_join_ok _ _ _ _ _ _ _ _ _ _ Hmk) as (Hkl&Hkr&_).
  eapply (join_succeeds σl hl sl σr hr sr keys lf rf lref rref key l r E E' blocks part none_ok b b' L R); try done.
  apply accepts_iff; [exact (reached_schema _ _ _ Hrl Hsl)|exact (reached_schema _ _ _ Hrr Hsr)|done|done|done].
Qed.
Lemma join_needs σl hl sl σr hr sr keys lf rf lref rref key l r E E' blocks part none_ok b b' L R out :
  reachable σl → reachable σr → schema_at σl hl = Some sl → schema_at σr hr = Some sr →
  make_join sl sr keys lf rf lref rref = Ok (key, l, r) →
  own_columns sl l → own_columns sr r →
  plain_before sl key → plain_before sr key →
  result σl hl (run_read_all E' None (ji_fields l) None (ji_ref l) b) = Some (Ok L) →
  result σr hr (run_read_all E' None (ji_fields r) None (ji_ref r) b') = Some (Ok R) →
  (∀ x, x ∈ L ∨ x ∈ R → row_look x key ≠ Some SNaN) →
  result2 σl hl σr hr (run_join none_ok E blocks part key l r) = Some (Ok out) → out ≠ [] →
  joinable key sl sr l r.
Proof.
  intros Hrl Hrr Hsl Hsr Hmk Hfl Hfr Hpl Hpr HL HR Hnan Hout Hne.
  destruct (make_join_ok _ _ _ _ _ _ _ _ _ _ Hmk) as (Hkl&Hkr&Hil&Hir).
  destruct (side_reached E E' blocks key l σl hl sl b L) as (h1&h1'&f1&o1&Hh1&_&_&Hs1&_); try done; [by intros; apply Hnan; left|].
  destruct (side_reached E E' blocks key r σr hr sr b' R) as (h2&h2'&f2&o2&Hh2&_&_&Hs2&_); try done; [by intros; apply Hnan; right|].
  unfold result2 in Hout. rewrite Hh1, Hh2 in Hout. rewrite (join_run none_ok part key E blocks sl sr l r _ _ _ _ _ _ _ _ _ _ Hs1 Hs2) in Hout.
  cbn [snd] in Hout. injection Hout as Hout.
  apply accepts_iff; [exact (reached_schema _ _ _ Hrl Hsl)|exact (reached_schema _ _ _ Hrr Hsr)|done|done|].
  unfold joined in Hout. apply rbind_ok in Hout as (qa&->&(qb&->&(gs&Hgs&(rs&Hrs&Hout)%rbind_ok)%rbind_ok)%rbind_ok).
  assert (out = concat (omap id rs)) as ->.
  { destruct (none_ok || forallb _ rs); [by injection Hout|done]. }
  apply rmapM_ok in Hrs. clear -Hrs Hne. induction Hrs as [|g o gs rs Ho _ IH]; [done|].
  destruct o as [t|]; [|by apply IH]. clear -Ho. unfold join_tables in Ho.
  destruct (filter _ L); [done|]. destruct (filter _ R); [done|]. by destruct (join_accepts _ _ _ _ _) as [[]|].
Qed.
