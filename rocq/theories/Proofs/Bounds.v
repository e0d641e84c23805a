(** From manifest rows to key bounds for all rows of the file. *)
From Verif.Model Require Import Manifests AppendOp ReadOp.
From Verif.Spec Require Import Pruning.
From Verif.Proofs Require Import Lib Order FalsifySound Stats SchemaFacts.

Lemma phys_ty_leaves t : ty_leaves (phys_ty t) = ty_leaves t.
Proof. by destruct t. Qed.
Lemma phys_ty_names t : ty_names (phys_ty t) = ty_names t.
Proof. by destruct t. Qed.
Lemma phys_field_plain s f :
  f_name f ∉ s_recs s → ty_leaves (f_ty (phys_field s f)) = ty_leaves (f_ty f)
     ∧ ty_names (f_ty (phys_field s f)) = ty_names (f_ty f).
Proof.
  intros Hn. unfold phys_field. rewrite decide_False by done. simpl.
  split; [apply phys_ty_leaves|apply phys_ty_names].
Qed.

Lemma cell_ok_leaves f is_rec c :
  cell_ok f is_rec c = true → (is_rec = true → f_ty f = record_address_type) →
  (is_list (f_ty f) = false → is_struct (f_ty f) = false → ty_leaves (f_ty f) = 1) →
  length (cell_leaves (ty_leaves (f_ty f)) c) = ty_leaves (f_ty f).
Proof.
  unfold cell_ok. destruct is_rec.
  - destruct c; try done. intros _ Ht _. rewrite Ht by done. done.
  - destruct c as [|v|p i|ls]; simpl; try done.
    + intros _ _ _. apply replicate_length.
    + intros Hk _ Hone. rewrite Hone; [done| |]; destruct (f_ty f), v; done.
    + intros [_ Hl]%andb_true_iff _ _. by apply bool_decide_eq_true in Hl.
Qed.
Lemma leaf_types t : is_list t = false → is_struct t = false → ty_leaves t = 1.
Proof. by destruct t. Qed.

Lemma conforms_cell s r f :
  row_conforms s r = true → f ∈ s_fields s →
  cell_ok (phys_field s f) (bool_decide (f_name f ∈ s_recs s)) (default CNull (rget (f_name f) r)) = true.
Proof.
  unfold row_conforms. intros [_ Hall]%andb_true_iff Hf.
  rewrite forallb_forall in Hall. specialize (Hall (phys_field s f)).
  rewrite !phys_field_name in Hall. apply Hall. apply elem_of_list_In. apply elem_of_list_fmap. eauto.
Qed.
Lemma conforms_leaf_counts s r : row_conforms s r = true → leaf_counts_ok (phys_schema s) r.
Proof.
  intros Hc f Hf. apply elem_of_list_fmap in Hf as (g&->&Hg). rewrite phys_field_name.
  eapply cell_ok_leaves; [by apply conforms_cell| |apply leaf_types].
  intros Hb%bool_decide_eq_true. unfold phys_field. by rewrite decide_True.
Qed.

Lemma index_of_spec n l k : index_of n l = Some k → l !! k = Some n ∧ ∀ j, j < k → l !! j ≠ Some n.
Proof.
  revert k. induction l as [|m l IH]; intros k; simpl; [done|]. case_decide as Hd.
  - intros [= <-]. subst. split; [done|]. lia.
  - destruct (index_of n l) as [k'|]; simpl; [|done]. intros [= <-].
    destruct (IH k' eq_refl) as [H1 H2]. split; [done|]. intros [|j] Hj; simpl.
    + congruence.
    + apply H2. lia.
Qed.
Lemma index_of_some n l : n ∈ l → ∃ k, index_of n l = Some k.
Proof.
  induction l as [|m l IH]; [set_solver|]. simpl. case_decide; [eauto|].
  intros [?|Hin]%elem_of_cons; [done|]. destruct (IH Hin) as [k ->]. eauto.
Qed.

Lemma plain_before_lookup s n f k :
  plain_before s n → s_fields s !! k = Some f → f_name f = n →
  ∀ j g, j < k → s_fields s !! j = Some g →
    f_name g ∉ s_recs s ∧ ty_leaves (f_ty g) = 1 ∧ ty_names (f_ty g) = [].
Proof.
  intros Hp Hk Hn j g Hj Hg. specialize (Hp (take k (s_fields s)) f (drop (S k) (s_fields s))).
  rewrite take_drop_middle in Hp by done. specialize (Hp eq_refl Hn).
  eapply Forall_lookup_1 in Hp; [exact Hp|]. by rewrite lookup_take.
Qed.

Lemma flat_prefix_plain s n f k :
  plain_before s n → s_fields s !! k = Some f → f_name f = n → flat_prefix (phys_schema s) k.
Proof.
  intros Hp Hk Hn j g Hj Hg. unfold phys_schema in Hg. rewrite list_lookup_fmap in Hg.
  destruct (s_fields s !! j) as [g0|] eqn:Hg0; simpl in Hg; [|done]. injection Hg as <-.
  destruct (plain_before_lookup _ _ _ _ Hp Hk Hn j g0 Hj Hg0) as (?&?&?).
  by rewrite (proj1 (phys_field_plain _ _ H)).
Qed.

Lemma aligned_plain s ns :
  wf_schema s → (∀ n, n ∈ ns → plain_before s n) → aligned (fenv_of s) ns.
Proof.
  intros Hw Hp n k Hn Hk. simpl in *. specialize (Hp n Hn).
  apply index_of_spec in Hk as [Hk _]. unfold names_of, phys_schema in Hk. rewrite !list_lookup_fmap in Hk.
  destruct (s_fields s !! k) as [f|] eqn:Hf; simpl in Hk; [|done]. injection Hk as Hname.
  rewrite phys_field_name in Hname.
  assert (Hpre : ∀ j g, j < k → s_fields s !! j = Some g → ty_names (f_ty (phys_field s g)) = []).
  { intros j g Hj Hg. destruct (plain_before_lookup _ _ _ _ Hp Hf Hname j g Hj Hg) as (Hnr&_&Hnm).
    by rewrite (proj2 (phys_field_plain _ _ Hnr)). }
  clear Hp. unfold flat_names, phys_schema. revert k Hf Hpre.
  generalize (s_fields s) as fs. induction fs as [|g fs IH]; intros k Hf Hpre; [done|].
  destruct k as [|k]; simpl in *.
  - injection Hf as ->. rewrite phys_field_name. by rewrite Hname.
  - rewrite (Hpre 0 g); [|lia|done]. simpl. apply IH; [done|]. intros j h Hj Hh. apply (Hpre (S j)); [lia|done].
Qed.

Lemma field_ids_lookup fs n :
  NoDup (names_of fs) → ∀ f, f ∈ fs → f_name f = n → field_ids_of fs !! n = Some (field_id f).
Proof.
  unfold field_ids_of. intros Hnd f Hf Hn.
  assert (Hgen : ∀ m : gmap string Z, foldl (fun m f => <[f_name f := field_id f]> m) m fs !! n = Some (field_id f)); [|done].
  revert Hnd Hf. induction fs as [|g fs IH]; intros Hnd Hf m; [set_solver|]. simpl.
  unfold names_of in Hnd. rewrite fmap_cons, NoDup_cons in Hnd. destruct Hnd as [Hg Hnd].
  apply elem_of_cons in Hf as [->|Hf]; [|by apply IH]. subst n.
  assert (Hk : ∀ l (m : gmap string Z), f_name g ∉ names_of l →
     foldl (fun m f => <[f_name f := field_id f]> m) m l !! f_name g = m !! f_name g).
  { induction l as [|h l IHl]; intros m0 Hl; [done|]. simpl. rewrite IHl.
    - apply lookup_insert_ne. intros Heq. apply Hl. rewrite <-Heq. apply elem_of_list_here.
    - intros Hin. apply Hl. by apply elem_of_list_further. }
  rewrite Hk by done. by rewrite lookup_insert.
Qed.

(** Statistics of a primary key in a manifest row. *)
Lemma stats_fields_lookup s k f :
  s_fields s !! k = Some f → f_name f ∈ s_pks s →
  (phys_field s f, k) ∈ stats_fields (phys_schema s) (s_pks s).
Proof.
  intros Hk Hn. unfold stats_fields. apply elem_of_list_omap. exists (k, phys_field s f). split.
  - apply elem_of_lookup_imap. exists k, (phys_field s f). split; [done|].
    unfold phys_schema. by rewrite list_lookup_fmap, Hk.
  - rewrite phys_field_name. by rewrite decide_True.
Qed.
Lemma stats_fields_in s f k :
  (f, k) ∈ stats_fields (phys_schema s) (s_pks s) →
  ∃ g, f = phys_field s g ∧ s_fields s !! k = Some g ∧ f_name g ∈ s_pks s.
Proof.
  unfold stats_fields. intros ([k' f']&Hin&Hd)%elem_of_list_omap.
  apply elem_of_lookup_imap in Hin as (j&h&[= -> ->]&Hj).
  case_decide; [|done]. injection Hd as -> ->. unfold phys_schema in Hj.
  rewrite list_lookup_fmap in Hj. destruct (s_fields s !! k) as [g|] eqn:Hg; simpl in Hj; [|done].
  injection Hj as <-. rewrite phys_field_name in *. eauto.
Qed.

Lemma list_find_unique {A B} (l : list (A * B)) `{EqDecision A} i b :
  (i, b) ∈ l → (∀ b', (i, b') ∈ l → b' = b) → snd <$> list_find (fun s : A * B => s.1 = i) l = Some (i, b).
Proof.
  intros Hin Hu. destruct (list_find (fun s : A * B => s.1 = i) l) as [[j [i' b']]|] eqn:Hf.
  - apply list_find_Some in Hf as (Hj&Hi&_). simpl in Hi. subst i'. simpl.
    rewrite (Hu b'); [done|]. by eapply elem_of_list_lookup_2.
  - apply list_find_None in Hf. eapply Forall_forall in Hf; [|exact Hin]. by simpl in Hf.
Qed.

Lemma manifest_row_stat E s p gs m k f :
  wf_schema s → manifest_row E (phys_schema s) (s_pks s) p gs = Ok m →
  s_fields s !! k = Some f → f_name f ∈ s_pks s →
  ∃ st, column_stats (phys_schema s) gs k = Ok st
      ∧ okind_ok (f_ty (phys_field s f)) st.1 = true ∧ okind_ok (f_ty (phys_field s f)) st.2 = true
      ∧ stat_look m (field_id f, SMin) = st.1 ∧ stat_look m (field_id f, SMax) = st.2.
Proof.
  intros Hw Hm Hk Hn. unfold manifest_row in Hm. apply rbind_ok in Hm as (cols&Hcols&[= <-]).
  apply rmapM_ok in Hcols.
  pose proof (stats_fields_lookup s k f Hk Hn) as Hin. apply elem_of_list_lookup in Hin as [j Hj].
  destruct (Forall2_lookup_l _ _ _ _ _ Hcols Hj) as ([i st]&Hi&Hst). simpl in Hst.
  apply rbind_ok in Hst as (st'&Hcs&Hd). 
  destruct (okind_ok _ st'.1) eqn:Hk1; [|done]. destruct (okind_ok _ st'.2) eqn:Hk2; [|done].
  simpl in Hd. injection Hd as <- <-. exists st'. split_and!; try done.
  all: unfold stat_look; simpl.
  all: pose proof (list_find_unique cols (field_id f) st') as Hlf.
  all: rewrite phys_field_id in Hi.
  all: assert (Hcin : (field_id f, st') ∈ cols) by (by eapply elem_of_list_lookup_2).
  all: specialize (Hlf Hcin).
  all: assert (Huniq : ∀ b', (field_id f, b') ∈ cols → b' = st').
  1,3: intros b' Hb'; apply elem_of_list_lookup in Hb' as [j' Hj'];
    destruct (Forall2_lookup_r _ _ _ _ _ Hcols Hj') as ([f2 k2]&Hf2&Hst2); simpl in Hst2;
    apply rbind_ok in Hst2 as (st2&Hcs2&Hd2);
    destruct (okind_ok _ st2.1 && okind_ok _ st2.2); [|done]; injection Hd2 as Hid <-;
    apply elem_of_list_lookup_2, stats_fields_in in Hf2 as (g&->&Hg&_);
    rewrite phys_field_id in Hid;
    assert (k2 = k) as -> by
      (eapply (NoDup_lookup (field_id <$> s_fields s) _ _ (field_id f)); [apply Hw| |];
       [by rewrite list_lookup_fmap, Hg; simpl; rewrite Hid|by rewrite list_lookup_fmap, Hk]);
    congruence.
  all: specialize (Hlf Huniq); destruct (list_find _ cols) as [[? [? []]]|]; simpl in *; [|done];
    by injection Hlf as -> <-.
Qed.

(** The recorded statistics bound the values of a primary key. *)
Lemma manifest_row_bounds E s p gs m n f k :
  wf_schema s → manifest_row E (phys_schema s) (s_pks s) p gs = Ok m →
  Forall (fun r => row_conforms s r = true) (concat gs) →
  plain_before s n → n ∈ s_pks s → s_fields s !! k = Some f → f_name f = n →
  bounds (stat_look m (field_id f, SMin)) (stat_look m (field_id f, SMax))
    (column_values n (concat gs)).
Proof.
  intros Hw Hm Hconf Hp Hn Hk Hname.
  destruct (manifest_row_stat E s p gs m k f Hw Hm Hk ltac:(by rewrite Hname)) as (st&Hcs&_&_&Hmin&Hmax).
  rewrite Hmin, Hmax. apply column_stats_bounds in Hcs. unfold pair_bounds in Hcs.
  assert (Hf : f ∈ s_fields s) by (by eapply elem_of_list_lookup_2).
  assert (Hnr : f_name f ∉ s_recs s) by (rewrite Hname; by apply Hw).
  destruct (wsc_pkty s Hw f Hf) as [Hl Hs]; [by rewrite Hname|].
  erewrite (leaf_column_values _ _ _ (phys_field s f)) in Hcs.
  - rewrite phys_field_name, Hname in Hcs. done.
  - intros r Hr. apply conforms_leaf_counts. by eapply Forall_forall in Hconf.
  - by eapply flat_prefix_plain.
  - unfold phys_schema. by rewrite list_lookup_fmap, Hk.
  - rewrite (proj1 (phys_field_plain _ _ Hnr)). by apply leaf_types.
  - intros r Hr. rewrite phys_field_name. eapply Forall_forall in Hconf; [|exact Hr].
    pose proof (conforms_cell s r f Hconf Hf) as Hc. rewrite bool_decide_eq_false_2 in Hc by done.
    destruct (rget (f_name f) r) as [[]|]; simpl in *; try done.
    apply andb_true_iff in Hc as [Hc _]. unfold phys_field in Hc. rewrite decide_False in Hc by done.
    simpl in Hc. destruct (f_ty f); done.
Qed.

Lemma manifest_row_key_bounds E s p gs m r :
  wf_schema s → manifest_row E (phys_schema s) (s_pks s) p gs = Ok m →
  Forall (fun r => row_conforms s r = true) (concat gs) →
  (∀ n, n ∈ s_pks s → plain_before s n) →
  r ∈ concat gs → (∀ n, n ∈ s_pks s → row_look r n ≠ Some SNaN) →
  key_bounds (fenv_of s) (stat_look m) (row_look r).
Proof.
  intros Hw Hm Hconf Hp Hr Hnan n i v Hn Hi Hv. simpl in *.
  destruct (name_field s n) as (f&Hf&Hname); [by apply Hw|].
  assert (i = field_id f) as ->.
  { assert (Hpf : phys_field s f ∈ phys_schema s) by (apply elem_of_list_fmap; eauto).
    rewrite (field_ids_lookup (phys_schema s) n) with (f := phys_field s f) in Hi.
    - rewrite phys_field_id in Hi. congruence.
    - rewrite phys_names. apply Hw.
    - done.
    - by rewrite phys_field_name. }
  apply elem_of_list_lookup in Hf as [k Hk].
  pose proof (manifest_row_bounds E s p gs m n f k Hw Hm Hconf (Hp n Hn) Hn Hk Hname) as Hb.
  assert (Hvn : is_nan v = false).
  { destruct v; try done. by apply Hnan in Hv. }
  destruct (Hb v) as (a&b&?&?&?&?&?&?).
  - unfold column_values. apply elem_of_list_omap. eauto.
  - done.
  - exists a, b. done.
Qed.
