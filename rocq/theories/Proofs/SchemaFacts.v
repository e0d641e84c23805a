(** Well-formed storage schemas. *)
From Verif.Model Require Import Schema AppendOp ReadOp.
From Verif.Proofs Require Import Lib.

Record wf_schema (s : schema) : Prop := {
  wsc_names : NoDup (s_names s);
  wsc_ids : NoDup (field_id <$> s_fields s);
  wsc_pos : Forall (fun f => (0 ≤ field_id f)%Z) (s_fields s);
  wsc_pks : ∀ n, n ∈ s_pks s → n ∈ s_names s;
  wsc_pks_ne : s_pks s ≠ [];
  wsc_recs : ∀ n, n ∈ s_recs s → n ∈ s_names s;
  wsc_disj : ∀ n, n ∈ s_pks s → n ∉ s_recs s;
  wsc_pkty : ∀ f, f ∈ s_fields s → f_name f ∈ s_pks s →
               is_list (f_ty f) = false ∧ is_struct (f_ty f) = false }.

Lemma phys_field_name s f : f_name (phys_field s f) = f_name f.
Proof. unfold phys_field. by case_decide. Qed.
Lemma phys_field_id s f : field_id (phys_field s f) = field_id f.
Proof. unfold phys_field. by case_decide. Qed.
Lemma phys_names s : names_of (phys_schema s) = s_names s.
Proof.
  unfold phys_schema, s_names, names_of. rewrite <-list_fmap_compose.
  apply list_fmap_ext. intros. apply phys_field_name.
Qed.
Lemma phys_ids s : field_id <$> phys_schema s = field_id <$> s_fields s.
Proof.
  unfold phys_schema. rewrite <-list_fmap_compose.
  apply list_fmap_ext. intros. apply phys_field_id.
Qed.

(** Columns of a file written by Space, or of an external file. *)
Definition cols_ok (s : schema) (cols : list (string * Z)) : Prop :=
  Forall2 (fun f c => c.1 = f_name f ∧
             (c.2 = field_id f ∨ c.2 = NULL_FIELD_ID ∧ f_name f ∉ s_recs s)) (s_fields s) cols.
Lemma header_ok s : cols_ok s (header s).
Proof.
  unfold cols_ok, header, phys_schema. rewrite <-list_fmap_compose. apply Forall2_fmap_r.
  apply Forall2_same_length_lookup_2; [done|]. intros i f g Hf Hg. rewrite Hf in Hg. injection Hg as <-.
  simpl. rewrite phys_field_name, phys_field_id. auto.
Qed.
Lemma cols_ok_names s cols : cols_ok s cols → cols.*1 = s_names s.
Proof.
  unfold s_names, names_of. intros H. induction H as [|f c fs cols [Hc _] _ IH]; [done|].
  rewrite !fmap_cons. by rewrite Hc, IH.
Qed.
Lemma nodup_field_inj s f g :
  NoDup (s_names s) → f ∈ s_fields s → g ∈ s_fields s → f_name f = f_name g → f = g.
Proof.
  unfold s_names, names_of. intros Hnd Hf Hg Heq.
  apply elem_of_list_lookup in Hf as [i Hi], Hg as [j Hj].
  assert (i = j) as ->; [|congruence].
  eapply (NoDup_lookup _ i j (f_name f)); [done| |].
  - by rewrite list_lookup_fmap, Hi.
  - rewrite list_lookup_fmap, Hj. simpl. by rewrite Heq.
Qed.
Lemma nodup_id_inj s f g :
  NoDup (field_id <$> s_fields s) → f ∈ s_fields s → g ∈ s_fields s → field_id f = field_id g → f = g.
Proof.
  intros Hnd Hf Hg Heq. apply elem_of_list_lookup in Hf as [i Hi], Hg as [j Hj].
  assert (i = j) as ->; [|congruence].
  eapply (NoDup_lookup _ i j (field_id f)); [done| |].
  - by rewrite list_lookup_fmap, Hi.
  - rewrite list_lookup_fmap, Hj. simpl. by rewrite Heq.
Qed.
Lemma col_id_lookup s cols f :
  NoDup (s_names s) → cols_ok s cols → f ∈ s_fields s →
  ∃ i, col_id cols (f_name f) = Some i ∧ (i = field_id f ∨ i = NULL_FIELD_ID ∧ f_name f ∉ s_recs s).
Proof.
  unfold s_names, names_of, cols_ok. intros Hnd Hc. induction Hc as [|g [n i] fs cols [Hn Hi] _ IH]; intros Hf.
  - set_solver.
  - simpl in *. subst n. rewrite NoDup_cons in Hnd. destruct Hnd as [Hg Hnd]. unfold col_id.
    rewrite filter_cons. simpl. destruct (decide (f_name g = f_name f)) as [Heq|Hne]; simpl.
    + exists i. split; [done|]. apply elem_of_cons in Hf as [->|Hf]; [done|].
      exfalso. apply Hg. rewrite Heq. apply elem_of_list_fmap. eauto.
    + apply elem_of_cons in Hf as [->|Hf]; [done|]. by apply IH.
Qed.
Lemma name_field s n : n ∈ s_names s → ∃ f, f ∈ s_fields s ∧ f_name f = n.
Proof. unfold s_names, names_of. intros (f&->&?)%elem_of_list_fmap. eauto. Qed.

Lemma last_in {A} (l : list A) x : last l = Some x → x ∈ l.
Proof.
  induction l as [|a [|b l] IH]; simpl; [done|intros [= ->]; set_solver|].
  intros Hl. right. apply IH. done.
Qed.
Lemma last_singleton_filter {A} (P : A → Prop) `{∀ x, Decision (P x)} (l : list A) x :
  x ∈ l → P x → (∀ y, y ∈ l → P y → y = x) → last (filter P l) = Some x.
Proof.
  intros Hx HP Huniq. destruct (last (filter P l)) as [y|] eqn:Hy.
  - apply last_in, elem_of_list_filter in Hy as [??]. f_equal. auto.
  - apply last_None in Hy. assert (Hin : x ∈ filter P l) by (by apply elem_of_list_filter).
    rewrite Hy in Hin. set_solver.
Qed.

Lemma classify_column_ok s o cols n :
  wf_schema s → cols_ok s cols → n ∈ s_names s → n ∈ selected_fields s o →
  classify_column s o cols n = Ok (n, if decide (n ∈ s_recs s) then Some n else None).
Proof.
  intros Hw Hc Hn Hsel. destruct (name_field s n Hn) as (f&Hf&<-).
  unfold classify_column.
  destruct (col_id_lookup s cols f (wsc_names s Hw) Hc Hf) as (i&->&Hi).
  assert (Hpos : (0 ≤ field_id f)%Z).
  { eapply Forall_forall in Hf; [|apply Hw]. done. }
  assert (Hpf : phys_field s f ∈ phys_schema s) by (apply elem_of_list_fmap; eauto).
  assert (Hidx : ∀ j, j ∈ index_field_ids s o ↔ ∃ g, g ∈ s_fields s ∧ f_name g ∈ selected_fields s o
             ∧ f_name g ∉ s_recs s ∧ j = field_id g).
  { intros j. unfold index_field_ids. rewrite elem_of_list_fmap. split.
    - intros (h&->&[[??] Hin]%elem_of_list_filter). apply elem_of_list_fmap in Hin as (g&->&?).
      rewrite phys_field_name in *. rewrite phys_field_id. eauto.
    - intros (g&?&?&?&->). exists (phys_field s g). rewrite phys_field_id. split; [done|].
      apply elem_of_list_filter. rewrite phys_field_name. split; [done|]. apply elem_of_list_fmap. eauto. }
  destruct (decide (f_name f ∈ s_recs s)) as [Hrec|Hrec].
  - destruct Hi as [->|[_ ?]]; [|done]. rewrite decide_False.
    + unfold record_field_of_id. rewrite (last_singleton_filter _ _ (phys_field s f)).
      * simpl. by rewrite phys_field_name.
      * done.
      * by rewrite phys_field_name, phys_field_id.
      * intros h Hh (_&_&Heq). apply elem_of_list_fmap in Hh as (g&->&Hg). rewrite phys_field_id in Heq.
        f_equal. eapply nodup_id_inj; eauto. apply Hw.
    + intros [Hin|Hneg]; [|unfold NULL_FIELD_ID in Hneg; lia].
      apply Hidx in Hin as (g&Hg&_&Hnr&Heq). apply (nodup_id_inj s) in Heq; auto; [|apply Hw].
      subst. done.
  - rewrite decide_True; [done|]. destruct Hi as [->|[-> _]]; [|by right]. left. apply Hidx. eauto 10.
Qed.
